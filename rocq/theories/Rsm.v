(** Model of RadioStateMachine: /repo/src/generic/RadioStateMachine.cpp and
    .hpp (all functions).

    Simplification, throughout: [millis()] returns one value [now] during one
    call of a public function.  (On the host the clock only moves between
    calls.)  [BeginMasterRace.v] treats the one place where two readings in one
    call could disagree. *)
From Coq Require Import ZArith Lia List Bool.
From Verif Require Import CInt Packet NetMgr.
Import ListNotations.
Open Scope Z_scope.

(** /repo/src/generic/RadioStateMachine.hpp lines 34-37. *)
Inductive role := Slave | Master.

Definition role_eqb (a b : role) : bool :=
  match a, b with Slave, Slave => true | Master, Master => true | _, _ => false end.

(** /repo/src/generic/RadioStateMachine.hpp lines 10-15. *)
Inductive timer := TimerNone | TimerHeartbeat | TimerChangeEffect | TimerBroadcastEffect.

(** /repo/src/generic/RadioStateMachine.hpp lines 75-91. *)
Definition kSlaveNoPacketTimeout : Z := 5000.
Definition kSlaveNoPacketRandom : Z := 2000.
Definition kMasterHeartbeatInterval : Z := 1000.
Definition kChangeEffectInterval : Z := 60000.
Definition kBroadcastEffectInterval : Z := 2000.

(** The data members, /repo/src/generic/RadioStateMachine.hpp lines 115-149,
    together with the NetworkManager the machine points to.  [timers_] is kept
    as one field per timer; [timers_[TimerNone]] is 0 from the constructor on
    and never assigned, so it is left out.  [rng] counts the raw random draws
    made so far. *)
Record node := mkNode {
  nm : netmgr;
  state : role;          (* RadioState state_ *)
  next_state : role;     (* RadioState next_state_ *)
  t_hb : Z;              (* timers_[TimerHeartbeat], uint32_t *)
  t_ce : Z;              (* timers_[TimerChangeEffect] *)
  t_bc : Z;              (* timers_[TimerBroadcastEffect] *)
  seen_at : Z;           (* uint32_t effect_change_seen_at_ *)
  millis_offset : Z;     (* int32_t millis_offset_ *)
  effect_index : Z;      (* int8_t effect_index_ *)
  num_palettes : Z;      (* uint8_t num_palettes_ *)
  num_effects : Z;       (* uint8_t num_effects_ *)
  packet_ : packet;      (* RadioPacket packet_ *)
  set_effect_packet : packet;  (* RadioPacket set_effect_packet_ *)
  tick_run : bool;       (* bool tick_run_ *)
  rng : nat
}.

(** Field updates. *)
Definition with_nm v n := mkNode v (state n) (next_state n) (t_hb n) (t_ce n) (t_bc n) (seen_at n) (millis_offset n) (effect_index n) (num_palettes n) (num_effects n) (packet_ n) (set_effect_packet n) (tick_run n) (rng n).
Definition with_state v n := mkNode (nm n) v (next_state n) (t_hb n) (t_ce n) (t_bc n) (seen_at n) (millis_offset n) (effect_index n) (num_palettes n) (num_effects n) (packet_ n) (set_effect_packet n) (tick_run n) (rng n).
Definition with_next_state v n := mkNode (nm n) (state n) v (t_hb n) (t_ce n) (t_bc n) (seen_at n) (millis_offset n) (effect_index n) (num_palettes n) (num_effects n) (packet_ n) (set_effect_packet n) (tick_run n) (rng n).
Definition with_t_hb v n := mkNode (nm n) (state n) (next_state n) v (t_ce n) (t_bc n) (seen_at n) (millis_offset n) (effect_index n) (num_palettes n) (num_effects n) (packet_ n) (set_effect_packet n) (tick_run n) (rng n).
Definition with_t_ce v n := mkNode (nm n) (state n) (next_state n) (t_hb n) v (t_bc n) (seen_at n) (millis_offset n) (effect_index n) (num_palettes n) (num_effects n) (packet_ n) (set_effect_packet n) (tick_run n) (rng n).
Definition with_t_bc v n := mkNode (nm n) (state n) (next_state n) (t_hb n) (t_ce n) v (seen_at n) (millis_offset n) (effect_index n) (num_palettes n) (num_effects n) (packet_ n) (set_effect_packet n) (tick_run n) (rng n).
Definition with_seen_at v n := mkNode (nm n) (state n) (next_state n) (t_hb n) (t_ce n) (t_bc n) v (millis_offset n) (effect_index n) (num_palettes n) (num_effects n) (packet_ n) (set_effect_packet n) (tick_run n) (rng n).
Definition with_millis_offset v n := mkNode (nm n) (state n) (next_state n) (t_hb n) (t_ce n) (t_bc n) (seen_at n) v (effect_index n) (num_palettes n) (num_effects n) (packet_ n) (set_effect_packet n) (tick_run n) (rng n).
Definition with_effect_index v n := mkNode (nm n) (state n) (next_state n) (t_hb n) (t_ce n) (t_bc n) (seen_at n) (millis_offset n) v (num_palettes n) (num_effects n) (packet_ n) (set_effect_packet n) (tick_run n) (rng n).
Definition with_num_palettes v n := mkNode (nm n) (state n) (next_state n) (t_hb n) (t_ce n) (t_bc n) (seen_at n) (millis_offset n) (effect_index n) v (num_effects n) (packet_ n) (set_effect_packet n) (tick_run n) (rng n).
Definition with_num_effects v n := mkNode (nm n) (state n) (next_state n) (t_hb n) (t_ce n) (t_bc n) (seen_at n) (millis_offset n) (effect_index n) (num_palettes n) v (packet_ n) (set_effect_packet n) (tick_run n) (rng n).
Definition with_packet_ v n := mkNode (nm n) (state n) (next_state n) (t_hb n) (t_ce n) (t_bc n) (seen_at n) (millis_offset n) (effect_index n) (num_palettes n) (num_effects n) v (set_effect_packet n) (tick_run n) (rng n).
Definition with_set_effect_packet v n := mkNode (nm n) (state n) (next_state n) (t_hb n) (t_ce n) (t_bc n) (seen_at n) (millis_offset n) (effect_index n) (num_palettes n) (num_effects n) (packet_ n) v (tick_run n) (rng n).
Definition with_tick_run v n := mkNode (nm n) (state n) (next_state n) (t_hb n) (t_ce n) (t_bc n) (seen_at n) (millis_offset n) (effect_index n) (num_palettes n) (num_effects n) (packet_ n) (set_effect_packet n) v (rng n).
Definition with_rng v n := mkNode (nm n) (state n) (next_state n) (t_hb n) (t_ce n) (t_bc n) (seen_at n) (millis_offset n) (effect_index n) (num_palettes n) (num_effects n) (packet_ n) (set_effect_packet n) (tick_run n) v.

(** The environment of one node: its build and its stream of raw random draws
    ([rand()] and Arduino's [random()] both draw from it). *)
Record env := mkEnv { plat : platform; draw : nat -> N }.

(** Transmissions of a node, tagged by their call site.  [Forwarded] is the
    relay of NetworkManager.cpp line 22; [Own s] is NetworkManager.cpp line 32
    called from one of the five places of RadioStateMachine.cpp that originate
    packets. *)
Inductive site :=
| ByHeartbeat      (* SendHeartbeat, line 267 *)
| ByElection       (* PerformMasterElection, line 161 *)
| ByChange         (* handleMasterEvent, TimerChangeEffect, line 206 *)
| ByRebroadcast    (* handleMasterEvent, TimerBroadcastEffect, line 212 *)
| ByApi.           (* SetEffect, line 49 *)
Inductive rtx := Forwarded (p : packet) | Own (s : site) (p : packet).

Definition tag (s : site) (t : tx) : rtx :=
  match t with Relay p => Forwarded p | Orig p => Own s p end.

(** A computation of the state machine: it may change the node, transmit
    packets, and fail. *)
Definition M (A : Type) : Type := node -> outcome (A * node * list rtx).
Definition mret {A} (a : A) : M A := fun n => Ok (a, n, []).
Definition mbind {A B} (c : M A) (f : A -> M B) : M B := fun n =>
  match c n with
  | Ok (a, n1, o1) =>
      match f a n1 with
      | Ok (b, n2, o2) => Ok (b, n2, o1 ++ o2)
      | Undef => Undef
      | Abort => Abort
      end
  | Undef => Undef
  | Abort => Abort
  end.
Definition mget {A} (f : node -> A) : M A := fun n => Ok (f n, n, []).
Definition mupd (f : node -> node) : M unit := fun n => Ok (tt, f n, []).
Definition mlift {A} (x : outcome A) : M A := fun n =>
  match x with Ok a => Ok (a, n, []) | Undef => Undef | Abort => Abort end.

Declare Scope rsm_scope.
Notation "x <-- e ; f" := (mbind e (fun x => f))
  (at level 61, e at next level, right associativity) : rsm_scope.
Notation "e ;; f" := (mbind e (fun _ => f))
  (at level 61, right associativity) : rsm_scope.
Open Scope rsm_scope.

Section Machine.
Variable e : env.
Variable now : Z.   (* millis() *)

(** One raw random draw. *)
Definition mdraw : M N := fun n => Ok (draw e (rng n), with_rng (S (rng n)) n, []).

(** [rand()] *)
Definition mrand : M Z := r <-- mdraw; mret (Z.of_N r).

(** [random(lo, hi)] *)
Definition mrandom (lo hi : Z) : M Z := r <-- mdraw; mlift (random2 (plat e) lo hi r).

(** [network_manager_->send(p)]: returns the packet with its new id. *)
Definition msend (s : site) (p : packet) : M packet :=
  r <-- mdraw;
  fun n => match nm_send (plat e) r (nm n) p with
           | Ok (p', m', out) => Ok (p', with_nm m' n, map (tag s) out)
           | Undef => Undef
           | Abort => Abort
           end.

(** [network_manager_->receive(packet)] *)
Definition mreceive (inc : option packet) : M (option packet) := fun n =>
  match nm_receive (nm n) inc with
  | Ok (r, m', out) => Ok (r, with_nm m' n, map (tag ByApi) out)  (* relays only *)
  | Undef => Undef
  | Abort => Abort
  end.

(** /repo/src/generic/RadioStateMachine.cpp lines 242-248; [delay] is uint32_t. *)
Definition SetTimer (t : timer) (delay : Z) : M unit :=
  let v := if delay =? 0 then 0 else u32 (now + delay) in
  match t with
  | TimerNone => mret tt            (* never called with TimerNone *)
  | TimerHeartbeat => mupd (with_t_hb v)
  | TimerChangeEffect => mupd (with_t_ce v)
  | TimerBroadcastEffect => mupd (with_t_bc v)
  end.

(** /repo/src/generic/RadioStateMachine.cpp lines 250-262. *)
Definition timer_due (t : Z) : bool := negb (t =? 0) && (t <? now).
Definition TimerExpired (n : node) : timer :=
  if timer_due (t_hb n) then TimerHeartbeat
  else if timer_due (t_ce n) then TimerChangeEffect
  else if timer_due (t_bc n) then TimerBroadcastEffect
  else TimerNone.

(** /repo/src/generic/RadioStateMachine.cpp lines 38-41: uint32_t + int32_t. *)
Definition GetNetworkMillis (n : node) : Z := u32 (now + u32 (millis_offset n)).

(** /repo/src/generic/RadioStateMachine.cpp line 21. *)
Definition GetCurrentState (n : node) : role := state n.

(** /repo/src/generic/RadioStateMachine.cpp line 43: int8_t to uint8_t. *)
Definition GetEffectIndex (n : node) : Z := u8 (effect_index n).

(** /repo/src/generic/RadioStateMachine.cpp line 45. *)
Definition GetSetEffect (n : node) : packet := set_effect_packet n.

(** /repo/src/generic/RadioStateMachine.cpp lines 264-268. *)
Definition SendHeartbeat : M unit :=
  t <-- mget GetNetworkMillis;
  p <-- mget packet_;
  p' <-- msend ByHeartbeat (writeHeartbeat t p);
  mupd (with_packet_ p').

(** /repo/src/generic/RadioStateMachine.cpp lines 223-226: uint32_t arithmetic. *)
Definition beginSlave : M unit :=
  r <-- mrand;
  SetTimer TimerHeartbeat (u32 (kSlaveNoPacketTimeout + r mod kSlaveNoPacketRandom)).

(** /repo/src/generic/RadioStateMachine.cpp lines 228-240. *)
Definition beginMaster : M unit :=
  SendHeartbeat ;;
  SetTimer TimerHeartbeat kMasterHeartbeatInterval ;;
  SetTimer TimerBroadcastEffect kBroadcastEffectInterval ;;
  s <-- mget seen_at;
  if kChangeEffectInterval <? u32 (now - s)
  then SetTimer TimerChangeEffect 1
  else SetTimer TimerChangeEffect (u32 (kChangeEffectInterval - u32 (now - s))).

(** /repo/src/generic/RadioStateMachine.cpp lines 117-148: handleSlaveEvent with
    a packet.  A type outside the enum matches no case of the switch. *)
Definition handleSlavePacket (p : packet) : M unit :=
  if ptype p =? HEARTBEAT then
    t <-- mlift (readTimeFromHeartbeat (plat e) p);
    (* uint32_t - int32_t, stored in an int32_t; lines 121-122 *)
    mupd (with_millis_offset (i32 (u32 (t - u32 (i32 now))))) ;;
    (* fall through to CLAIM_MASTER *)
    r <-- mrand;
    SetTimer TimerHeartbeat (u32 (kSlaveNoPacketTimeout + r mod kSlaveNoPacketRandom))
  else if ptype p =? CLAIM_MASTER then
    r <-- mrand;
    SetTimer TimerHeartbeat (u32 (kSlaveNoPacketTimeout + r mod kSlaveNoPacketRandom))
  else if ptype p =? SET_EFFECT then
    new_effect_index <-- mlift (readEffectIndexFromSetEffect (plat e) p);
    new_palette_index <-- mlift (readPaletteIndexFromSetEffect (plat e) p);
    old <-- mget effect_index;
    cur <-- mget set_effect_packet;
    (* uint8_t != int8_t, compared as int; || does not evaluate its right side
       when the left one is true *)
    changed <-- (if negb (new_effect_index =? old) then mret true
                 else pal <-- mlift (readPaletteIndexFromSetEffect (plat e) cur);
                      mret (negb (new_palette_index =? pal)));
    (if changed : bool then mupd (with_seen_at now) else mret tt) ;;
    mupd (with_set_effect_packet p) ;;
    mupd (with_effect_index (i8 new_effect_index))
  else if ptype p =? SET_CONTROL then
    mupd (with_seen_at now) ;;
    mupd (with_set_effect_packet p)
  else mret tt.

(** /repo/src/generic/RadioStateMachine.cpp lines 149-151: handleSlaveEvent with
    an expired timer. *)
Definition handleSlaveTimer (t : timer) : M unit :=
  match t with
  | TimerHeartbeat => mupd (with_next_state Master)
  | _ => mret tt
  end.

(** /repo/src/generic/RadioStateMachine.cpp lines 154-165. *)
Definition PerformMasterElection (received : packet) : M unit :=
  our <-- mrandom 1 65535;
  if pid received <? u16 our then
    p <-- mget packet_;
    p' <-- msend ByElection (mkPacket (pid p) CLAIM_MASTER 0 (pdata p));
    mupd (with_packet_ p')
  else mupd (with_next_state Slave).

(** /repo/src/generic/RadioStateMachine.cpp lines 168-193: handleMasterEvent
    with a packet. *)
Definition handleMasterPacket (p : packet) : M unit :=
  if ptype p =? HEARTBEAT then PerformMasterElection p
  else if ptype p =? CLAIM_MASTER then mupd (with_next_state Slave)
  else if ptype p =? SET_EFFECT then
    mupd (with_set_effect_packet p) ;;
    i <-- mlift (readEffectIndexFromSetEffect (plat e) p);
    mupd (with_effect_index (i8 i)) ;;
    d <-- mlift (readDelayFromSetEffect (plat e) p);
    SetTimer TimerChangeEffect (u32 (d * 1000))
  else if ptype p =? SET_CONTROL then
    mupd (with_set_effect_packet p) ;;
    d <-- mlift (readDelayFromSetControl (plat e) p);
    SetTimer TimerChangeEffect (u32 (d * 1000))
  else mret tt.

(** /repo/src/generic/RadioStateMachine.cpp lines 194-220: handleMasterEvent
    with an expired timer. *)
Definition handleMasterTimer (t : timer) : M unit :=
  match t with
  | TimerHeartbeat =>
      SendHeartbeat ;;
      SetTimer TimerHeartbeat kMasterHeartbeatInterval
  | TimerChangeEffect =>
      ne <-- mget num_effects;
      i <-- mrandom 0 ne;
      mupd (with_effect_index (i8 i)) ;;
      np <-- mget num_palettes;
      pal <-- mrandom 0 np;
      i' <-- mget effect_index;
      p <-- mget packet_;
      mupd (with_packet_ (writeSetEffect (u8 i') 0 (u8 pal) p)) ;;
      p <-- mget packet_;
      mupd (with_set_effect_packet p) ;;
      p' <-- msend ByChange p;
      mupd (with_packet_ p') ;;
      SetTimer TimerChangeEffect kChangeEffectInterval
  | TimerBroadcastEffect =>
      p <-- mget set_effect_packet;
      p' <-- msend ByRebroadcast p;
      mupd (with_set_effect_packet p') ;;
      SetTimer TimerBroadcastEffect kBroadcastEffectInterval
  | TimerNone => mret tt
  end.

(** /repo/src/generic/RadioStateMachine.cpp lines 95-111: entering the next
    state. *)
Definition finish_tick : M unit :=
  s <-- mget state;
  nx <-- mget next_state;
  (if role_eqb nx s then mret tt
   else
     SetTimer TimerHeartbeat 0 ;;
     match nx with
     | Slave => beginSlave
     | Master => beginMaster
     end) ;;
  nx' <-- mget next_state;
  mupd (with_state nx').

(** /repo/src/generic/RadioStateMachine.cpp lines 67-112.  [inc] is what the
    radio delivers to this call.  [TimerExpired()] is evaluated before
    [receive], and a received packet hides the timer. *)
Definition RadioTick (inc : option packet) : M unit :=
  t <-- mget TimerExpired;
  r <-- mreceive inc;
  s <-- mget state;
  match r with
  | Some p => match s with Slave => handleSlavePacket p | Master => handleMasterPacket p end
  | None =>
      match t with
      | TimerNone => mret tt
      | _ => match s with Slave => handleSlaveTimer t | Master => handleMasterTimer t end
      end
  end ;;
  finish_tick.

(** /repo/src/generic/RadioStateMachine.cpp lines 47-57. *)
Definition SetEffect (p : packet) : M unit :=
  mupd (with_set_effect_packet p) ;;
  cur <-- mget set_effect_packet;
  cur' <-- msend ByApi cur;
  mupd (with_set_effect_packet cur') ;;
  i <-- mlift (readEffectIndexFromSetEffect (plat e) p);
  mupd (with_effect_index (i8 i)) ;;
  cur2 <-- mget set_effect_packet;
  d <-- mlift (readDelayFromSetEffect (plat e) cur2);
  (if d =? 0 then SetTimer TimerChangeEffect kChangeEffectInterval
   else SetTimer TimerChangeEffect (u32 (d * 1000))).

(** /repo/src/generic/RadioStateMachine.cpp lines 59-65; uint8_t parameters. *)
Definition SetNumPalettes (v : Z) : M unit := mupd (with_num_palettes (u8 v)).
Definition SetNumEffects (v : Z) : M unit := mupd (with_num_effects (u8 v)).

(** The members before the constructor body runs: default member initialisers
    (RadioStateMachine.hpp lines 129-149); [packet_] and [set_effect_packet_]
    have packet_id = 0 and dataLength = 0 but indeterminate type and data. *)
Definition raw_node (ty1 ty2 : Z) (d1 d2 : list Z) : node :=
  mkNode nm_init Slave Slave 0 0 0 0 0 0 1 1
         (mkPacket 0 ty1 0 d1) (mkPacket 0 ty2 0 d2) false 0%nat.

(** /repo/src/generic/RadioStateMachine.cpp lines 10-17. *)
Definition construct (ty1 ty2 : Z) (d1 d2 : list Z) : outcome node :=
  match (beginSlave ;;
         p <-- mget set_effect_packet;
         mupd (with_set_effect_packet (writeSetEffect 1 0 0 p)))
        (raw_node ty1 ty2 d1 d2) with
  | Ok (_, n, _) => Ok n
  | Undef => Undef
  | Abort => Abort
  end.

End Machine.

(** /repo/src/generic/RadioStateMachine.cpp lines 23-36: Tick.  The clock and
    the radio may move between the two radio ticks. *)
Definition Tick (e : env) (now1 : Z) (inc1 : option packet) (now2 : Z) (inc2 : option packet)
  : M unit :=
  RadioTick e now1 inc1 ;;
  r <-- mget tick_run;
  (if r : bool then RadioTick e now2 inc2 else mret tt) ;;
  mupd (with_tick_run true).

(** Calls of the public interface. *)
Inductive op :=
| OTick (inc : option packet)     (* RadioTick; the radio delivers inc *)
| OSetEffect (p : packet)
| OSetNumPalettes (v : Z)
| OSetNumEffects (v : Z).

Definition step (e : env) (now : Z) (o : op) : M unit :=
  match o with
  | OTick inc => RadioTick e now inc
  | OSetEffect p => SetEffect e now p
  | OSetNumPalettes v => SetNumPalettes v
  | OSetNumEffects v => SetNumEffects v
  end.
