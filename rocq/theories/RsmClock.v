(** RadioStateMachine once more, with a clock that moves while a call runs:
    /repo/src/generic/RadioStateMachine.cpp lines 23-268.  Rsm.v reads millis()
    once per call; here every call of millis() is written out.  [m i] is the
    value of the (i+1)-th call of millis() during one call of RadioTick.

    Simplification: every place that may read the clock has a fixed number, also
    when earlier places were not reached; which values are returned is arbitrary,
    so skipping a number changes nothing.  Functions with at most one reading are
    those of Rsm.v, given that reading. *)
From Coq Require Import ZArith Lia List Bool.
From Verif Require Import CInt Packet NetMgr Rsm RsmHist BeginMasterRace.
Import ListNotations.
Open Scope Z_scope.

Section Clock.
Variable e : env.
Variable m : nat -> Z.

(** RadioStateMachine.cpp lines 250-262: the loop reads the clock for every
    timer that is not 0; readings 0 to 2. *)
Definition TimerExpired_clock (n : node) : timer :=
  if timer_due (m 0%nat) (t_hb n) then TimerHeartbeat
  else if timer_due (m 1%nat) (t_ce n) then TimerChangeEffect
  else if timer_due (m 2%nat) (t_bc n) then TimerBroadcastEffect
  else TimerNone.

(** RadioStateMachine.cpp lines 117-148: a heartbeat reads the clock for the
    offset (line 122) and for the timer (line 246); the other packets read it at
    most once. *)
Definition handleSlavePacket_clock (p : packet) : M unit :=
  if ptype p =? HEARTBEAT then
    t <-- mlift (readTimeFromHeartbeat (plat e) p);
    mupd (with_millis_offset (i32 (u32 (t - u32 (i32 (m 3%nat)))))) ;;
    r <-- mrand e;
    SetTimer (m 4%nat) TimerHeartbeat (u32 (kSlaveNoPacketTimeout + r mod kSlaveNoPacketRandom))
  else handleSlavePacket e (m 3%nat) p.

(** RadioStateMachine.cpp lines 194-220: the heartbeat reads the clock for its
    contents (line 40) and for the timer; the other timers once. *)
Definition handleMasterTimer_clock (t : timer) : M unit :=
  match t with
  | TimerHeartbeat =>
      SendHeartbeat e (m 3%nat) ;;
      SetTimer (m 4%nat) TimerHeartbeat kMasterHeartbeatInterval
  | _ => handleMasterTimer e (m 3%nat) t
  end.

(** RadioStateMachine.cpp lines 95-111; beginMaster reads the clock up to six
    times (BeginMasterRace.v). *)
Definition finish_tick_clock : M unit :=
  s <-- mget state;
  nx <-- mget next_state;
  (if role_eqb nx s then mret tt
   else
     SetTimer (m 5%nat) TimerHeartbeat 0 ;;
     match nx with
     | Slave => beginSlave e (m 5%nat)
     | Master => beginMaster_clock e (fun i => m (5 + i)%nat)
     end) ;;
  nx' <-- mget next_state;
  mupd (with_state nx').

(** RadioStateMachine.cpp lines 67-112. *)
Definition RadioTick_clock (inc : option packet) : M unit :=
  t <-- mget TimerExpired_clock;
  r <-- mreceive inc;
  s <-- mget state;
  match r with
  | Some p => match s with Slave => handleSlavePacket_clock p | Master => handleMasterPacket e (m 3%nat) p end
  | None =>
      match t with
      | TimerNone => mret tt
      | _ => match s with Slave => handleSlaveTimer t | Master => handleMasterTimer_clock t end
      end
  end ;;
  finish_tick_clock.

(** The calls of the public interface; SetEffect reads the clock once (line 246). *)
Definition step_clock (o : op) : M unit :=
  match o with
  | OTick inc => RadioTick_clock inc
  | OSetEffect p => SetEffect e (m 0%nat) p
  | OSetNumPalettes v => SetNumPalettes v
  | OSetNumEffects v => SetNumEffects v
  end.
End Clock.

(** ** Histories *)

(** A call and what it read: [reading i] is real time in milliseconds since
    power-up, of which millis() returns the low 32 bits; [what] is the call as in
    RsmHist.v, its time being the first reading. *)
Record timed := mkTimed { reading : nat -> Z; what : event }.
Definition started (x : timed) : Z := reading x 0%nat.
Definition ended (x : timed) : Z := reading x 10%nat.

(** The clock does not go backwards. *)
Definition forward (c : nat -> Z) : Prop := forall i, c i <= c (S i).

(** As [hist] in RsmHist.v; a call begins when the calls before it have ended. *)
Inductive chist (e : env) (t0 : Z) : list timed -> node -> Prop :=
| chist_start ty1 ty2 d1 d2 n :
    0 <= t0 ->
    wf_packet (mkPacket 0 ty1 0 d1) -> wf_packet (mkPacket 0 ty2 0 d2) ->
    construct e (u32 t0) ty1 ty2 d1 d2 = Ok n ->
    chist e t0 [] n
| chist_step h n c o n' out :
    chist e t0 h n ->
    forward c -> t0 <= c 0%nat -> (forall x, In x h -> ended x <= c 0%nat) ->
    op_ok o ->
    step_clock e (fun i => u32 (c i)) o n = Ok (tt, n', out) ->
    chist e t0 (h ++ [mkTimed c (mkEv (c 0%nat) o n n' out)]) n'.

Definition chistory (e : env) (t0 : Z) (h : list timed) : Prop := exists n, chist e t0 h n.
