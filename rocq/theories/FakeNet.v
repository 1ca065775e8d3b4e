(** Model of the simulated network the integration tests run on:
    /repo/test/FakeNetwork.cpp and .hpp, and /repo/test/RadioIntegrationTest.hpp.
    The radios are those of Bench.v (/repo/lib/fake-radio/FakeRadio.cpp), the nodes
    those of Rsm.v. *)
From Coq Require Import ZArith NArith Lia List Bool.
From Verif Require Import CInt Packet NetMgr Rsm RsmHist Fastled Palette Device LedMgr Effects Show Bench.
Import ListNotations.
Open Scope Z_scope.

(** FakeNetwork.hpp line 36.  The functions below take the number of nodes as a
    parameter [N]; the code has this one. *)
Definition kNumNodes : nat := 5.

(** What the code gets from outside.  On the host all nodes, and the packet
    loss, share one random generator; here every state machine has a random source
    of its own, and so has the packet loss: whatever numbers the shared generator
    gives, the numbers each of them gets form some sequence.  Every state machine
    that is constructed gets a name, 0, 1, 2, ...; sources, offsets of the effects
    and the contents of uninitialised memory are by name. *)
Record source := mkSource {
  s_draw : nat -> nat -> N;            (* random numbers of a state machine *)
  s_loss : nat -> N;                   (* random numbers of the packet loss *)
  s_offsets : nat -> offsets;          (* random offsets of its effects *)
  s_junk : nat -> Z * Z * list Z * list Z   (* types and data of its two packets *)
}.
Definition env_of (s : source) (name : nat) : env := mkEnv Host (s_draw s name).

Record radio := mkRadio { r_received : option nat; r_sent : option nat }.

(** FakeNetwork.hpp lines 36-48, the heap objects of type RadioPacket (as in
    Bench.v), and the clock of /repo/lib/types/Types.cpp (its low 32 bits).
    [f_ticked] is the member tick_run_ of each state machine, which only Tick
    uses.  The constructors and destructors of the other objects are not
    followed. *)
Record fakenet := mkFake {
  f_heap : nat -> option packet;
  f_fresh : nat;
  f_radio : nat -> radio;              (* radios *)
  f_node : nat -> node;                (* stateMachines with their networkManagers *)
  f_ticked : nat -> bool;
  f_name : nat -> nat;                 (* which state machine is at an index *)
  f_born : nat;                        (* how many have been constructed *)
  f_packet : option nat;               (* packet; None is nullptr *)
  f_previous : option nat;             (* previous_packet *)
  f_loss : Z;                          (* packet_loss *)
  f_lost : nat;                        (* numbers drawn for it so far *)
  f_clock : Z;
  f_log : list (nat * event)                          (* not in the code: the calls of all state machines so far, by name *)
}.

Definition set_heap v w := mkFake v (f_fresh w) (f_radio w) (f_node w) (f_ticked w) (f_name w) (f_born w) (f_packet w) (f_previous w) (f_loss w) (f_lost w) (f_clock w) (f_log w).
Definition set_fresh v w := mkFake (f_heap w) v (f_radio w) (f_node w) (f_ticked w) (f_name w) (f_born w) (f_packet w) (f_previous w) (f_loss w) (f_lost w) (f_clock w) (f_log w).
Definition set_radio v w := mkFake (f_heap w) (f_fresh w) v (f_node w) (f_ticked w) (f_name w) (f_born w) (f_packet w) (f_previous w) (f_loss w) (f_lost w) (f_clock w) (f_log w).
Definition set_node v w := mkFake (f_heap w) (f_fresh w) (f_radio w) v (f_ticked w) (f_name w) (f_born w) (f_packet w) (f_previous w) (f_loss w) (f_lost w) (f_clock w) (f_log w).
Definition set_ticked v w := mkFake (f_heap w) (f_fresh w) (f_radio w) (f_node w) v (f_name w) (f_born w) (f_packet w) (f_previous w) (f_loss w) (f_lost w) (f_clock w) (f_log w).
Definition set_name v w := mkFake (f_heap w) (f_fresh w) (f_radio w) (f_node w) (f_ticked w) v (f_born w) (f_packet w) (f_previous w) (f_loss w) (f_lost w) (f_clock w) (f_log w).
Definition set_born v w := mkFake (f_heap w) (f_fresh w) (f_radio w) (f_node w) (f_ticked w) (f_name w) v (f_packet w) (f_previous w) (f_loss w) (f_lost w) (f_clock w) (f_log w).
Definition set_packet v w := mkFake (f_heap w) (f_fresh w) (f_radio w) (f_node w) (f_ticked w) (f_name w) (f_born w) v (f_previous w) (f_loss w) (f_lost w) (f_clock w) (f_log w).
Definition set_previous v w := mkFake (f_heap w) (f_fresh w) (f_radio w) (f_node w) (f_ticked w) (f_name w) (f_born w) (f_packet w) v (f_loss w) (f_lost w) (f_clock w) (f_log w).
Definition set_loss v w := mkFake (f_heap w) (f_fresh w) (f_radio w) (f_node w) (f_ticked w) (f_name w) (f_born w) (f_packet w) (f_previous w) v (f_lost w) (f_clock w) (f_log w).
Definition set_lost v w := mkFake (f_heap w) (f_fresh w) (f_radio w) (f_node w) (f_ticked w) (f_name w) (f_born w) (f_packet w) (f_previous w) (f_loss w) v (f_clock w) (f_log w).
Definition set_clock v w := mkFake (f_heap w) (f_fresh w) (f_radio w) (f_node w) (f_ticked w) (f_name w) (f_born w) (f_packet w) (f_previous w) (f_loss w) (f_lost w) v (f_log w).
Definition set_log v w := mkFake (f_heap w) (f_fresh w) (f_radio w) (f_node w) (f_ticked w) (f_name w) (f_born w) (f_packet w) (f_previous w) (f_loss w) (f_lost w) (f_clock w) v.

(** Radio number [i] and the heap, as Bench.v sees them, and back. *)
Definition view (i : nat) (w : fakenet) : world :=
  mkWorld (f_heap w) (f_fresh w) (r_received (f_radio w i)) (r_sent (f_radio w i)).
Definition unview (i : nat) (v : world) (w : fakenet) : fakenet :=
  set_heap (heap v) (set_fresh (fresh v) (set_radio (upd (f_radio w) i (mkRadio (received_packet v) (sent_packet v))) w)).

(** The clock as millis() gives it. *)
Definition f_millis (w : fakenet) : Z := u32 (f_clock w).

Section Net.
Variable s : source.

(** A call of the state machine at index [i]; it transmits through radio [i]. *)
Fixpoint transmit (i : nat) (out : list rtx) (w : fakenet) : outcome fakenet :=
  match out with
  | [] => Ok w
  | x :: rest =>
      let p := match x with Forwarded p => p | Own _ p => p end in
      v <- fr_sendPacket p (view i w) ;; transmit i rest (unview i v w)
  end.
Definition call_node (i : nat) (o : op) (w : fakenet) : outcome fakenet :=
  let n := f_node w i in
  match step (env_of s (f_name w i)) (f_millis w) o n with
  | Ok (_, n', out) =>
      transmit i out (set_node (upd (f_node w) i n')
                       (set_log (f_log w ++ [(f_name w i, mkEv (f_clock w) o n n' out)]) w))
  | Undef => Undef
  | Abort => Abort
  end.

(** RadioTick with radio [i]: what the radio delivers is read first. *)
Definition radio_tick (i : nat) (w : fakenet) : outcome fakenet :=
  inc <- fr_readPacket (view i w) ;; call_node i (OTick inc) w.

(** /repo/src/generic/RadioStateMachine.cpp lines 23-36. *)
Definition machine_tick (i : nat) (w : fakenet) : outcome fakenet :=
  let ticked := f_ticked w i in
  w <- radio_tick i w ;;
  w <- (if ticked then radio_tick i w else Ok w) ;;
  Ok (set_ticked (upd (f_ticked w) i true) w).

(** [new NetworkManager], [new RadioStateMachine], [new FakeLedManager] at index
    [i]: FakeNetwork.cpp lines 17-19 and 83-88.  The LED manager announces its
    effects and palettes to the state machine (LedManager.cpp lines 37-38). *)
Definition new_node (i : nat) (w : fakenet) : outcome fakenet :=
  let name := f_born w in
  let '(ty1, ty2, d1, d2) := s_junk s name in
  n <- construct (env_of s name) (f_millis w) ty1 ty2 d1 d2 ;;
  let w := set_node (upd (f_node w) i n) (set_ticked (upd (f_ticked w) i false)
             (set_name (upd (f_name w) i name) (set_born (S name) w))) in
  t <- LedManager Host (s_offsets s name) ;;
  w <- call_node i (OSetNumEffects (announced_effects t)) w ;;
  call_node i (OSetNumPalettes announced_palettes) w.

(** for (int i = from; i < N; i++) body(i) *)
Fixpoint loop (todo from : nat) (body : nat -> fakenet -> outcome fakenet) (w : fakenet) : outcome fakenet :=
  match todo with
  | O => Ok w
  | S k => w <- body from w ;; loop k (S from) body w
  end.

(** Types.cpp line 14. *)
Definition advanceMillis (d : Z) (w : fakenet) : fakenet := set_clock (f_clock w + d) w.

(** Before the constructor: there is nothing, and setMillis(0) has run (line 12).  The nodes
    are placeholders until they are constructed. *)
Definition f_empty : fakenet :=
  mkFake (fun _ => None) 0 (fun _ => mkRadio None None) (fun _ => raw_node 0 0 [] []) (fun _ => false)
         (fun _ => 0%nat) 0 None None 0 0 0 [].

(** FakeNetwork.cpp lines 11-22. *)
Definition FakeNetwork (N : nat) : outcome fakenet :=
  loop N 0 (fun i w =>
    let w := advanceMillis 1 w in
    let w := set_radio (upd (f_radio w) i (mkRadio None None)) w in
    w <- new_node i w ;;
    machine_tick i w) f_empty.

(** FakeNetwork.cpp lines 46-53.  rand() % packet_loss, with both as C++ int;
    a packet loss of 0 is tested first. *)
Definition deliver (i : nat) (w : fakenet) : outcome fakenet :=
  let keep := (f_loss w =? 0) || negb (Z.of_N (s_loss s (f_lost w)) mod Z.abs (f_loss w) =? 0) in
  let w := if f_loss w =? 0 then w else set_lost (S (f_lost w)) w in
  v <- fr_setReceivedPacket (if keep then f_packet w else None) (view i w) ;;
  Ok (unview i v w).

(** [delete p] for a pointer that is not nullptr. *)
Definition free (p : option nat) (w : fakenet) : outcome fakenet :=
  match p with
  | None => Ok w
  | Some a => match f_heap w a with Some _ => Ok (set_heap (upd (f_heap w) a None) w) | None => Undef end
  end.

(** FakeNetwork.cpp lines 62-79.  RunEffect (line 76) only writes the LED buffer
    and is left out (C58 is about it). *)
Definition turn (i : nat) (w : fakenet) : outcome fakenet :=
  w <- machine_tick i w ;;
  match f_packet w with
  | Some _ => Ok w
  | None => let '(p, v) := fr_getSentPacket (view i w) in Ok (set_packet p (unview i v w))
  end.

(** FakeNetwork.cpp lines 42-80. *)
Definition FakeTick (N : nat) (w : fakenet) : outcome fakenet :=
  w <- loop N 0 deliver w ;;
  w <- free (f_previous w) w ;;
  let w := set_packet None (set_previous (f_packet w) w) in
  loop N 0 turn w.

(** FakeNetwork.cpp lines 82-89.  [delete] of the old objects is not followed. *)
Definition reinitNode (i : nat) (w : fakenet) : outcome fakenet := new_node i w.

(** FakeNetwork.cpp line 91. *)
Definition setPacketLoss (n : Z) (w : fakenet) : fakenet := set_loss n w.

(** FakeNetwork.cpp lines 93-97.  The packet belongs to the caller: it is made
    before the call, and (the worst case) gone as soon as the call has returned. *)
Definition TransmitPacket (N : nat) (p : packet) (w : fakenet) : outcome fakenet :=
  let a := f_fresh w in
  let w := set_fresh (S a) (set_heap (upd (f_heap w) a (Some p)) w) in
  w <- loop N 0 (fun i w => v <- fr_setReceivedPacket (Some a) (view i w) ;; Ok (unview i v w)) w ;;
  free (Some a) w.

(** FakeNetwork.cpp lines 24-41, and then the destructors of the radios
    (FakeRadio.cpp lines 10-14). *)
Definition FakeDestroy (N : nat) (w : fakenet) : outcome fakenet :=
  w <- free (f_packet w) w ;;
  w <- free (f_previous w) w ;;
  loop N 0 (fun i w => v <- fr_destroy (view i w) ;; Ok (unview i v w)) w.

(** What a test does with the network. *)
Inductive fop :=
| FAdvance (d : Z)          (* advanceMillis; a uint32_t *)
| FTick
| FReinit (i : nat)
| FLoss (n : Z)
| FTransmit (p : packet).

Definition fstep (N : nat) (o : fop) (w : fakenet) : outcome fakenet :=
  match o with
  | FAdvance d => Ok (advanceMillis d w)
  | FTick => FakeTick N w
  | FReinit i => reinitNode i w
  | FLoss n => Ok (setPacketLoss n w)
  | FTransmit p => TransmitPacket N p w
  end.
Fixpoint fsteps (N : nat) (os : list fop) (w : fakenet) : outcome fakenet :=
  match os with [] => Ok w | o :: rest => w <- fstep N o w ;; fsteps N rest w end.
(** A whole test, without the destructor. *)
Definition frun (N : nat) (os : list fop) : outcome fakenet := w <- FakeNetwork N ;; fsteps N os w.

(** RadioIntegrationTest.hpp lines 24-29: runTicks. *)
Fixpoint runTicks (k : nat) : list fop := match k with O => [] | S k => FAdvance 1 :: FTick :: runTicks k end.

(** RadioIntegrationTest.hpp lines 14-22: getNumMasters. *)
Definition getNumMasters (N : nat) (w : fakenet) : nat :=
  length (filter (fun i => role_eqb (GetCurrentState (f_node w i)) Master) (seq 0 N)).

(** RadioIntegrationTest.hpp lines 31-39: resetMaster.  Line 33 asks node 0 in
    every round of the loop.  (The expectation of lines 35-36 is not part of it.) *)
Definition resetMaster (N : nat) (w : fakenet) : outcome fakenet :=
  loop N 0 (fun i w => if role_eqb (GetCurrentState (f_node w 0)) Master then reinitNode i w else Ok w) w.

End Net.
