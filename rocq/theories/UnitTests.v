(** Model of two of the project's own test files:
    /repo/test/RadioStateMachineTest.cpp and /repo/test/NetworkManagerTest.cpp,
    statement by statement, over the models of the code under test (Rsm.v,
    NetMgr.v) and of the radio of the tests (second half of Bench.v).

    A test case is a computation on the test bench: the clock of the tests, the
    object under test, the radio with the packets that live, and the flag that
    googletest keeps.  EXPECT_… clears the flag and goes on, ASSERT_… clears it
    and leaves the test body.  Simplification: packets the test declares as
    local variables live on the same heap as those made with [new]; they are not
    destroyed at the end of the body, where nothing refers to them any more. *)
From Coq Require Import ZArith Lia List Bool.
From Verif Require Import CInt Packet NetMgr Rsm Bench.
Import ListNotations.
Open Scope Z_scope.

Section Bench.
Context {S : Type}.

(** The bench: [g_now] is the clock of /repo/lib/types/Types.cpp lines 8-14
    (set and advanced by the tests), [g_sut] the object under test. *)
Record rig := mkRig { g_now : Z; g_sut : S; g_radio : world; g_ok : bool }.

(** Part of a test body.  [None]: an ASSERT_… has left the body. *)
Definition T (A : Type) : Type := rig -> outcome (option A * rig).
Definition tret {A} (a : A) : T A := fun g => Ok (Some a, g).
Definition tbind {A B} (c : T A) (k : A -> T B) : T B := fun g =>
  match c g with
  | Ok (Some a, g1) => k a g1
  | Ok (None, g1) => Ok (None, g1)
  | Undef => Undef
  | Abort => Abort
  end.

(** EXPECT_EQ, EXPECT_NE. *)
Definition expect (b : bool) : T unit := fun g =>
  Ok (Some tt, mkRig (g_now g) (g_sut g) (g_radio g) (g_ok g && b)).
(** ASSERT_EQ, ASSERT_NE. *)
Definition asserting (b : bool) : T unit := fun g =>
  if b then Ok (Some tt, g) else Ok (None, mkRig (g_now g) (g_sut g) (g_radio g) false).

(** /repo/lib/types/Types.cpp lines 12 and 14; the clock is a uint32_t. *)
Definition setMillis (t : Z) : T unit := fun g =>
  Ok (Some tt, mkRig (u32 t) (g_sut g) (g_radio g) (g_ok g)).
Definition advanceMillis (t : Z) : T unit := fun g =>
  Ok (Some tt, mkRig (u32 (g_now g + t)) (g_sut g) (g_radio g) (g_ok g)).

(** [RadioPacket packet;]: the initialisers of /repo/lib/radio/Radio.hpp
    lines 27-71 set the id and the length to 0; the type and the data are whatever
    the memory held. *)
Definition declare (ty : Z) (d : list Z) : T nat := fun g =>
  let '(a, w) := new_packet (mkPacket 0 ty 0 d) (g_radio g) in
  Ok (Some a, mkRig (g_now g) (g_sut g) w (g_ok g)).
(** A statement that reads or changes the packet behind a pointer; [None] is
    nullptr. *)
Definition load (a : option nat) : T packet := fun g =>
  match a with
  | None => Undef
  | Some a => p <- deref a (g_radio g) ;; Ok (Some p, g)
  end.
Definition store (a : option nat) (p : packet) : T unit := fun g =>
  match a with
  | None => Undef
  | Some a => w <- assign a p (g_radio g) ;; Ok (Some tt, mkRig (g_now g) (g_sut g) w (g_ok g))
  end.
(** [delete p]: nothing happens when p is nullptr. *)
Definition deleting (a : option nat) : T unit := fun g =>
  match a with
  | None => Ok (Some tt, g)
  | Some a => w <- delete a (g_radio g) ;; Ok (Some tt, mkRig (g_now g) (g_sut g) w (g_ok g))
  end.
(** [radio.setReceivedPacket(&packet)], [radio.getSentPacket()]. *)
Definition setReceived (a : nat) : T unit := fun g =>
  w <- fr_setReceivedPacket (Some a) (g_radio g) ;;
  Ok (Some tt, mkRig (g_now g) (g_sut g) w (g_ok g)).
Definition getSent : T (option nat) := fun g =>
  let '(a, w) := fr_getSentPacket (g_radio g) in
  Ok (Some a, mkRig (g_now g) (g_sut g) w (g_ok g)).

(** A value read from a packet, whose asserts may end the program. *)
Definition lifting {A} (x : outcome A) : T A := fun g =>
  match x with Ok a => Ok (Some a, g) | Undef => Undef | Abort => Abort end.

(** The end of a test: the destructor of the fixture's radio; the answer is what
    googletest reports. *)
Definition report (r : outcome (option unit * rig)) : outcome bool :=
  match r with
  | Ok (_, g) => w <- fr_destroy (g_radio g) ;; Ok (g_ok g)
  | Undef => Undef
  | Abort => Abort
  end.
End Bench.
Arguments rig : clear implicits.
Arguments T : clear implicits.

Declare Scope test_scope.
Notation "x <~ c ; k" := (tbind c (fun x => k))
  (at level 61, c at next level, right associativity) : test_scope.
Notation "c ;~ k" := (tbind c (fun _ => k))
  (at level 61, right associativity) : test_scope.
Open Scope test_scope.

Definition is_null (a : option nat) : bool := match a with None => true | Some _ => false end.

(** What a local packet variable holds before it is written. *)
Record junk := mkJunk { j_type : Z; j_data : list Z }.

(** ** /repo/test/RadioStateMachineTest.cpp *)

Section StateMachine.
Variable e : env.

(** Transmissions of one call, in order. *)
Fixpoint transmit (out : list rtx) (w : world) : outcome world :=
  match out with
  | [] => Ok w
  | t :: rest =>
      w <- fr_sendPacket (match t with Forwarded p => p | Own _ p => p end) w ;;
      transmit rest w
  end.

(** [state_machine->RadioTick()].  The code reads the radio once, before it
    transmits anything (NetworkManager.cpp lines 10-26). *)
Definition radio_tick : T node unit := fun g =>
  inc <- fr_readPacket (g_radio g) ;;
  ' (_, n, out) <- RadioTick e (g_now g) inc (g_sut g) ;;
  w <- transmit out (g_radio g) ;;
  Ok (Some tt, mkRig (g_now g) n w (g_ok g)).

(** [state_machine->SetEffect(&packet)].  RadioStateMachine.cpp lines 47-57
    copy the packet and send the copy. *)
Definition set_effect (a : nat) : T node unit := fun g =>
  p <- deref a (g_radio g) ;;
  ' (_, n, out) <- SetEffect e (g_now g) p (g_sut g) ;;
  w <- transmit out (g_radio g) ;;
  Ok (Some tt, mkRig (g_now g) n w (g_ok g)).

(** The remaining calls on [state_machine]. *)
Definition set_num_effects (v : Z) : T node unit := fun g =>
  ' (_, n, _) <- SetNumEffects v (g_sut g) ;;
  Ok (Some tt, mkRig (g_now g) n (g_radio g) (g_ok g)).
Definition set_num_palettes (v : Z) : T node unit := fun g =>
  ' (_, n, _) <- SetNumPalettes v (g_sut g) ;;
  Ok (Some tt, mkRig (g_now g) n (g_radio g) (g_ok g)).
Definition current_state : T node role := fun g => Ok (Some (GetCurrentState (g_sut g)), g).
Definition network_millis : T node Z := fun g => Ok (Some (GetNetworkMillis (g_now g) (g_sut g)), g).
Definition get_effect_index : T node Z := fun g => Ok (Some (GetEffectIndex (g_sut g)), g).

(** [state_machine->GetSetEffect()] returns the address of a member of the state
    machine (RadioStateMachine.cpp line 45).  What a test reads through it is
    the member at the time of reading. *)
Inductive pointer := ToMember | ToHeap (a : option nat).
Definition load_ptr (q : pointer) : T node packet := fun g =>
  match q with
  | ToMember => Ok (Some (GetSetEffect (g_sut g)), g)
  | ToHeap a => load a g
  end.

(** RadioStateMachineTest.cpp lines 9-10; a uint16_t. *)
Definition kMaxSlaveTimeout : Z := u16 (kSlaveNoPacketTimeout + kSlaveNoPacketRandom + 1).

(** RadioStateMachineTest.cpp lines 12-17: expectPacketsEqual. *)
Fixpoint expect_bytes (todo : nat) (i : Z) (d1 d2 : list Z) : T node unit :=
  match todo with
  | O => tret tt
  | Datatypes.S todo =>
      x <~ lifting (aget d1 i);
      y <~ lifting (aget d2 i);
      expect (x =? y) ;~
      expect_bytes todo (i + 1) d1 d2
  end.
Definition expectPacketsEqual (q1 q2 : pointer) : T node unit :=
  p1 <~ load_ptr q1;
  p2 <~ load_ptr q2;
  expect (dlen p1 =? dlen p2) ;~
  expect_bytes (Z.to_nat (dlen p1)) 0 (pdata p1) (pdata p2).

(** The fixture, lines 19-35, around a test body.  [j1], [j2] are what the
    memory of the state machine's two packets held before. *)
Definition on_state_machine (j1 j2 : junk) (body : T node unit) : outcome bool :=
  n <- construct e 0 (j_type j1) (j_type j2) (j_data j1) (j_data j2) ;;
  report (body (mkRig 0 n fr_init true)).

Definition expect_state (r : role) : T node unit := s <~ current_state; expect (role_eqb s r).

(** [packet = radio.getSentPacket(); ASSERT_NE(packet, nullptr);
    EXPECT_EQ(packet->type, ty); delete packet;] *)
Definition expect_sent (ty : Z) : T node unit :=
  a <~ getSent;
  asserting (negb (is_null a)) ;~
  p <~ load a;
  expect (ptype p =? ty) ;~
  deleting a.

(** RadioStateMachineTest.cpp lines 37-41. *)
Definition fakeWorks : T node unit :=
  a <~ getSent;
  expect (is_null a) ;~
  radio_tick ;~
  a <~ getSent;
  expect (is_null a).

(** RadioStateMachineTest.cpp lines 43-45. *)
Definition initializes : T node unit := expect_state Slave.

(** RadioStateMachineTest.cpp lines 47-55. *)
Definition becomesMasterAfterTimeout : T node unit :=
  expect_state Slave ;~
  radio_tick ;~
  expect_state Slave ;~
  setMillis kMaxSlaveTimeout ;~
  radio_tick ;~
  expect_state Master.

(** RadioStateMachineTest.cpp lines 57-81. *)
Definition sendsHeartbeats : T node unit :=
  setMillis kMaxSlaveTimeout ;~
  radio_tick ;~
  expect_state Master ;~
  expect_sent HEARTBEAT ;~
  advanceMillis (kMasterHeartbeatInterval + 1) ;~
  radio_tick ;~
  expect_sent HEARTBEAT ;~
  advanceMillis (kMasterHeartbeatInterval + 1) ;~
  radio_tick ;~
  expect_sent HEARTBEAT ;~
  a <~ getSent;
  expect (is_null a).

(** [RadioPacket packet; packet.packet_id = id; packet.write…(…);
    radio.setReceivedPacket(&packet);] *)
Definition deliver (j : junk) (id : Z) (write : packet -> packet) : T node nat :=
  a <~ declare (j_type j) (j_data j);
  p <~ load (Some a);
  store (Some a) (write (mkPacket id (ptype p) (dlen p) (pdata p))) ;~
  setReceived a ;~
  tret a.

(** RadioStateMachineTest.cpp lines 83-101. *)
Definition doesntBecomeMasterIfReceivesPackets (j : junk) : T node unit :=
  deliver j 1 (writeHeartbeat 0) ;~
  advanceMillis kMaxSlaveTimeout ;~
  advanceMillis 2 ;~
  radio_tick ;~
  expect_state Slave ;~
  advanceMillis kMasterHeartbeatInterval ;~
  radio_tick ;~
  expect_state Slave ;~
  advanceMillis kMasterHeartbeatInterval ;~
  radio_tick ;~
  expect_state Slave.

(** RadioStateMachineTest.cpp lines 103-116. *)
Definition respectsClaimMaster (j : junk) : T node unit :=
  expect_state Slave ;~
  setMillis kMaxSlaveTimeout ;~
  radio_tick ;~
  expect_state Master ;~
  deliver j 1 (fun p => mkPacket (pid p) CLAIM_MASTER 0 (pdata p)) ;~
  radio_tick ;~
  expect_state Slave.

(** RadioStateMachineTest.cpp lines 118-130. *)
Definition doesElectionAndBecomesSlave (j : junk) : T node unit :=
  setMillis kMaxSlaveTimeout ;~
  radio_tick ;~
  expect_state Master ;~
  deliver j 65535 (writeHeartbeat 0) ;~
  radio_tick ;~
  expect_state Slave.

(** RadioStateMachineTest.cpp lines 132-149. *)
Definition doesElectionAndBecomesMaster (j : junk) : T node unit :=
  setMillis kMaxSlaveTimeout ;~
  radio_tick ;~
  expect_state Master ;~
  deliver j 1 (writeHeartbeat 0) ;~
  radio_tick ;~
  expect_state Master ;~
  a <~ getSent;
  expect (negb (is_null a)) ;~
  p <~ load a;
  expect (ptype p =? CLAIM_MASTER) ;~
  deleting a.

(** RadioStateMachineTest.cpp lines 151-157. *)
Definition returnNetworkMillisForNoOffset : T node unit :=
  setMillis 0 ;~
  t <~ network_millis;
  expect (t =? 0) ;~
  setMillis 12345 ;~
  t <~ network_millis;
  expect (t =? 12345).

(** RadioStateMachineTest.cpp lines 159-170. *)
Definition slaveGetsTimeFromNetwork (j : junk) : T node unit :=
  deliver j 1 (writeHeartbeat 10000) ;~
  radio_tick ;~
  t <~ network_millis;
  expect (t =? 10000) ;~
  setMillis 2000000 ;~
  t <~ network_millis;
  expect (t =? 2010000).

(** RadioStateMachineTest.cpp lines 172-183. *)
Definition slaveGetsTimeFromNetwork_negativeOffset (j : junk) : T node unit :=
  setMillis 10000 ;~
  deliver j 1 (writeHeartbeat 0) ;~
  radio_tick ;~
  t <~ network_millis;
  expect (t =? 0) ;~
  setMillis 2000000 ;~
  t <~ network_millis;
  expect (t =? 1990000).

(** RadioStateMachineTest.cpp lines 207-214 and 226-233. *)
Definition expect_set_effect : T node unit :=
  radio_tick ;~
  a <~ getSent;
  asserting (negb (is_null a)) ;~
  p <~ load a;
  expect (ptype p =? SET_EFFECT) ;~
  i <~ lifting (readEffectIndexFromSetEffect (plat e) p);
  expect (negb (i =? 0)) ;~
  d <~ lifting (readDelayFromSetEffect (plat e) p);
  expect (d =? 0) ;~
  c <~ lifting (readPaletteIndexFromSetEffect (plat e) p);
  expect (negb (c =? 0)) ;~
  deleting a.

(** RadioStateMachineTest.cpp lines 185-234. *)
Definition masterSendsSetEffect : T node unit :=
  set_num_effects 255 ;~
  set_num_palettes 255 ;~
  setMillis kMaxSlaveTimeout ;~
  radio_tick ;~
  expect_state Master ;~
  expect_sent HEARTBEAT ;~
  setMillis (kMaxSlaveTimeout + kChangeEffectInterval + 1) ;~
  radio_tick ;~
  expect_sent HEARTBEAT ;~
  expect_set_effect ;~
  setMillis (kMaxSlaveTimeout + kChangeEffectInterval + kBroadcastEffectInterval + 1) ;~
  radio_tick ;~
  expect_sent HEARTBEAT ;~
  expect_set_effect.

(** RadioStateMachineTest.cpp lines 236-285. *)
Definition masterRespectsSetEffectDelay (j : junk) : T node unit :=
  set_num_effects 255 ;~
  setMillis kMaxSlaveTimeout ;~
  radio_tick ;~
  expect_state Master ;~
  expect_sent HEARTBEAT ;~
  b <~ deliver j 1 (writeSetEffect 2 120 0);
  radio_tick ;~
  radio_tick ;~
  setMillis (kMaxSlaveTimeout + kChangeEffectInterval + 1) ;~
  radio_tick ;~
  expect_sent HEARTBEAT ;~
  radio_tick ;~
  a <~ getSent;
  q <~ load (Some b);
  p <~ load a;
  store a (mkPacket (pid q) (ptype p) (dlen p) (pdata p)) ;~
  p <~ load a;
  q <~ load (Some b);
  asserting (packet_eqb p q) ;~
  deleting a ;~
  setMillis (kMaxSlaveTimeout + 120 * 1000 + 1) ;~
  radio_tick ;~
  expect_sent HEARTBEAT ;~
  radio_tick ;~
  a <~ getSent;
  asserting (negb (is_null a)) ;~
  p <~ load a;
  expect (ptype p =? SET_EFFECT) ;~
  i <~ lifting (readEffectIndexFromSetEffect (plat e) p);
  expect (negb (i =? 0)) ;~
  deleting a.

(** RadioStateMachineTest.cpp lines 287-296. *)
Definition slaveReturnsEffectIndexFromNetwork (j : junk) : T node unit :=
  i <~ get_effect_index;
  expect (i =? 0) ;~
  deliver j 1 (writeSetEffect 42 0 0) ;~
  radio_tick ;~
  i <~ get_effect_index;
  expect (i =? 42).

(** RadioStateMachineTest.cpp lines 298-311. *)
Definition slaveReturnsSetEffectPacketFromNetwork (j : junk) : T node unit :=
  p <~ load_ptr ToMember;
  i <~ lifting (readEffectIndexFromSetEffect (plat e) p);
  expect (i =? 1) ;~
  d <~ lifting (readDelayFromSetEffect (plat e) p);
  expect (d =? 0) ;~
  c <~ lifting (readPaletteIndexFromSetEffect (plat e) p);
  expect (c =? 0) ;~
  a <~ deliver j 1 (writeSetEffect 42 0 0);
  radio_tick ;~
  p <~ load_ptr ToMember;
  q <~ load (Some a);
  expect (packet_eqb p q).

(** RadioStateMachineTest.cpp lines 313-325 and 332-344, without the last comparison; the pointer of line
    314 is [ToMember]. *)
Definition sets_effect (j : junk) (delay : Z) : T node unit :=
  a <~ declare (j_type j) (j_data j);
  p <~ load (Some a);
  store (Some a) (writeSetEffect 1 delay 2 (mkPacket 1 (ptype p) (dlen p) (pdata p))) ;~
  set_effect a ;~
  radio_tick ;~
  expectPacketsEqual ToMember (ToHeap (Some a)) ;~
  s <~ getSent;
  expectPacketsEqual (ToHeap s) (ToHeap (Some a)) ;~
  deleting s.

(** RadioStateMachineTest.cpp lines 313-330 and 332-349. *)
Definition SetEffect_Delay (j : junk) : T node unit :=
  sets_effect j 5 ;~
  setMillis (5 * 1000 + 1) ;~
  radio_tick ;~
  expectPacketsEqual ToMember ToMember.
Definition SetEffect_NoDelay (j : junk) : T node unit :=
  sets_effect j 0 ;~
  setMillis (kChangeEffectInterval + 1) ;~
  radio_tick ;~
  expectPacketsEqual ToMember ToMember.

(** The same two tests with what their last line says: the packet of line 314
    kept as a copy, compared with what GetSetEffect shows at the end. *)
Definition reverts (j : junk) (delay until : Z) : T node unit :=
  default <~ load_ptr ToMember;
  sets_effect j delay ;~
  setMillis until ;~
  radio_tick ;~
  p <~ load_ptr ToMember;
  expect (dlen p =? dlen default) ;~
  expect_bytes (Z.to_nat (dlen p)) 0 (pdata p) (pdata default).

End StateMachine.

(** ** /repo/test/NetworkManagerTest.cpp *)

(** The network manager and the number of random numbers it has drawn. *)
Notation manager := (netmgr * nat)%type.

Section NetworkManager.
Variable e : env.

Fixpoint transmit_all (out : list tx) (w : world) : outcome world :=
  match out with
  | [] => Ok w
  | t :: rest => w <- fr_sendPacket (tx_packet t) w ;; transmit_all rest w
  end.

(** [networkManager.receive(packet)] with the packet at [a]: the radio writes
    the packet whenever it has one, whether or not receive then answers false
    (NetworkManager.cpp lines 10-20). *)
Definition receive (a : nat) : T manager bool := fun g =>
  inc <- fr_readPacket (g_radio g) ;;
  w <- match inc with None => Ok (g_radio g) | Some p => assign a p (g_radio g) end ;;
  ' (r, m, out) <- nm_receive (fst (g_sut g)) inc ;;
  w <- transmit_all out w ;;
  Ok (Some (match r with None => false | Some _ => true end),
      mkRig (g_now g) (m, snd (g_sut g)) w (g_ok g)).

(** [networkManager.send(packet)]: the packet gets its new id. *)
Definition send (a : nat) : T manager unit := fun g =>
  p <- deref a (g_radio g) ;;
  ' (p', m, out) <- nm_send (plat e) (draw e (snd (g_sut g))) (fst (g_sut g)) p ;;
  w <- assign a p' (g_radio g) ;;
  w <- transmit_all out w ;;
  Ok (Some tt, mkRig (g_now g) (m, Datatypes.S (snd (g_sut g))) w (g_ok g)).

(** The fixture, NetworkManagerTest.cpp lines 7-21. *)
Definition on_manager (body : T manager unit) : outcome bool :=
  report (body (mkRig 0 (nm_init, O) fr_init true)).

(** NetworkManagerTest.cpp lines 13-17. *)
Definition expectEqualAndDelete (a : option nat) (b : nat) : T manager unit :=
  p <~ load a;
  q <~ load (Some b);
  expect (packet_eqb p q) ;~
  deleting a.

(** A local packet with its id set and written. *)
Definition written (j : junk) (id : Z) (write : packet -> packet) : T manager nat :=
  a <~ declare (j_type j) (j_data j);
  p <~ load (Some a);
  store (Some a) (write (mkPacket id (ptype p) (dlen p) (pdata p))) ;~
  tret a.

Definition expect_bool (c : T manager bool) (b : bool) : T manager unit :=
  r <~ c; expect (Bool.eqb r b).
Definition expect_nothing_sent : T manager unit := s <~ getSent; expect (is_null s).

(** NetworkManagerTest.cpp lines 23-33. *)
Definition receive_noPackets (j j' : junk) : T manager unit :=
  a <~ written j 12345 (fun p => mkPacket (pid p) HEARTBEAT 1 (list_set (pdata p) 0 100));
  b <~ declare (j_type j') (j_data j');
  p <~ load (Some a);
  store (Some b) p ;~
  expect_bool (receive a) false ;~
  p <~ load (Some a);
  q <~ load (Some b);
  expect (packet_eqb p q).

(** NetworkManagerTest.cpp lines 35-45. *)
Definition receive_setsPacket (j j' : junk) : T manager unit :=
  a <~ declare (j_type j) (j_data j);
  b <~ written j' 12345 (writeHeartbeat 1);
  setReceived b ;~
  expect_bool (receive a) true ;~
  p <~ load (Some a);
  q <~ load (Some b);
  expect (packet_eqb p q).

(** [received_packet.packet_id = id; radio.setReceivedPacket(&received_packet);] *)
Definition renumber (b : nat) (id : Z) : T manager unit :=
  p <~ load (Some b);
  store (Some b) (mkPacket id (ptype p) (dlen p) (pdata p)) ;~
  setReceived b.

(** NetworkManagerTest.cpp lines 70-78: [todo] rounds from [i] on. *)
Fixpoint rounds (a b : nat) (todo : nat) (i : Z) : T manager unit :=
  match todo with
  | O => tret tt
  | Datatypes.S todo =>
      renumber b i ;~
      expect_bool (receive a) true ;~
      s <~ getSent;
      expectEqualAndDelete s b ;~
      expect_bool (receive a) false ;~
      expect_nothing_sent ;~
      rounds a b todo (i + 1)
  end.

(** NetworkManagerTest.cpp lines 47-79, with the loop made to run [n] rounds; the test has [n] = 9. *)
Definition receive_rebroadcasts_for (n : nat) (j j' : junk) : T manager unit :=
  a <~ declare (j_type j) (j_data j);
  b <~ written j' 12345 (writeHeartbeat 1);
  setReceived b ;~
  expect_bool (receive a) true ;~
  s <~ getSent;
  expectEqualAndDelete s b ;~
  receive a ;~
  expect_nothing_sent ;~
  renumber b 6789 ;~
  expect_bool (receive a) true ;~
  s <~ getSent;
  expectEqualAndDelete s b ;~
  rounds a b n 1.
Definition receive_rebroadcasts : junk -> junk -> T manager unit :=
  receive_rebroadcasts_for (Z.to_nat (kRecentIdsCacheSize * 2 - 1)).

(** NetworkManagerTest.cpp lines 81-97. *)
Definition receive_doesntRebroadcastSentId (j j' j'' : junk) : T manager unit :=
  a <~ written j 1 (writeHeartbeat 1);
  send a ;~
  s <~ getSent;
  deleting s ;~
  p <~ load (Some a);
  b <~ written j' (pid p) (writeHeartbeat 1);
  setReceived b ;~
  c <~ declare (j_type j'') (j_data j'');
  expect_bool (receive c) false ;~
  expect_nothing_sent.

(** NetworkManagerTest.cpp lines 99-111. *)
Definition send_sendsPacket (j : junk) : T manager unit :=
  a <~ written j 0 (writeHeartbeat 1);
  send a ;~
  s <~ getSent;
  p <~ load s;
  expect (negb (pid p =? 0)) ;~
  q <~ load (Some a);
  store (Some a) (mkPacket (pid p) (ptype q) (dlen q) (pdata q)) ;~
  p <~ load s;
  q <~ load (Some a);
  expect (packet_eqb p q) ;~
  deleting s.

End NetworkManager.
