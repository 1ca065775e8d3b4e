(** C128: what the unit tests of the state machine and of the network manager
    show, for every value of rand() and whatever the memory of uninitialised
    packets holds. *)
From Coq Require Import ZArith Lia List Bool.
From Verif Require Import CInt Packet NetMgr Rsm Bench UnitTests UnitFacts UnitRuns UnitManager.
Import ListNotations.
Open Scope Z_scope.

(** Whatever bytes a packet's memory holds before it is initialised. *)
Definition any_memory (j : junk) : Prop :=
  0 <= j_type j <= 255 /\ length (j_data j) = 58%nat /\ forall b, In b (j_data j) -> 0 <= b <= 255.
Lemma any_memory_ok j : any_memory j -> junk_ok j.
Proof.
  intros (A & B & C). split; [lia|]. split; [exact B|]. apply Forall_forall. intros b I. unfold is_byte. specialize (C b I). lia.
Qed.

(** Thirteen of the seventeen tests of the state machine pass always. *)
Theorem C128_tests_that_always_pass d j1 j2 j : any_memory j1 -> any_memory j2 -> any_memory j ->
  let e := mkEnv Host d in
  Forall (fun body => on_state_machine e j1 j2 body = Ok true)
    [ fakeWorks e; initializes; becomesMasterAfterTimeout e; sendsHeartbeats e;
      doesntBecomeMasterIfReceivesPackets e j; respectsClaimMaster e j;
      returnNetworkMillisForNoOffset; slaveGetsTimeFromNetwork e j; slaveGetsTimeFromNetwork_negativeOffset e j;
      slaveReturnsEffectIndexFromNetwork e j; slaveReturnsSetEffectPacketFromNetwork e j;
      SetEffect_Delay e j; SetEffect_NoDelay e j ].
Proof.
  intros M1 M2 M e. apply any_memory_ok in M1, M2, M.
  repeat apply Forall_cons; [apply run_fakeWorks|apply run_initializes|apply run_becomesMaster|apply run_sendsHeartbeats
   |apply run_doesntBecomeMaster|apply run_respectsClaim|apply run_noOffset|apply run_time|apply run_time_negative
   |apply run_effectIndex|apply run_setEffectPacket|apply run_setEffect_delay|apply run_setEffect_nodelay|apply Forall_nil]; assumption.
Qed.

(** The other four: pass or fail, as the random numbers decide.  [d k] is the
    value of the (k+1)-th call of rand(); the first is the node's wait. *)
Theorem C128_tests_that_depend_on_chance d j1 j2 j : any_memory j1 -> any_memory j2 -> any_memory j ->
  let e := mkEnv Host d in
  on_state_machine e j1 j2 (doesElectionAndBecomesSlave e j) = Ok (negb (Z.of_N (d 1%nat) mod 65535 =? 65533)) /\
  on_state_machine e j1 j2 (doesElectionAndBecomesMaster e j) = Ok (negb (Z.of_N (d 2%nat) mod 65535 =? 0)) /\
  on_state_machine e j1 j2 (masterSendsSetEffect e) =
    Ok (negb (Z.of_N (d 3%nat) mod 255 =? 0) && negb (Z.of_N (d 4%nat) mod 255 =? 0)) /\
  on_state_machine e j1 j2 (masterRespectsSetEffectDelay e j) = Ok (negb (Z.of_N (d 5%nat) mod 255 =? 0)).
Proof.
  intros M1 M2 M e. apply any_memory_ok in M1, M2, M.
  split; [|split; [|split]]; [apply run_electionSlave|apply run_electionMaster|apply run_masterSends|apply run_respectsDelay]; assumption.
Qed.

(** The network manager's tests.  The loop of the second one may run for any
    number of new ids below 6789 (the test has nine). *)
Theorem C128_network_manager_tests d j j' j'' n : any_memory j -> any_memory j' -> any_memory j'' -> Z.of_nat n <= 6788 ->
  let e := mkEnv Host d in
  on_manager (receive_noPackets j j') = Ok true /\
  on_manager (receive_setsPacket j j') = Ok true /\
  on_manager (receive_rebroadcasts_for n j j') = Ok true /\
  on_manager (receive_rebroadcasts j j') = Ok true /\
  on_manager (receive_doesntRebroadcastSentId e j j' j'') = Ok true /\
  on_manager (send_sendsPacket e j) = Ok (negb (Z.of_N (d 0%nat) mod 65535 =? 65534)).
Proof.
  intros M M' M'' Rn e. apply any_memory_ok in M, M', M''.
  split; [apply run_noPackets; assumption|]. split; [apply run_setsPacket; assumption|].
  split; [apply run_rebroadcasts; assumption|]. split; [unfold receive_rebroadcasts; apply run_rebroadcasts; try assumption; vm_compute; discriminate|].
  split; [apply run_doesntRebroadcast; assumption|]. apply run_send. assumption.
Qed.

(** The full statement, for which the last line of two tests is meant: after
    the time given to SetEffect the node shows the effect it showed before.  It
    is false for every run: the comparison in the test holds because it compares
    the packet with itself. *)
Theorem C128_the_effect_set_by_hand_ends_refuted d j1 j2 j : any_memory j1 -> any_memory j2 -> any_memory j ->
  let e := mkEnv Host d in
  on_state_machine e j1 j2 (SetEffect_Delay e j) = Ok true /\
  on_state_machine e j1 j2 (reverts e j 5 5001) = Ok false /\
  on_state_machine e j1 j2 (SetEffect_NoDelay e j) = Ok true /\
  on_state_machine e j1 j2 (reverts e j 0 60001) = Ok false.
Proof.
  intros M1 M2 M e. apply any_memory_ok in M1, M2, M.
  split; [apply run_setEffect_delay; assumption|]. split; [apply (run_setEffect_gen d j1 j2 j M1 M2 M 5 5001); auto|].
  split; [apply run_setEffect_nodelay; assumption|]. apply (run_setEffect_gen d j1 j2 j M1 M2 M 0 60001); auto.
Qed.

(** Memory full of ones, and memory full of zeros; every call of rand()
    returning 1234 and increasing numbers. *)
Definition ones : junk := mkJunk 255 (repeat 255 58).
Definition zeros : junk := mkJunk 0 (repeat 0 58).
Example C128_memory : any_memory ones /\ any_memory zeros.
Proof.
  split; (split; [cbn; lia|]; split; [reflexivity|]; intros b I; apply repeat_spec in I; lia).
Qed.
Example C128_passing : let e := mkEnv Host (fun k => N.of_nat k + 1234)%N in
  Forall (fun body => on_state_machine e ones zeros body = Ok true)
    [doesElectionAndBecomesSlave e ones; doesElectionAndBecomesMaster e ones; masterSendsSetEffect e; masterRespectsSetEffectDelay e ones].
Proof.
  destruct C128_memory as [M1 M2].
  destruct (C128_tests_that_depend_on_chance (fun k => N.of_nat k + 1234)%N ones zeros ones M1 M2 M1) as (A & B & C & D).
  repeat apply Forall_cons; [rewrite A|rewrite B|rewrite C|rewrite D|apply Forall_nil]; reflexivity.
Qed.
(** One call of rand() returns 0: three tests fail; 65533 and 65534: the two
    others. *)
Example C128_failing : let at_ (i : nat) v := (fun k : nat => if Nat.eqb k i then v else 1234)%N in
  on_state_machine (mkEnv Host (at_ 1%nat 65533%N)) ones zeros (doesElectionAndBecomesSlave (mkEnv Host (at_ 1%nat 65533%N)) ones) = Ok false /\
  on_state_machine (mkEnv Host (at_ 2%nat 0%N)) ones zeros (doesElectionAndBecomesMaster (mkEnv Host (at_ 2%nat 0%N)) ones) = Ok false /\
  on_state_machine (mkEnv Host (at_ 4%nat 0%N)) ones zeros (masterSendsSetEffect (mkEnv Host (at_ 4%nat 0%N))) = Ok false /\
  on_state_machine (mkEnv Host (at_ 5%nat 0%N)) ones zeros (masterRespectsSetEffectDelay (mkEnv Host (at_ 5%nat 0%N)) ones) = Ok false /\
  on_manager (send_sendsPacket (mkEnv Host (at_ 0%nat 65534%N)) ones) = Ok false.
Proof.
  destruct C128_memory as [M1 M2]. intros at_.
  split; [|split; [|split; [|split]]].
  - rewrite (proj1 (C128_tests_that_depend_on_chance _ _ _ _ M1 M2 M1)). reflexivity.
  - rewrite (proj1 (proj2 (C128_tests_that_depend_on_chance _ _ _ _ M1 M2 M1))). reflexivity.
  - rewrite (proj1 (proj2 (proj2 (C128_tests_that_depend_on_chance _ _ _ ones M1 M2 M1)))). reflexivity.
  - rewrite (proj2 (proj2 (proj2 (C128_tests_that_depend_on_chance _ _ _ _ M1 M2 M1)))). reflexivity.
  - destruct (C128_network_manager_tests (at_ 0%nat 65534%N) ones ones ones 0 M1 M1 M1 ltac:(lia)) as (_ & _ & _ & _ & _ & E). rewrite E. reflexivity.
Qed.
(** The same by running the model. *)
Example C128_run : on_state_machine (mkEnv Host (fun _ => 1234)%N) ones zeros (masterSendsSetEffect (mkEnv Host (fun _ => 1234)%N)) = Ok true /\
  on_manager (receive_rebroadcasts ones zeros) = Ok true.
Proof. split; vm_compute; reflexivity. Qed.

Print Assumptions C128_tests_that_always_pass.
Print Assumptions C128_tests_that_depend_on_chance.
Print Assumptions C128_network_manager_tests.
Print Assumptions C128_the_effect_set_by_hand_ends_refuted.
