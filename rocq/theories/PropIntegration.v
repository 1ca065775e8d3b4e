(** C134: what the integration test of a disappearing master shows.
    Model: FakeNet.v. *)
From Coq Require Import ZArith NArith Lia List Bool.
From Coq Require Import ZifyBool.
From Verif Require Import CInt CIntFacts Packet SpecPacket PacketFacts NetMgr NetHist SpecNet NetFacts Rsm RsmStep RsmEval RsmRun RsmHist SpecRsm RsmFacts RsmTime RoleFacts EffectFacts PropEffect.
From Verif Require Import Fastled Palette Device LedMgr Effects Show ShowFacts Bench FakeNet FakeNetFacts SimFacts PropFakeNet PropSim PropFailSim AgreeFacts AgreeRun PaceRun PropAgree Timetable PropTimes Lull Visits PropComeGo SpreadRun PropSpread.
Import ListNotations.
Open Scope Z_scope.
Ltac Zify.zify_post_hook ::= Z.div_mod_to_equations.

(** RadioStateIntegrationTest.cpp lines 21-37, relectsMasterIfMasterDisappears,
    with what is done before and after the replacement as parameters: [before],
    then one master is expected (line 30), resetMaster (line 31), [after_], and
    again one master is expected (line 36).  5 is kNumNodes (FakeNetwork.hpp line
    36).  Expectations are collected, not printed; the one inside resetMaster
    (RadioIntegrationTest.hpp lines 35-36) is the last clause of
    [C134_the_replaced_master_is_missed]. *)
Definition relect_test (s : source) (before_ after_ : list fop) : outcome bool :=
  w0 <- frun s 5 before_ ;;
  w1 <- resetMaster s 5 w0 ;;
  w <- fsteps s 5 after_ w1 ;;
  Ok (Nat.eqb (getNumMasters 5 w0) 1 && Nat.eqb (getNumMasters 5 w) 1).
(** RadioStateIntegrationTest.cpp lines 22-24: a round, a jump, a round. *)
Definition relect_start : list fop := [FTick; FAdvance (kSlaveNoPacketTimeout - 5); FTick].
(** RadioStateIntegrationTest.cpp lines 28 and 33-34: 2010 and 7010 rounds. *)
Definition relectsMasterIfMasterDisappears (s : source) : outcome bool :=
  relect_test s (relect_start ++ runTicks (Z.to_nat (kSlaveNoPacketRandom + 10)))
    (runTicks (Z.to_nat (kSlaveNoPacketTimeout + kSlaveNoPacketRandom + 10))).

Lemma relect_idle : Forall idle relect_start.
Proof. apply Forall_cons; [exact I|]. apply Forall_cons; [unfold idle, kSlaveNoPacketTimeout; lia|]. apply Forall_cons; [exact I|apply Forall_nil]. Qed.
Lemma relect_passed : passed relect_start = 4995.
Proof. reflexivity. Qed.
Lemma relect_fops : Forall (fop_ok 5) relect_start.
Proof. apply Forall_cons; [exact I|]. apply Forall_cons; [cbn; unfold kSlaveNoPacketTimeout; lia|]. apply Forall_cons; [exact I|apply Forall_nil]. Qed.

(** ** A node other than node 0 leads *)
Lemma nobody_disappears s m k1 k2 : junk_ok s -> (m < 5)%nat -> m <> 0%nat ->
  (forall i, (i < 5)%nat -> i <> m -> waits_until s m < waits_until s i) -> varied (s_draw s m) ->
  Z.of_nat k1 = 2010 -> Z.of_nat k2 = 7010 ->
  exists w0 w, frun s 5 (relect_start ++ runTicks k1) = Ok w0 /\ resetMaster s 5 w0 = Ok w0 /\ fsteps s 5 (runTicks k2) w0 = Ok w /\
    GetCurrentState (f_node w0 m) = Master /\ GetCurrentState (f_node w m) = Master /\ f_name w m = f_name w0 m /\
    relect_test s (relect_start ++ runTicks k1) (runTicks k2) = Ok true.
Proof.
  intros J Hm Nm First V H1 H2. assert (W : 5001 <= waits_until s m < 7005) by (unfold waits_until; lia).
  destruct (simulated_exists s 5 (relect_start ++ runTicks k1) J ltac:(lia)) as [w0 Sim]; [apply Forall_app; split; [apply relect_fops|apply runTicks_ok]|].
  destruct (simulated_ok _ _ _ _ Sim) as [K T].
  destruct (fsteps_ok s 5 (runTicks k2) J (runTicks_ok _ _) w0 K T) as (w & E & _).
  assert (Sim' : simulated s 5 (relect_start ++ runTicks (k1 + k2)) w).
  { rewrite <- runTicks_app, app_assoc. apply (simulated_app s 5 _ _ w0 w Sim (runTicks_ok _ _) E). }
  pose proof (C118_varied_draws_give_distinct_ids s 5 m _ k1 w0 Sim Hm ltac:(lia) First relect_idle ltac:(rewrite relect_passed; lia) ltac:(rewrite relect_passed; lia) V) as Di.
  pose proof (C118_varied_draws_give_distinct_ids s 5 m _ (k1 + k2) w Sim' Hm ltac:(lia) First relect_idle ltac:(rewrite relect_passed; lia) ltac:(rewrite relect_passed; lia) V) as Di'.
  destruct (C118_exactly_one_master s 5 m _ k1 w0 Sim Hm ltac:(lia) First relect_idle ltac:(rewrite relect_passed; lia) ltac:(rewrite relect_passed; lia) Di) as [_ [A B]]; [rewrite relect_passed; lia|].
  destruct (C118_exactly_one_master s 5 m _ (k1 + k2) w Sim' Hm ltac:(lia) First relect_idle ltac:(rewrite relect_passed; lia) ltac:(rewrite relect_passed; lia) Di') as [_ [A' B']]; [rewrite relect_passed; lia|].
  pose proof (C123_no_master_is_replaced s 5 m _ k1 w0 Sim Hm ltac:(lia) Nm First relect_idle ltac:(rewrite relect_passed; lia) ltac:(rewrite relect_passed; lia) Di) as R.
  exists w0, w. split; [apply Sim|]. split; [exact R|]. split; [exact E|]. split; [exact A|]. split; [exact A'|]. split.
  - clear - E K. revert w0 K E. induction k2 as [|k IH]; intros w0 K E; [cbn in E; injection E as <-; reflexivity|].
    cbn [runTicks fsteps fstep obind] in E. assert (K0 : ok 5 (advanceMillis 1 w0)) by (destruct K as [[? ? ? ?] ? ?]; constructor; [constructor|..]; auto; cbn; lia).
    destruct (FakeTick_ok s 5 _ K0) as (evs & w1 & E1 & K1 & _ & _ & Nm & _). rewrite E1 in E. cbn [obind] in E. rewrite (IH w1 K1 E), Nm. reflexivity.
  - unfold relect_test. rewrite (proj2 (proj2 (proj2 Sim))). cbn [obind]. rewrite R. cbn [obind]. rewrite E. cbn [obind].
    rewrite (masters_counted 5 w0 m Hm A B), (masters_counted 5 w m Hm A' B'). reflexivity.
Qed.

(** Node [m] is elected, and it is not node 0.  Then resetMaster does nothing:
    the test passes although no master disappeared and none was elected again;
    node [m] is master all the time. *)
Theorem C134_the_test_passes_although_no_master_disappears : forall s m,
  junk_ok s -> (m < 5)%nat -> m <> 0%nat ->
  (forall i, (i < 5)%nat -> i <> m -> waits_until s m < waits_until s i) -> varied (s_draw s m) ->
  exists w0 w,
    frun s 5 (relect_start ++ runTicks (Z.to_nat (kSlaveNoPacketRandom + 10))) = Ok w0 /\
    resetMaster s 5 w0 = Ok w0 /\
    fsteps s 5 (runTicks (Z.to_nat (kSlaveNoPacketTimeout + kSlaveNoPacketRandom + 10))) w0 = Ok w /\
    GetCurrentState (f_node w0 m) = Master /\ GetCurrentState (f_node w m) = Master /\ f_name w m = f_name w0 m /\
    relectsMasterIfMasterDisappears s = Ok true.
Proof.
  intros s m J Hm Nm First V. unfold relectsMasterIfMasterDisappears.
  apply (nobody_disappears s m _ _ J Hm Nm First V); apply Z2Nat.id; unfold kSlaveNoPacketTimeout, kSlaveNoPacketRandom; lia.
Qed.
Print Assumptions C134_the_test_passes_although_no_master_disappears.

(** ** Node 0 leads *)
(** Node 0 is elected and replaced while nothing is in the air.  In the next
    round there is no master; then the node waiting shortest takes over (with ids
    the others have not just seen), and the test passes. *)
Theorem C134_the_replaced_master_is_missed : forall s os k w0,
  simulated s 5 (os ++ runTicks k) w0 ->
  (forall i, (i < 5)%nat -> i <> 0%nat -> waits_until s 0 < waits_until s i) ->
  Forall idle os -> 5 + passed os <= waits_until s 0 ->
  waits_until s 0 < 5 + passed os + Z.of_nat k < wrap - 90000 ->
  distinct_ids (all_ids (calls_of 0 (f_log w0))) -> nothing_in_the_air 5 w0 ->
  exists w1 w2, resetMaster s 5 w0 = Ok w1 /\ fsteps s 5 (runTicks 1) w1 = Ok w2 /\
    getNumMasters 5 w0 = 1%nat /\ getNumMasters 5 w2 = 0%nat /\
    (exists moment, forall i, (i < 5)%nat -> patient_until s w2 i (moment i) /\ f_clock w2 + 996 <= moment i <= f_clock w2 + 6999) /\
    (forall moment m os2 k2 w,
       (forall i, (i < 5)%nat -> patient_until s w2 i (moment i)) ->
       (m < 5)%nat -> (forall i, (i < 5)%nat -> i <> m -> moment m < moment i) ->
       Forall idle os2 -> f_clock w2 + passed os2 <= moment m ->
       fsteps s 5 (os2 ++ runTicks k2) w2 = Ok w -> moment m < f_clock w < wrap - 90000 ->
       new_to_all 5 m w2 w ->
       GetCurrentState (f_node w m) = Master /\
       relect_test s (os ++ runTicks k) (runTicks 1 ++ os2 ++ runTicks k2) = Ok true) /\
    GetCurrentState (f_node w1 0) = Slave.
Proof.
  intros s os k w0 Sim First Idle B1 B2 Di Q.
  assert (St : steady s 5 (os ++ runTicks k) w0 0) by (apply powered_up; auto; lia).
  destruct (C118_exactly_one_master s 5 0 os k w0 Sim ltac:(lia) ltac:(lia) First Idle ltac:(lia) ltac:(unfold wrap in B2; lia) Di) as [_ [A B]]; [lia|].
  pose proof (C123_reset_master_only_looks_at_node_0 s 5 _ w0 Sim ltac:(lia)) as Er. rewrite A in Er.
  destruct (simulated_ok _ _ _ _ Sim) as [K T]. pose proof Sim as (J & _).
  destruct (reinit_ok s 5 w0 0 J K T ltac:(lia)) as (w1 & E1 & K1 & T1 & Nd & _). rewrite E1 in Er.
  destruct (fsteps_ok s 5 (runTicks 1) J (runTicks_ok _ _) w1 K1 T1) as (w2 & E2 & K2 & _).
  assert (E12 : fsteps s 5 (map FReinit [0%nat] ++ [FAdvance 1; FTick]) w0 = Ok w2).
  { cbn [map]. rewrite fsteps_app. cbn [fsteps fstep]. rewrite E1. cbn [obind]. exact E2. }
  assert (F0 : Forall (fun r => (r < 5)%nat) [0%nat]) by (repeat constructor; lia).
  destruct (C127_a_new_master_is_due s 5 _ w0 0 [0%nat] w2 ltac:(lia) St Q F0 ltac:(left; reflexivity) E12) as (Sil & N0 & Mo).
  exists w1, w2. split; [exact Er|]. split; [exact E2|]. split; [apply (masters_counted 5 w0 0 ltac:(lia) A B)|]. split; [exact N0|]. split; [exact Mo|]. split.
  - intros moment m os2 k2 w P Hm Fm Id2 Lm E3 Ck New.
    destruct (C127_nobody_before_one_after s 5 _ w0 0 [0%nat] w2 moment m os2 k2 w ltac:(lia) St Q F0 ltac:(left; reflexivity) E12 P Hm Fm Id2 Lm E3 ltac:(lia) New) as [_ C].
    destruct C as [C1 C2]; [lia|]. split; [exact C1|]. unfold relect_test. rewrite (proj2 (proj2 (proj2 Sim))). cbn [obind]. rewrite Er. cbn [obind].
    rewrite fsteps_app, E2. cbn [obind]. rewrite E3. cbn [obind]. rewrite (masters_counted 5 w0 0 ltac:(lia) A B), C2. reflexivity.
  - rewrite Nd. unfold upd. cbn [Nat.eqb]. unfold powered, bare. destruct (s_junk s (f_born w0)) as [[[ty1 ty2] d1] d2]. reflexivity.
Qed.
Print Assumptions C134_the_replaced_master_is_missed.

Lemma relects_node_0 s r k1 k2 : junk_ok s -> (forall i, (i < 5)%nat -> i <> 0%nat -> waits_until s 0 < waits_until s i) -> varied (s_draw s 0) ->
  r = Z.of_N (s_draw s 0%nat 0%nat) mod 2000 -> 8 <= r <= 994 \/ 1008 <= r <= 1995 ->
  Z.of_nat k1 = 2010 -> Z.of_nat k2 = 7009 ->
  exists w0 w1 w2 w, frun s 5 (relect_start ++ runTicks k1) = Ok w0 /\ resetMaster s 5 w0 = Ok w1 /\
    fsteps s 5 (runTicks 1) w1 = Ok w2 /\ fsteps s 5 (runTicks k2) w2 = Ok w /\
    getNumMasters 5 w0 = 1%nat /\ GetCurrentState (f_node w0 0) = Master /\ getNumMasters 5 w2 = 0%nat /\
    exists moment, (forall i, (i < 5)%nat -> patient_until s w2 i (moment i)) /\
      forall m, (m < 5)%nat -> (forall i, (i < 5)%nat -> i <> m -> moment m < moment i) -> new_to_all 5 m w2 w ->
        GetCurrentState (f_node w m) = Master /\ relect_test s (relect_start ++ runTicks k1) (runTicks (S k2)) = Ok true.
Proof.
  intros J First V Er Hr H1 H2. assert (W : waits_until s 0 = 5001 + r) by (unfold waits_until; lia).
  destruct (simulated_exists s 5 (relect_start ++ runTicks k1) J ltac:(lia)) as [w0 Sim]; [apply Forall_app; split; [apply relect_fops|apply runTicks_ok]|].
  pose proof (C118_varied_draws_give_distinct_ids s 5 0 _ k1 w0 Sim ltac:(lia) ltac:(lia) First relect_idle ltac:(rewrite relect_passed; lia) ltac:(rewrite relect_passed; lia) V) as Di.
  assert (Q : nothing_in_the_air 5 w0).
  { apply (C124_clear_moments s 5 0 _ k1 w0 Sim ltac:(lia) ltac:(lia) First relect_idle ltac:(rewrite relect_passed; lia)); [rewrite relect_passed; lia|exact Di| |];
      rewrite relect_passed, W; replace (Z.of_nat 5 + 4995 + Z.of_nat k1 - (5001 + r + 1)) with (2008 - r) by lia; lia. }
  destruct (C118_exactly_one_master s 5 0 _ k1 w0 Sim ltac:(lia) ltac:(lia) First relect_idle ltac:(rewrite relect_passed; lia) ltac:(rewrite relect_passed; lia) Di) as [_ [A _]]; [rewrite relect_passed; lia|].
  destruct (C134_the_replaced_master_is_missed s _ k1 w0 Sim First relect_idle ltac:(rewrite relect_passed; lia) ltac:(rewrite relect_passed; unfold wrap; lia) Di Q)
    as (w1 & w2 & E1 & E2 & N1 & N0 & (moment & Mo) & Go & _).
  assert (Sim2 : simulated s 5 ((relect_start ++ runTicks k1) ++ [FReinit 0; FAdvance 1; FTick]) w2).
  { apply (simulated_app s 5 _ _ w0 w2 Sim); [repeat constructor; cbn; lia|]. cbn [fsteps fstep].
    rewrite (C123_reset_master_only_looks_at_node_0 s 5 _ w0 Sim ltac:(lia)), A in E1. rewrite E1. cbn [obind]. exact E2. }
  destruct (simulated_ok _ _ _ _ Sim2) as [K2 T2].
  destruct (fsteps_ok s 5 (runTicks k2) J (runTicks_ok _ _) w2 K2 T2) as (w & E & _).
  destruct (ticks_log s 5 k2 w2 w K2 E) as (_ & Ck & _).
  assert (Ck2 : f_clock w2 = 7011).
  { pose proof (run_clock s 5 0 _ k1 w0 Sim ltac:(lia) ltac:(lia) First relect_idle ltac:(rewrite relect_passed; lia)) as C0. rewrite relect_passed in C0.
    destruct (simulated_ok _ _ _ _ Sim) as [K T].
    rewrite (C123_reset_master_only_looks_at_node_0 s 5 _ w0 Sim ltac:(lia)), A in E1.
    destruct (reinit_ok s 5 w0 0 J K T ltac:(lia)) as (w1' & E1' & K1 & _ & _ & _ & _ & _ & _ & _ & C1 & _). rewrite E1 in E1'. injection E1' as <-.
    destruct (ticks_log s 5 1 w1 w2 K1 E2) as (_ & C2 & _). lia. }
  exists w0, w1, w2, w. split; [apply Sim|]. split; [exact E1|]. split; [exact E2|]. split; [exact E|]. split; [exact N1|]. split; [exact A|]. split; [exact N0|].
  exists moment. split; [intros i Hi; apply Mo; exact Hi|]. intros m Hm Fm New.
  pose proof (Mo m Hm) as [_ Um].
  apply (Go moment m [] k2 w (fun i Hi => proj1 (Mo i Hi)) Hm Fm ltac:(constructor) ltac:(cbn; lia) E ltac:(unfold wrap; lia) New).
Qed.

(** The test itself: nothing is in the air at 7010 ms for all but 25 of the 2000
    values [r] that the wait of node 0 can add to 5000 ms.  Then node 0 is
    replaced, nobody is master in the next round, and the test passes when the
    node waiting shortest draws ids the others have not just seen. *)
Theorem C134_the_test_when_node_0_is_elected : forall s,
  junk_ok s -> (forall i, (i < 5)%nat -> i <> 0%nat -> waits_until s 0 < waits_until s i) -> varied (s_draw s 0) ->
  let r := Z.of_N (s_draw s 0%nat 0%nat) mod 2000 in
  8 <= r <= 994 \/ 1008 <= r <= 1995 ->
  exists w0 w1 w2 w, frun s 5 (relect_start ++ runTicks (Z.to_nat (kSlaveNoPacketRandom + 10))) = Ok w0 /\ resetMaster s 5 w0 = Ok w1 /\
    fsteps s 5 (runTicks 1) w1 = Ok w2 /\ fsteps s 5 (runTicks (Z.to_nat (kSlaveNoPacketTimeout + kSlaveNoPacketRandom + 9))) w2 = Ok w /\
    getNumMasters 5 w0 = 1%nat /\ GetCurrentState (f_node w0 0) = Master /\ getNumMasters 5 w2 = 0%nat /\
    exists moment, (forall i, (i < 5)%nat -> patient_until s w2 i (moment i)) /\
      forall m, (m < 5)%nat -> (forall i, (i < 5)%nat -> i <> m -> moment m < moment i) -> new_to_all 5 m w2 w ->
        GetCurrentState (f_node w m) = Master /\ relectsMasterIfMasterDisappears s = Ok true.
Proof.
  intros s J First V r Hr. unfold relectsMasterIfMasterDisappears.
  assert (Eq : forall k, Z.of_nat k = 7009 -> Z.to_nat (kSlaveNoPacketTimeout + kSlaveNoPacketRandom + 10) = S k) by (intros k Hk; unfold kSlaveNoPacketTimeout, kSlaveNoPacketRandom; lia).
  assert (H1 : Z.of_nat (Z.to_nat (kSlaveNoPacketRandom + 10)) = 2010) by (rewrite Z2Nat.id; unfold kSlaveNoPacketRandom; lia).
  assert (H2 : Z.of_nat (Z.to_nat (kSlaveNoPacketTimeout + kSlaveNoPacketRandom + 9)) = 7009) by (rewrite Z2Nat.id; unfold kSlaveNoPacketTimeout, kSlaveNoPacketRandom; lia).
  rewrite (Eq _ H2). exact (relects_node_0 s r _ _ J First V eq_refl Hr H1 H2).
Qed.
Print Assumptions C134_the_test_when_node_0_is_elected.

(** ** The hypotheses are met *)
(** Node 3 is elected. *)
Example C134_nobody_disappears_inhabited :
  junk_ok lively /\ (forall i, (i < 5)%nat -> i <> 3%nat -> waits_until lively 3 < waits_until lively i) /\ varied (s_draw lively 3) /\
  relectsMasterIfMasterDisappears lively = Ok true.
Proof.
  assert (J : junk_ok lively) by (intros i; cbn -[wf_packet]; split; apply wf_packetb_ok; vm_compute; reflexivity).
  assert (First : forall i, (i < 5)%nat -> i <> 3%nat -> waits_until lively 3 < waits_until lively i).
  { intros i Hi Ne. unfold waits_until. cbn [lively s_draw]. destruct (Nat.eqb_spec i 3); [contradiction|]. cbn. lia. }
  split; [exact J|]. split; [exact First|]. split; [exact lively_varied|].
  destruct (C134_the_test_passes_although_no_master_disappears lively 3 J ltac:(lia) ltac:(lia) First lively_varied) as (w0 & w & _ & _ & _ & _ & _ & _ & R). exact R.
Qed.

(** Node 0 is elected and replaced, and node 1 takes over. *)
Definition elected0 : list fop := [FTick; FAdvance 4980; FTick] ++ runTicks 40.
Definition second : list fop := [FAdvance 5070; FTick] ++ runTicks 40.
Definition taken_over (w2 w : fakenet) : bool :=
  timers_from 5 1 w2 && newb 5 1 w2 w && (f_clock w2 + 5070 <=? t_hb (f_node w2 1)) && (t_hb (f_node w2 1) <? f_clock w) && (f_clock w <? 11000).
Definition led0 (w0 : fakenet) : bool :=
  distinctb [] (all_ids (calls_of 0 (f_log w0))) && quiet 5 w0 && two_parts (plain 0 1500) 5 [FReinit 0; FAdvance 1; FTick] second taken_over w0.

Lemma reset_is_reinit s os w0 w1 w2 : simulated s 5 os w0 -> GetCurrentState (f_node w0 0) = Master ->
  resetMaster s 5 w0 = Ok w1 -> fsteps s 5 (runTicks 1) w1 = Ok w2 -> fsteps s 5 [FReinit 0; FAdvance 1; FTick] w0 = Ok w2.
Proof.
  intros Sim A E1 E2. rewrite (C123_reset_master_only_looks_at_node_0 s 5 _ w0 Sim ltac:(lia)), A in E1.
  cbn [fsteps fstep]. rewrite E1. cbn [obind]. exact E2.
Qed.

Lemma second_over w0 : simulated (plain 0 1500) 5 elected0 w0 -> led0 w0 = true ->
  distinct_ids (all_ids (calls_of 0 (f_log w0))) /\ nothing_in_the_air 5 w0 /\
  exists w2 w, fsteps (plain 0 1500) 5 [FReinit 0; FAdvance 1; FTick] w0 = Ok w2 /\ fsteps (plain 0 1500) 5 second w2 = Ok w /\
    new_to_all 5 1 w2 w /\ GetCurrentState (f_node w 1) = Master /\ getNumMasters 5 w2 = 0%nat /\
    relect_test (plain 0 1500) elected0 (runTicks 1 ++ second) = Ok true.
Proof.
  intros Sim L. unfold led0 in L. apply andb_true_iff in L as [L L3]. apply andb_true_iff in L as [L1 L2].
  apply two_parts_ok in L3 as (w2 & w & E2 & E3 & L). unfold taken_over in L. do 4 (apply andb_true_iff in L as [L ?]).
  pose proof (distinctb_ok _ L1) as Di. pose proof (quiet_ok _ _ L2 : nothing_in_the_air 5 w0) as Q.
  split; [exact Di|]. split; [exact Q|].
  assert (First : forall i, (i < 5)%nat -> i <> 0%nat -> waits_until (plain 0 1500) 0 < waits_until (plain 0 1500) i).
  { intros i Hi Ne. unfold waits_until. cbn [plain s_draw]. destruct (Nat.eqb_spec i 0); [contradiction|]. cbn. lia. }
  assert (Id : Forall idle [FTick; FAdvance 4980; FTick]) by (repeat constructor; cbn; lia).
  destruct (C134_the_replaced_master_is_missed (plain 0 1500) _ 40 w0 Sim First Id ltac:(vm_compute; discriminate) ltac:(split; vm_compute; reflexivity) Di Q)
    as (w1 & w2' & Er & E2' & _ & N0 & (moment & Mo) & Go & _).
  destruct (simulated_ok _ _ _ _ Sim) as [K T].
  assert (Eq : w2' = w2).
  { destruct (C118_exactly_one_master (plain 0 1500) 5 0 _ 40 w0 Sim ltac:(lia) ltac:(lia) First Id ltac:(vm_compute; discriminate) ltac:(vm_compute; reflexivity) Di) as [_ [A _]]; [vm_compute; reflexivity|].
    pose proof (reset_is_reinit _ _ w0 w1 w2' Sim A Er E2') as X. rewrite E2 in X. injection X as <-. reflexivity. }
  subst w2'.
  assert (Sim2 : simulated (plain 0 1500) 5 (elected0 ++ [FReinit 0; FAdvance 1; FTick]) w2) by (apply (simulated_app _ 5 _ _ w0 w2 Sim); [repeat constructor; cbn; lia|exact E2]).
  destruct (simulated_ok _ _ _ _ Sim2) as [K2 T2].
  assert (Tf : forall i, (i < 5)%nat -> state (f_node w2 i) = Slave /\ 0 < t_hb (f_node w2 i) /\ (i = 1%nat \/ t_hb (f_node w2 1) < t_hb (f_node w2 i))).
  { intros i Hi. unfold timers_from in L. apply (proj1 (forallb_forall _ _)) with (x := i) in L; [|apply in_seq; lia].
    apply andb_true_iff in L as [L Lb]. apply andb_true_iff in L as [La Lc]. split; [unfold GetCurrentState in La; destruct (state (f_node w2 i)); [reflexivity|discriminate]|].
    split; [lia|]. apply orb_true_iff in Lb as [Lb|Lb]; [left; apply Nat.eqb_eq; exact Lb|right; lia]. }
  exists w2, w. split; [exact E2|]. split; [exact E3|]. assert (New : new_to_all 5 1 w2 w) by (apply newb_ok; assumption). split; [exact New|].
  destruct (Go (fun i => t_hb (f_node w2 i)) 1%nat [FAdvance 5070; FTick] 40%nat w) as [G1 G2].
  - intros i Hi. destruct (Tf i Hi) as (A & B & _). apply (waits_patient _ 5 w2 i (moment i) K2 Hi A B). apply Mo. exact Hi.
  - lia.
  - intros i Hi Ne. destruct (Tf i Hi) as (_ & _ & [?|?]); [contradiction|assumption].
  - repeat constructor; cbn; lia.
  - cbn [passed fold_right]. lia.
  - exact E3.
  - unfold wrap. lia.
  - exact New.
  - split; [exact G1|]. split; [exact N0|exact G2].
Qed.

Example C134_replaced_inhabited : exists w0, simulated (plain 0 1500) 5 elected0 w0 /\
  distinct_ids (all_ids (calls_of 0 (f_log w0))) /\ nothing_in_the_air 5 w0 /\
  exists w2 w, fsteps (plain 0 1500) 5 [FReinit 0; FAdvance 1; FTick] w0 = Ok w2 /\ fsteps (plain 0 1500) 5 second w2 = Ok w /\
    new_to_all 5 1 w2 w /\ GetCurrentState (f_node w 1) = Master /\ getNumMasters 5 w2 = 0%nat /\
    relect_test (plain 0 1500) elected0 (runTicks 1 ++ second) = Ok true.
Proof.
  destruct (simulated_exists (plain 0 1500) 5 elected0) as [w0 Sim].
  { apply plain_junk. } { lia. }
  { apply Forall_app. split; [repeat constructor; cbn; lia|apply runTicks_ok]. }
  exists w0. split; [exact Sim|]. apply (second_over w0 Sim).
  apply (ends_true _ _ _ led0 _ Sim). vm_compute. reflexivity.
Qed.
