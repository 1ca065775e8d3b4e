(** C137: what the two integration tests with packet loss show.
    Model: FakeNet.v. *)
From Coq Require Import ZArith NArith Lia List Bool.
From Coq Require Import ZifyBool.
From Verif Require Import CInt CIntFacts Packet SpecPacket PacketFacts NetMgr NetHist SpecNet NetFacts Rsm RsmStep RsmEval RsmRun RsmHist SpecRsm RsmFacts RsmTime RoleFacts.
From Verif Require Import Fastled Palette Device LedMgr Effects Show ShowFacts Bench FakeNet FakeNetFacts SimFacts PropFakeNet PropSim PropFailSim AgreeFacts AgreeRun PaceRun PropAgree LossFacts PropLoss Timetable PropTimes Lull Visits PropComeGo SpreadRun PropSpread PropDropOut.
Import ListNotations.
Open Scope Z_scope.
Ltac Zify.zify_post_hook ::= Z.div_mod_to_equations.

(** ** The tests *)
(** RadioStateIntegrationTest.cpp lines 101-132, stableWithMildPacketLoss: the
    same counters once, with no rounds after them. *)
Definition mild_loss_test (s : source) (pl : plan) : outcome bool :=
  w <- frun s 5 (p_start pl) ;; r <- window s pl w ;; Ok (snd r).
(** RadioStateIntegrationTest.cpp lines 103-105, 111, 130 and 131. *)
Definition mild_plan : plan :=
  mkPlan (FLoss 100 :: runTicks (Z.to_nat (kSlaveNoPacketTimeout * 2))) 0 (Z.to_nat (kSlaveNoPacketTimeout * 10)) 0 [] 50 100 false.
Definition stableWithMildPacketLoss (s : source) : outcome bool := mild_loss_test s mild_plan.
(** RadioStateIntegrationTest.cpp lines 136-140, 152, 171, 172 and 176, without
    setPacketLoss of line 136. *)
Definition dropping_plan : plan :=
  mkPlan (runTicks (Z.to_nat (kSlaveNoPacketTimeout + kSlaveNoPacketRandom + 10)))
    (Z.to_nat (kSlaveNoPacketTimeout * 2 + 2)) (Z.to_nat (kSlaveNoPacketTimeout * 2 + 2)) 0
    (runTicks (Z.to_nat (kSlaveNoPacketTimeout * 2))) 500 1000 false.
(** The same test with packet loss [l] set at first. *)
Definition with_loss (l : Z) (pl : plan) : plan :=
  mkPlan (FLoss l :: p_start pl) (p_check pl) (p_count pl) (p_stable pl) (p_wait pl) (p_max pl) (p_total pl) (p_after pl).
(** RadioStateIntegrationTest.cpp lines 134-178. *)
Definition stableWithMildPacketLossAndNodesDropping (s : source) (dice : list (nat * nat)) : outcome bool :=
  drop_out_test s (with_loss 100 dropping_plan) dice.

(** ** What passing means *)
Theorem C137_what_passing_means : forall s pl, p_stable pl = 0%nat ->
  mild_loss_test s pl = Ok true <->
  exists w ms w1, frun s 5 (p_start pl) = Ok w /\ masters_along s (p_count pl) w = Ok ms /\ fsteps s 5 (runTicks (p_count pl)) w = Ok w1 /\
    Z.of_nat (bad_after_bad ms) < p_max pl /\ Z.of_nat (bad_rounds ms) < p_total pl.
Proof.
  intros s pl Z0. unfold mild_loss_test. split.
  - intros E. destruct (frun s 5 (p_start pl)) as [w| |]; try discriminate. cbn [obind] in E. destruct (window s pl w) as [[w1 b]| |] eqn:W; try discriminate.
    cbn [obind snd] in E. injection E as ->. apply window_run in W as (ms & w2 & ms1 & M & A & B & F & _). exists w, ms, w2. auto.
  - intros (w & ms & w1 & -> & M & F & A & B). cbn [obind].
    assert (W : window s pl w = Ok (w1, true)); [|rewrite W; reflexivity].
    apply window_run. exists ms, w1, []. rewrite Z0. cbn. auto 8.
Qed.
Print Assumptions C137_what_passing_means.

(** ** No test of this form crashes *)
Lemma masters_ok s k : forall w, ok 5 w -> traced s 5 w -> exists ms, masters_along s k w = Ok ms.
Proof.
  induction k as [|k IH]; intros w K T; [exists []; reflexivity|]. cbn [masters_along].
  destruct (advance_ok s 5 w 1 ltac:(lia) K T) as [K0 T0]. destruct (FakeTick_ok s 5 _ K0) as (evs & w1 & E1 & K1 & _). rewrite E1. cbn [obind].
  destruct (IH w1 K1 (FakeTick_traced s 5 _ w1 K0 T0 E1)) as [ms ->]. eexists. reflexivity.
Qed.
Lemma ones_ok s k : junk_ok s -> forall w, ok 5 w -> traced s 5 w -> exists w' b, ones s k w = Ok (w', b) /\ ok 5 w' /\ traced s 5 w'.
Proof.
  intros J. induction k as [|k IH]; intros w K T; [exists w, true; cbn; auto|]. cbn [ones].
  destruct (advance_ok s 5 w 1 ltac:(lia) K T) as [K0 T0]. destruct (FakeTick_ok s 5 _ K0) as (evs & w1 & E1 & K1 & _). rewrite E1. cbn [obind].
  destruct (IH w1 K1 (FakeTick_traced s 5 _ w1 K0 T0 E1)) as (w' & b & -> & K' & T'). cbn [obind fst snd]. eauto.
Qed.
Lemma window_ok s pl w : junk_ok s -> ok 5 w -> traced s 5 w -> exists w' b, window s pl w = Ok (w', b) /\ ok 5 w' /\ traced s 5 w'.
Proof.
  intros J K T. destruct (fsteps_ok s 5 (runTicks (p_count pl)) J (runTicks_ok _ _) w K T) as (w1 & E1 & K1 & T1).
  pose proof (counted_run s (p_count pl) w (mkCounters 0 0 0 false)) as C. rewrite E1 in C. destruct C as (ms & _ & C).
  destruct (ones_ok s (p_stable pl) J w1 K1 T1) as (w2 & b & O & K2 & T2). unfold window. rewrite C. cbn [obind fst snd]. rewrite O. cbn [obind fst snd]. eauto.
Qed.

Definition in_range (dice : list (nat * nat)) : Prop := Forall (fun ab => (fst ab < 5)%nat /\ (snd ab < 5)%nat) dice.
Lemma iterations_ok s pl dice : junk_ok s -> Forall (fop_ok 5) (p_wait pl) -> in_range dice -> forall w, ok 5 w -> traced s 5 w -> exists b, iterations s pl dice w = Ok b.
Proof.
  intros J Fw F. induction F as [|[a b] dice [Ha Hb] F IH]; intros w K T; [exists true; reflexivity|]. cbn [iterations]. cbn [fst snd] in Ha, Hb.
  destruct (window_ok s pl w J K T) as (w1 & b1 & -> & K1 & T1). cbn [obind fst snd]. unfold swap. cbn [fst snd].
  destruct (reinit_ok s 5 w1 a J K1 T1 Ha) as (w2 & -> & K2 & T2 & _). cbn [obind].
  destruct (reinit_ok s 5 w2 b J K2 T2 Hb) as (w3 & -> & K3 & T3 & _). cbn [obind].
  destruct (fsteps_ok s 5 (p_wait pl) J Fw w3 K3 T3) as (w4 & -> & K4 & T4). cbn [obind fst snd].
  destruct (IH w4 K4 T4) as [b4 ->]. cbn [obind]. eauto.
Qed.

Theorem C137_no_such_test_crashes : forall s pl dice,
  junk_ok s -> Forall (fop_ok 5) (p_start pl) -> Forall (fop_ok 5) (p_wait pl) -> in_range dice ->
  (exists b, mild_loss_test s pl = Ok b) /\ exists b, drop_out_test s pl dice = Ok b.
Proof.
  intros s pl dice J Fs Fw R. destruct (frun_ok s 5 (p_start pl) J ltac:(lia) Fs) as (w & E & K & T). unfold mild_loss_test, drop_out_test. rewrite E. cbn [obind]. split.
  - destruct (window_ok s pl w J K T) as (w1 & b & -> & _). eexists. reflexivity.
  - destruct (ones_ok s (p_check pl) J w K T) as (w1 & b & -> & K1 & T1). cbn [obind fst snd]. destruct (iterations_ok s pl dice J Fw R w1 K1 T1) as [b2 ->]. eexists. reflexivity.
Qed.
Print Assumptions C137_no_such_test_crashes.

(** ** When everybody stays in contact *)
Lemma heard_before log new i c t : Forall (fun x : nat * event => c < at_ (snd x)) new -> t <= c -> heard_heartbeat (log ++ new) i t -> heard_heartbeat log i t.
Proof.
  intros F L (ev & p & I & E & B). rewrite calls_of_app in I. apply in_app_or in I as [I|I]; [exists ev, p; auto|].
  apply calls_of_in in I. rewrite Forall_forall in F. specialize (F _ I). cbn in F. lia.
Qed.
Lemma heard_later log new i t : heard_heartbeat log i t -> heard_heartbeat (log ++ new) i t.
Proof. intros (ev & p & I & E). exists ev, p. rewrite calls_of_app. split; [apply in_or_app; left; exact I|exact E]. Qed.
Lemma contact_earlier s N m log new from c upto : Forall (fun x : nat * event => c < at_ (snd x)) new -> c <= upto ->
  in_contact s N m (log ++ new) from upto -> in_contact s N m log from c.
Proof.
  intros F L H i Hi Ne t Ht. destruct (H i Hi Ne t ltac:(lia)) as [(t' & A & B)|[A B]]; [left|right].
  - exists t'. split; [exact A|]. apply (heard_before log new i c t' F ltac:(lia) B).
  - split; [|exact B]. intros t' Ht' X. apply (A t' Ht'). apply heard_later. exact X.
Qed.
Lemma ticks_fresh s N k : forall w1 w, ok N w1 -> fsteps s N (runTicks k) w1 = Ok w -> exists new, f_log w = f_log w1 ++ new /\ Forall (fun x => f_clock w1 < at_ (snd x)) new.
Proof.
  induction k as [|k IH]; intros w1 w K E; [cbn in E; injection E as <-; exists []; rewrite app_nil_r; split; [reflexivity|constructor]|].
  cbn [runTicks fsteps fstep obind] in E. destruct (FakeTick s N (advanceMillis 1 w1)) as [w2| |] eqn:E2; try discriminate. cbn [obind] in E.
  destruct (tick_new s N w1 w2 K E2) as (Ck & new & Lg & F).
  assert (K2 : ok N w2).
  { assert (K0 : ok N (advanceMillis 1 w1)) by (destruct K as [[? ? ? ?] ? ?]; constructor; [constructor|..]; auto; cbn; lia).
    destruct (FakeTick_ok s N _ K0) as (evs & w3 & E3 & K2 & _). rewrite E2 in E3. injection E3 as <-. exact K2. }
  destruct (IH w2 w K2 E) as (new' & Lg' & F'). exists (new ++ new'). split; [rewrite Lg', Lg, app_assoc; reflexivity|].
  apply Forall_app. split; [exact F|]. eapply Forall_impl; [|exact F']. cbn. intros x Hx. lia.
Qed.

(** A run whose first part is a run of the test. *)
Lemma split_run s l k c w : simulated s 5 (FLoss l :: runTicks (k + c)) w ->
  exists v, simulated s 5 (FLoss l :: runTicks k) v /\ fsteps s 5 (runTicks c) v = Ok w.
Proof.
  intros Sim. rewrite <- runTicks_app in Sim. change (FLoss l :: runTicks k ++ runTicks c) with ((FLoss l :: runTicks k) ++ runTicks c) in Sim.
  destruct Sim as (J & B & F & E). apply Forall_app in F as [F1 F2]. unfold frun in E. destruct (FakeNetwork s 5) as [wi| |] eqn:E0; try discriminate. cbn [obind] in E.
  rewrite fsteps_app in E. destruct (fsteps s 5 (FLoss l :: runTicks k) wi) as [v| |] eqn:Ev; try discriminate. cbn [obind] in E. exists v. split; [|exact E].
  split; [exact J|]. split; [exact B|]. split; [exact F1|]. unfold frun. rewrite E0. exact Ev.
Qed.
Lemma loss_clock s l k w : simulated s 5 (FLoss l :: runTicks k) w -> f_clock w = 5 + Z.of_nat k.
Proof.
  intros (J & B & F & E). unfold frun in E. destruct (FakeNetwork s 5) as [wi| |] eqn:E0; try discriminate. cbn [obind fsteps fstep] in E.
  destruct (calm_start s 5 wi J B E0) as [C0 Ck0]. pose proof (c_ok _ _ _ _ _ C0) as K0.
  assert (K' : ok 5 (setPacketLoss l wi)) by (destruct K0 as [[? ? ? ?] ? ?]; constructor; [constructor|..]; auto).
  destruct (ticks_log s 5 k _ w K' E) as (_ & Ck & _). rewrite Ck. cbn [setPacketLoss set_loss f_clock]. rewrite Ck0. reflexivity.
Qed.

Lemma one_each_passes s pl v w : frun s 5 (p_start pl) = Ok v -> p_stable pl = 0%nat -> 0 < p_max pl -> 0 < p_total pl ->
  fsteps s 5 (runTicks (p_count pl)) v = Ok w -> one_each s (p_count pl) v -> mild_loss_test s pl = Ok true.
Proof.
  intros E Z0 P1 P2 F O. unfold mild_loss_test. rewrite E. cbn [obind]. rewrite (window_ones s pl v w P1 P2); [reflexivity|..]; rewrite Z0, Nat.add_0_r; assumption.
Qed.

Theorem C137_passes_while_everybody_hears_the_master : forall s m l k c mx tot wait_ after_ w,
  simulated s 5 (FLoss l :: runTicks (k + c)) w -> (m < 5)%nat ->
  (forall i, (i < 5)%nat -> i <> m -> waits_until s m < waits_until s i) ->
  kSlaveNoPacketTimeout * 2 <= Z.of_nat k -> Z.of_nat (k + c) < 4294967296 - 80000 ->
  in_contact s 5 m (f_log w) 5 (5 + Z.of_nat (k + c)) -> 0 < mx -> 0 < tot ->
  mild_loss_test s (mkPlan (FLoss l :: runTicks k) 0 c 0 wait_ mx tot after_) = Ok true.
Proof.
  intros s m l k c mx tot wt af w Sim Hm First Hk Hc Co P1 P2. destruct (split_run s l k c w Sim) as (v & Sv & E).
  apply (one_each_passes s _ v w); auto; cbn [p_start p_count]; [apply Sv|]. intros j wj Hj Ej.
  assert (Simj : simulated s 5 (FLoss l :: runTicks (k + j)) wj).
  { rewrite <- runTicks_app. change (FLoss l :: runTicks k ++ runTicks j) with ((FLoss l :: runTicks k) ++ runTicks j). apply (simulated_app s 5 _ _ v wj Sv (runTicks_ok _ _) Ej). }
  replace c with (j + (c - j))%nat in E by lia. apply fsteps_prefix in E as (wj' & Ej' & E). rewrite Ej in Ej'. injection Ej' as <-.
  destruct (simulated_ok _ _ _ _ Simj) as [Kj _]. pose proof (loss_clock s l _ wj Simj) as Cj. destruct (ticks_fresh s 5 _ wj w Kj E) as (new & Lg & Fn). rewrite Lg in Co.
  apply (C129_stableWithMildPacketLoss s 5 m l (k + j) wj Simj Hm ltac:(lia) First); [unfold kSlaveNoPacketTimeout in *; lia|].
  change (Z.of_nat 5) with 5. rewrite Cj in Fn. apply (contact_earlier s 5 m _ new 5 _ (5 + Z.of_nat (k + c)) Fn); [lia|exact Co].
Qed.
Print Assumptions C137_passes_while_everybody_hears_the_master.

(** ** When no die hits *)
Lemma mild_without_a_hit s m l k c mx tot wt af : junk_ok s -> (m < 5)%nat ->
  (forall i, (i < 5)%nat -> i <> m -> waits_until s m < waits_until s i) -> varied (s_draw s m) ->
  kSlaveNoPacketTimeout * 2 <= Z.of_nat k -> Z.of_nat (k + c) < 4294967296 - 80000 -> 0 < mx -> 0 < tot ->
  (forall d, (d < 5 * (k + c))%nat -> ~ hits s l d) ->
  mild_loss_test s (mkPlan (FLoss l :: runTicks k) 0 c 0 wt mx tot af) = Ok true.
Proof.
  intros J Hm First V Hk Hc P1 P2 Luck.
  destruct (simulated_exists s 5 (FLoss l :: runTicks (k + c)) J ltac:(lia)) as [w Sim]; [apply Forall_cons; [exact I|apply runTicks_ok]|].
  destruct (split_run s l k c w Sim) as (v & Sv & E).
  apply (one_each_passes s _ v w); auto; cbn [p_start p_count]; [apply Sv|]. intros j wj Hj Ej.
  assert (Simj : simulated s 5 (FLoss l :: runTicks (k + j)) wj).
  { rewrite <- runTicks_app. change (FLoss l :: runTicks k ++ runTicks j) with ((FLoss l :: runTicks k) ++ runTicks j). apply (simulated_app s 5 _ _ v wj Sv (runTicks_ok _ _) Ej). }
  apply (C129_mild_loss_without_a_hit s 5 m l (k + j) wj Simj Hm ltac:(lia) First V); [unfold kSlaveNoPacketTimeout in *; lia|].
  intros d Hd. apply Luck. lia.
Qed.

(** The 300000 dice of the test do not hit. *)
Theorem C137_stableWithMildPacketLoss_passes_without_a_hit : forall s m,
  junk_ok s -> (m < 5)%nat -> (forall i, (i < 5)%nat -> i <> m -> waits_until s m < waits_until s i) -> varied (s_draw s m) ->
  (forall d, (Z.of_nat d < 300000) -> ~ hits s 100 d) ->
  stableWithMildPacketLoss s = Ok true.
Proof.
  intros s m J Hm First V Luck. unfold stableWithMildPacketLoss, mild_plan.
  assert (Zk : Z.of_nat (Z.to_nat (kSlaveNoPacketTimeout * 2)) = 10000) by (apply Z2Nat.id; unfold kSlaveNoPacketTimeout; lia). assert (Zc : Z.of_nat (Z.to_nat (kSlaveNoPacketTimeout * 10)) = 50000) by (apply Z2Nat.id; unfold kSlaveNoPacketTimeout; lia).
  revert Zk Zc. generalize (Z.to_nat (kSlaveNoPacketTimeout * 2)) (Z.to_nat (kSlaveNoPacketTimeout * 10)). intros k c Zk Zc.
  apply (mild_without_a_hit s m 100 k c); auto; try (unfold kSlaveNoPacketTimeout; lia). intros d Hd. apply Luck. lia.
Qed.
Print Assumptions C137_stableWithMildPacketLoss_passes_without_a_hit.

(** ** When every die hits *)
Lemma masters_values s n k : forall w ms, masters_along s k w = Ok ms ->
  (forall j wj, (1 <= j <= k)%nat -> fsteps s 5 (runTicks j) w = Ok wj -> getNumMasters 5 wj = n) -> ms = repeat n k.
Proof.
  induction k as [|k IH]; intros w ms M H; cbn [masters_along] in M; [injection M as <-; reflexivity|].
  destruct (FakeTick s 5 (advanceMillis 1 w)) as [w1| |] eqn:E1; try discriminate. cbn [obind] in M.
  destruct (masters_along s k w1) as [l| |] eqn:M1; try discriminate. cbn [obind] in M. injection M as <-. cbn [repeat]. f_equal.
  - apply (H 1%nat w1 ltac:(lia)). rewrite one_round. exact E1.
  - apply (IH w1 l M1). intros j wj Hj Ej. apply (H (S j) wj ltac:(lia)). cbn [runTicks fsteps fstep obind]. rewrite E1. exact Ej.
Qed.
Lemma bad_rounds_repeat n k : n <> 1%nat -> bad_rounds (repeat n k) = k.
Proof.
  intros Ne. induction k as [|k IH]; [reflexivity|]. replace (repeat n (S k)) with (repeat n k ++ [n]) by (rewrite <- repeat_cons; reflexivity).
  rewrite bad_rounds_snoc, IH. destruct (Nat.eqb_spec n 1); [contradiction|]. lia.
Qed.

Lemma all_lost s l k w : simulated s 5 (FLoss l :: runTicks k) w -> (forall d, hits s l d) -> 7000 <= Z.of_nat k < 4294967296 - 80000 -> getNumMasters 5 w = 5%nat.
Proof.
  intros Sim Hit Hk. apply all_masters. intros i Hi. rewrite (C129_when_everything_is_lost s 5 l k w Sim ltac:(lia) ltac:(lia) Hit i Hi).
  destruct (Z.leb_spec (Z.of_nat 5 + Z.of_nat k) (waits_until s i)) as [L|L]; [|reflexivity]. unfold waits_until in L. lia.
Qed.

(** Every node is master in every round that is counted, and the tests fail; the
    second one at its first check, whatever it replaces later. *)
Theorem C137_the_tests_fail_when_everything_is_lost : forall s dice,
  junk_ok s -> (forall d, hits s 100 d) -> in_range dice ->
  stableWithMildPacketLoss s = Ok false /\ stableWithMildPacketLossAndNodesDropping s dice = Ok false.
Proof.
  intros s dice J Hit R.
  assert (Rw : forall k, Forall (fop_ok 5) (FLoss 100 :: runTicks k)) by (intros k; apply Forall_cons; [exact I|apply runTicks_ok]).
  assert (G : forall k c w ms, 7000 <= Z.of_nat k -> Z.of_nat (k + c) < 4294967296 - 80000 -> frun s 5 (FLoss 100 :: runTicks k) = Ok w ->
    masters_along s c w = Ok ms -> ms = repeat 5%nat c).
  { intros k c w ms Hk Hc E M. assert (Sim : simulated s 5 (FLoss 100 :: runTicks k) w) by (split; [exact J|]; split; [lia|]; split; [apply Rw|exact E]).
    apply (masters_values s 5%nat c w ms M). intros j wj Hj Ej. apply (all_lost s 100 (k + j) wj); [|exact Hit|lia].
    rewrite <- runTicks_app. change (FLoss 100 :: runTicks k ++ runTicks j) with ((FLoss 100 :: runTicks k) ++ runTicks j). apply (simulated_app s 5 _ _ w wj Sim (runTicks_ok _ _) Ej). }
  split.
  - unfold stableWithMildPacketLoss, mild_plan.
    assert (Zk : Z.of_nat (Z.to_nat (kSlaveNoPacketTimeout * 2)) = 10000) by (apply Z2Nat.id; unfold kSlaveNoPacketTimeout; lia). assert (Zc : Z.of_nat (Z.to_nat (kSlaveNoPacketTimeout * 10)) = 50000) by (apply Z2Nat.id; unfold kSlaveNoPacketTimeout; lia).
    revert Zk Zc. generalize (Z.to_nat (kSlaveNoPacketTimeout * 2)) (Z.to_nat (kSlaveNoPacketTimeout * 10)). intros k c Zk Zc.
    set (pl := mkPlan _ _ _ _ _ _ _ _). destruct (proj1 (C137_no_such_test_crashes s pl [] J (Rw k) (Forall_nil _) (Forall_nil _))) as [[|] E]; [exfalso|exact E].
    apply C137_what_passing_means in E as (w & ms & w1 & E & M & _ & _ & B); [|reflexivity]. cbn [pl p_start p_count p_total] in *.
    rewrite (G k c w ms ltac:(lia) ltac:(lia) E M), bad_rounds_repeat in B by lia. lia.
  - unfold stableWithMildPacketLossAndNodesDropping, with_loss, dropping_plan. cbn [p_start p_check p_count p_stable p_wait p_max p_total p_after].
    assert (Zk : Z.of_nat (Z.to_nat (kSlaveNoPacketTimeout + kSlaveNoPacketRandom + 10)) = 7010) by (apply Z2Nat.id; unfold kSlaveNoPacketTimeout, kSlaveNoPacketRandom; lia).
    assert (Zc : Z.of_nat (Z.to_nat (kSlaveNoPacketTimeout * 2 + 2)) = 10002) by (apply Z2Nat.id; unfold kSlaveNoPacketTimeout; lia).
    revert Zk Zc. generalize (Z.to_nat (kSlaveNoPacketTimeout * 2)) (Z.to_nat (kSlaveNoPacketTimeout * 2 + 2)) (Z.to_nat (kSlaveNoPacketTimeout + kSlaveNoPacketRandom + 10)). intros q c k Zk Zc.
    set (pl := mkPlan _ _ _ _ _ _ _ _). destruct (proj2 (C137_no_such_test_crashes s pl dice J (Rw k) (runTicks_ok _ _) R)) as [[|] E]; [exfalso|exact E].
    apply C136_what_passing_means in E as (w & ms & w1 & E & M & Fo & _). cbn [pl p_start p_check] in *.
    rewrite (G k c w ms ltac:(lia) ltac:(lia) E M) in Fo. destruct c as [|c]; [lia|]. inversion Fo. discriminate.
Qed.
Print Assumptions C137_the_tests_fail_when_everything_is_lost.

(** So whether they pass is up to the dice. *)
Definition kind : source := mkSource (s_draw lively) (fun _ => 1%N) (fun _ => mkOffsets 0 0 0) (fun _ => (0, 0, repeat 0 58, repeat 0 58)).
Lemma kind_junk : junk_ok kind.
Proof. intros k. cbn -[wf_packet]. split; apply wf_packetb_ok; vm_compute; reflexivity. Qed.
Lemma kind_misses d : ~ hits kind 100 d.
Proof. intros [_ H]. cbn in H. discriminate. Qed.

Theorem C137_the_dice_decide : exists good bad, s_draw good = s_draw bad /\
  stableWithMildPacketLoss good = Ok true /\ stableWithMildPacketLoss bad = Ok false.
Proof.
  exists kind, unlucky. split; [reflexivity|]. split.
  - apply (C137_stableWithMildPacketLoss_passes_without_a_hit kind 3 kind_junk ltac:(lia)).
    + intros i Hi Ne. apply (lively_first i Hi Ne).
    + exact lively_varied.
    + intros d _. apply kind_misses.
  - exact (proj1 (C137_the_tests_fail_when_everything_is_lost unlucky [] unlucky_junk (fun d => unlucky_hits 100 d ltac:(lia)) (Forall_nil _))).
Qed.
Print Assumptions C137_the_dice_decide.

(** ** Without a hit, nodes drop out as without loss *)
Definition together (s : source) (l : Z) (w v : fakenet) : Prop :=
  ok 5 w /\ traced s 5 w /\ ok 5 v /\ traced s 5 v /\ unharmed 5 w v /\ f_loss w = l.

Lemma fsteps_loss s N os : junk_ok s -> Forall (fop_ok N) os -> forallb (fun o => negb (is_loss o)) os = true -> forall w w', ok N w -> traced s N w ->
  fsteps s N os w = Ok w' -> f_loss w' = f_loss w.
Proof.
  intros J F. induction F as [|o os O F IH]; intros Nl w w' K T E; [cbn in E; injection E as <-; reflexivity|]. cbn [forallb] in Nl. apply andb_true_iff in Nl as [N1 Nl].
  cbn [fsteps] in E. destruct (fstep_ok s N o w J K T O) as (w1 & E1 & K1 & T1). rewrite E1 in E. cbn [obind] in E. rewrite (IH Nl w1 w' K1 T1 E).
  destruct o as [d| |i|n|p]; cbn [fstep fop_ok is_loss negb] in *; try discriminate.
  - injection E1 as <-. reflexivity.
  - destruct (FakeTick_ok s N w K) as (evs & w2 & E2 & _ & _ & _ & _ & _ & Ls & _). rewrite E1 in E2. injection E2 as <-. exact Ls.
  - destruct (reinit_ok s N w i J K T O) as (w2 & E2 & _ & _ & _ & _ & _ & _ & Ls & _). rewrite E1 in E2. injection E2 as <-. exact Ls.
  - destruct (TransmitPacket_ok s N p w K T O) as (w2 & E2 & _ & _ & A). rewrite E1 in E2. injection E2 as <-. apply A.
Qed.

Section Kind.
Context (s : source) (l : Z) (J : junk_ok s) (Luck : forall d, ~ hits s l d).

Lemma together_steps os w v : Forall (fop_ok 5) os -> forallb (fun o => negb (is_loss o)) os = true -> together s l w v ->
  exists w' v', fsteps s 5 os w = Ok w' /\ fsteps s 5 os v = Ok v' /\ together s l w' v'.
Proof.
  intros F Nl (K & T & Kv & Tv & U & L). destruct (fsteps_ok s 5 os J F w K T) as (w' & E & K' & T'). destruct (fsteps_ok s 5 os J F v Kv Tv) as (v' & Ev & Kv' & Tv').
  exists w', v'. split; [exact E|]. split; [exact Ev|]. split; [exact K'|]. split; [exact T'|]. split; [exact Kv'|]. split; [exact Tv'|].
  split; [|rewrite (fsteps_loss s 5 os J F Nl w w' K T E); exact L].
  destruct (fsteps_unharmed s 5 os J F w v w' K T Kv Tv U) as (v2 & E2 & U2); [|exact E|].
  - intros d _ l' Hl. assert (l' = l) as ->.
    { destruct Hl as [->|I]; [exact L|]. rewrite forallb_forall in Nl. specialize (Nl _ I). discriminate. }
    destruct (Z.eq_dec l 0) as [Z0|Nz]; [left; exact Z0|right]. intros Q. apply (Luck d). split; assumption.
  - replace (filter (fun o => negb (is_loss o)) os) with os in E2; [rewrite Ev in E2; injection E2 as <-; exact U2|].
    clear - Nl. induction os as [|o os IH]; [reflexivity|]. cbn [forallb filter] in *. apply andb_true_iff in Nl as [-> Nl]. rewrite <- IH by exact Nl. reflexivity.
Qed.
Lemma together_count w v : together s l w v -> getNumMasters 5 v = getNumMasters 5 w.
Proof. intros (_ & _ & _ & _ & [U _] & _). unfold getNumMasters. f_equal. apply filter_ext_in. intros i I. apply in_seq in I. destruct (U i ltac:(lia)) as [-> _]. reflexivity. Qed.

Lemma ticks_plain k : forallb (fun o => negb (is_loss o)) (runTicks k) = true.
Proof. induction k as [|k IH]; [reflexivity|exact IH]. Qed.

Lemma together_round w v : together s l w v -> exists w' v', FakeTick s 5 (advanceMillis 1 w) = Ok w' /\ FakeTick s 5 (advanceMillis 1 v) = Ok v' /\ together s l w' v'.
Proof.
  intros T. destruct (together_steps (runTicks 1) w v (runTicks_ok _ _) eq_refl T) as (w' & v' & E & Ev & T'). rewrite one_round in E, Ev. eauto.
Qed.
Lemma together_counted k : forall w v c, together s l w v -> exists w' v' c', counted s k w c = Ok (w', c') /\ counted s k v c = Ok (v', c') /\ together s l w' v'.
Proof.
  induction k as [|k IH]; intros w v c T; cbn [counted]; [exists w, v, c; auto|].
  destruct (together_round w v T) as (w1 & v1 & -> & -> & T1). cbn [obind]. rewrite (together_count w1 v1 T1). apply IH. exact T1.
Qed.
Lemma together_ones k : forall w v, together s l w v -> exists w' v' b, ones s k w = Ok (w', b) /\ ones s k v = Ok (v', b) /\ together s l w' v'.
Proof.
  induction k as [|k IH]; intros w v T; cbn [ones]; [exists w, v, true; auto|].
  destruct (together_round w v T) as (w1 & v1 & -> & -> & T1). cbn [obind]. rewrite (together_count w1 v1 T1).
  destruct (IH w1 v1 T1) as (w' & v' & b & -> & -> & T'). cbn [obind fst snd]. eauto 6.
Qed.
Lemma together_iterations pl dice : Forall (fop_ok 5) (p_wait pl) -> forallb (fun o => negb (is_loss o)) (p_wait pl) = true -> in_range dice ->
  forall w v, together s l w v -> iterations s pl dice w = iterations s pl dice v.
Proof.
  intros Fw Nw F. induction F as [|[a b] dice [Ha Hb] F IH]; intros w v T; [reflexivity|]. cbn [iterations]. cbn [fst snd] in Ha, Hb. unfold window.
  destruct (together_counted (p_count pl) w v (mkCounters 0 0 0 false) T) as (w1 & v1 & c & -> & -> & T1). cbn [obind fst snd].
  destruct (together_ones (p_stable pl) w1 v1 T1) as (w2 & v2 & b2 & -> & -> & T2). cbn [obind fst snd].
  assert (Fr : Forall (fop_ok 5) (map FReinit [a; b] ++ p_wait pl)) by (cbn [map app]; apply Forall_cons; [exact Ha|]; apply Forall_cons; [exact Hb|exact Fw]).
  destruct (together_steps (map FReinit [a; b] ++ p_wait pl) w2 v2 Fr Nw T2) as (w3 & v3 & E & Ev & T3).
  assert (Sw : forall x y, fsteps s 5 (map FReinit [a; b] ++ p_wait pl) x = Ok y -> swap s pl (a, b) x = Ok (y, negb (p_after pl) || Nat.eqb (getNumMasters 5 y) 1)).
  { clear. intros x y E. unfold swap. cbn [map app fsteps fstep fst snd] in *. destruct (reinitNode s a x); try discriminate. cbn [obind] in *.
    destruct (reinitNode s b _); try discriminate. cbn [obind] in *. rewrite E. reflexivity. }
  rewrite (Sw _ _ E), (Sw _ _ Ev). cbn [obind fst snd]. rewrite (together_count w3 v3 T3), (IH w3 v3 T3). reflexivity.
Qed.
End Kind.

Theorem C137_without_a_hit_as_without_loss : forall s l pl dice,
  junk_ok s -> (forall d, ~ hits s l d) ->
  Forall (fop_ok 5) (p_start pl) -> forallb (fun o => negb (is_loss o)) (p_start pl) = true ->
  Forall (fop_ok 5) (p_wait pl) -> forallb (fun o => negb (is_loss o)) (p_wait pl) = true -> in_range dice ->
  drop_out_test s (with_loss l pl) dice = drop_out_test s pl dice.
Proof.
  intros s l pl dice J Luck Fs Ns Fw Nw R. unfold drop_out_test. cbn [with_loss p_start p_check]. unfold frun.
  destruct (FakeNetwork_ok s 5 J ltac:(lia)) as (w0 & E0 & K0 & T0 & _ & _ & _ & L0 & _). rewrite E0. cbn [obind fsteps fstep].
  assert (T : together s l (setPacketLoss l w0) w0).
  { split; [destruct K0 as [[? ? ? ?] ? ?]; constructor; [constructor|..]; auto|]. split; [destruct T0; constructor; auto|]. split; [exact K0|]. split; [exact T0|].
    split; [|reflexivity]. split; [intros i Hi; auto|]. auto 10. }
  destruct (together_steps s l J Luck (p_start pl) _ _ Fs Ns T) as (w1 & v1 & -> & -> & T1). cbn [obind].
  destruct (together_ones s l J Luck (p_check pl) w1 v1 T1) as (w2 & v2 & b & -> & -> & T2). cbn [obind fst snd].
  replace (iterations s (with_loss l pl) dice w2) with (iterations s pl dice w2) by (clear; revert w2; induction dice as [|ab dice IH]; intros w2; [reflexivity|]; cbn [iterations]; destruct (window s pl w2) as [r| |] eqn:W; change (window s (with_loss l pl) w2) with (window s pl w2); rewrite W; [|reflexivity..]; cbn [obind]; change (swap s (with_loss l pl) ab (fst r)) with (swap s pl ab (fst r)); destruct (swap s pl ab (fst r)) as [q| |]; [|reflexivity..]; cbn [obind]; rewrite IH; reflexivity).
  rewrite (together_iterations s l J Luck pl dice Fw Nw R w2 v2 T2). reflexivity.
Qed.
Print Assumptions C137_without_a_hit_as_without_loss.

Corollary C137_the_test_with_loss_and_nodes_dropping_passes : forall s dice ops w m,
  junk_ok s -> (forall d, ~ hits s 100 d) -> in_range dice -> goes_well s dropping_plan dice ops w m ->
  stableWithMildPacketLossAndNodesDropping s dice = Ok true.
Proof.
  intros s dice ops w m J Luck R G. unfold stableWithMildPacketLossAndNodesDropping.
  rewrite C137_without_a_hit_as_without_loss; auto; try apply runTicks_ok; try apply ticks_plain.
  exact (C136_the_test_of_nodes_dropping_out_passes s dropping_plan dice ops w m G).
Qed.
Print Assumptions C137_the_test_with_loss_and_nodes_dropping_passes.

(** ** The hypotheses are met *)
Lemma kind_goes a b c k : Z.of_nat a = 7010 -> Z.of_nat b = 10002 -> Z.of_nat c = 10002 ->
  exists w, goes_well kind (mkPlan (runTicks a) b c 0 (runTicks k) 500 1000 false) [] ([] ++ runTicks (a + (b + (c + 0)))) w 3 /\
    GetCurrentState (f_node w 3) = Master.
Proof.
  intros Za Zb Zc. destruct (simulated_exists kind 5 ([] ++ runTicks (a + (b + (c + 0)))) kind_junk ltac:(lia)) as [w Sim]; [apply runTicks_ok|].
  assert (First : forall i, (i < 5)%nat -> i <> 3%nat -> waits_until kind 3 < waits_until kind i) by (intros i Hi Ne; apply (lively_first i Hi Ne)).
  assert (Wm : waits_until kind 3 = 5004) by reflexivity.
  assert (Di : distinct_ids (all_ids (calls_of 3 (f_log w)))).
  { apply (C118_varied_draws_give_distinct_ids kind 5 3 [] _ w Sim ltac:(lia) ltac:(lia) First (Forall_nil _)); cbn [passed fold_right]; rewrite ?Wm; try lia. exact lively_varied. }
  exists w. split.
  - apply (well_start kind (mkPlan (runTicks a) b c 0 (runTicks k) 500 1000 false) [] a w 3); auto; cbn [p_max p_total p_check p_count p_stable passed fold_right]; try (rewrite Wm); try (unfold wrap); lia.
  - destruct (C118_exactly_one_master kind 5 3 [] _ w Sim ltac:(lia) ltac:(lia) First) as [_ M]; auto; cbn [passed fold_right]; rewrite ?Wm; try lia. apply M. cbn [passed fold_right]. rewrite Wm. lia.
Qed.
Example C137_dropping_inhabited : exists w,
  goes_well kind dropping_plan [] ([] ++ runTicks (Z.to_nat 7010 + (Z.to_nat 10002 + (Z.to_nat 10002 + 0)))) w 3 /\ GetCurrentState (f_node w 3) = Master /\
  (forall d, ~ hits kind 100 d) /\ stableWithMildPacketLossAndNodesDropping kind [] = Ok true.
Proof.
  destruct (kind_goes (Z.to_nat 7010) (Z.to_nat 10002) (Z.to_nat 10002) (Z.to_nat 10000)) as (w & G & M); [apply Z2Nat.id; lia..|].
  exists w. split; [exact G|]. split; [exact M|]. split; [exact kind_misses|].
  exact (C137_the_test_with_loss_and_nodes_dropping_passes kind [] _ w 3 kind_junk kind_misses (Forall_nil _) G).
Qed.

(** With dice that miss everybody hears the heartbeats, for 60000 rounds. *)
Lemma kind_contact k : Z.of_nat k = 60000 -> exists w, simulated kind 5 (FLoss 100 :: runTicks k) w /\ in_contact kind 5 3 (f_log w) 5 (5 + Z.of_nat k).
Proof.
  intros Zk. destruct (simulated_exists kind 5 (FLoss 100 :: runTicks k) kind_junk ltac:(lia)) as [w Sim]; [apply Forall_cons; [exact I|apply runTicks_ok]|].
  destruct (simulated_exists kind 5 ([] ++ runTicks k) kind_junk ltac:(lia)) as [v Sv]; [apply runTicks_ok|].
  assert (First : forall i, (i < 5)%nat -> i <> 3%nat -> waits_until kind 3 < waits_until kind i) by (intros i Hi Ne; apply (lively_first i Hi Ne)).
  assert (Wm : waits_until kind 3 = 5004) by reflexivity.
  exists w. split; [exact Sim|].
  assert (Free : loss_free (FLoss 100 :: runTicks k) = runTicks k) by (cbn; clear; induction k as [|k IH]; [reflexivity|]; cbn; rewrite IH; reflexivity).
  destruct (C129_when_no_die_hits kind 5 _ w v Sim) as (-> & _); [rewrite Free; exact Sv| |].
  - intros l d Il _. assert (l = 100) as ->; [|apply kind_misses]. destruct Il as [Il|Il]; [congruence|]. exfalso. clear - Il. induction k as [|k IH]; cbn in Il; [exact Il|]. destruct Il as [X|[X|X]]; try discriminate. auto.
  - pose proof (C129_without_loss_everybody_stays_in_contact kind 5 3 [] k v Sv ltac:(lia) ltac:(lia) First (Forall_nil _)) as C. cbn [passed fold_right] in C. rewrite Wm in C. cbv zeta in C.
    replace (Z.of_nat 5 + 0) with 5 in C by lia. apply C; [lia|lia|].
    apply (C118_varied_draws_give_distinct_ids kind 5 3 [] k v Sv ltac:(lia) ltac:(lia) First (Forall_nil _)); cbn [passed fold_right]; rewrite ?Wm; try lia. exact lively_varied.
Qed.
Example C137_contact_inhabited : exists w, simulated kind 5 (FLoss 100 :: runTicks (Z.to_nat 60000)) w /\ in_contact kind 5 3 (f_log w) 5 (5 + Z.of_nat (Z.to_nat 60000)).
Proof. apply kind_contact. apply Z2Nat.id. lia. Qed.
