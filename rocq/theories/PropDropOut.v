(** C136: what the integration test of nodes that drop out shows.
    Model: FakeNet.v. *)
From Coq Require Import ZArith NArith Lia List Bool.
From Coq Require Import ZifyBool.
From Verif Require Import CInt CIntFacts Packet SpecPacket PacketFacts NetMgr NetHist SpecNet NetFacts Rsm RsmStep RsmEval RsmRun RsmHist SpecRsm RsmFacts RsmTime RoleFacts.
From Verif Require Import Fastled Palette Device LedMgr Effects Show ShowFacts Bench FakeNet FakeNetFacts SimFacts PropFakeNet PropSim PropFailSim AgreeFacts AgreeRun PaceRun PropAgree Timetable PropTimes Lull Visits PropComeGo SpreadRun PropSpread.
Import ListNotations.
Open Scope Z_scope.
Ltac Zify.zify_post_hook ::= Z.div_mod_to_equations.

(** ** The test *)
(** The counters of RadioStateIntegrationTest.cpp lines 60-63:
    current_bad_ticks, max_bad_ticks, total_bad_ticks, bad_prev.  (ints; they stay
    below the number of rounds.) *)
Record counters := mkCounters { c_current : Z; c_max : Z; c_total : Z; c_prev : bool }.
(** RadioStateIntegrationTest.cpp lines 69-81. *)
Definition count_tick (masters : nat) (c : counters) : counters :=
  if negb (Nat.eqb masters 1) then
    let current := if c_prev c then c_current c + 1 else c_current c in
    let max := if c_prev c && (c_max c <? current) then current else c_max c in
    mkCounters current max (c_total c + 1) true
  else mkCounters (c_current c) (c_max c) (c_total c) false.
(** RadioStateIntegrationTest.cpp lines 65-82. *)
Fixpoint counted (s : source) (k : nat) (w : fakenet) (c : counters) : outcome (fakenet * counters) :=
  match k with
  | O => Ok (w, c)
  | S k => w <- FakeTick s 5 (advanceMillis 1 w) ;; counted s k w (count_tick (getNumMasters 5 w) c)
  end.
(** RadioStateIntegrationTest.cpp lines 52-56 and 85-89: rounds with exactly one
    master.  (ASSERT_EQ stops the test and EXPECT_EQ does not; either way it has
    failed.) *)
Fixpoint ones (s : source) (k : nat) (w : fakenet) : outcome (fakenet * bool) :=
  match k with
  | O => Ok (w, true)
  | S k => w <- FakeTick s 5 (advanceMillis 1 w) ;; r <- ones s k w ;; Ok (fst r, Nat.eqb (getNumMasters 5 w) 1 && snd r)
  end.
(** How long a test does what, the bounds of the counters, and whether it looks
    again after the wait; the numbers of the file are [real_plan]. *)
Record plan := mkPlan { p_start : list fop; p_check : nat; p_count : nat; p_stable : nat; p_wait : list fop; p_max : Z; p_total : Z; p_after : bool }.
(** RadioStateIntegrationTest.cpp lines 60-92: count, see that it is stable,
    compare the counters.  Lines 147-172 do the same without the stable rounds. *)
Definition window (s : source) (pl : plan) (w : fakenet) : outcome (fakenet * bool) :=
  r <- counted s (p_count pl) w (mkCounters 0 0 0 false) ;;
  q <- ones s (p_stable pl) (fst r) ;;
  Ok (fst q, snd q && (c_max (snd r) <? p_max pl) && (c_total (snd r) <? p_total pl)).
(** RadioStateIntegrationTest.cpp lines 93-97: replace two nodes and wait.  The
    two random numbers are given.  Lines 173-176 do the same without looking. *)
Definition swap (s : source) (pl : plan) (ab : nat * nat) (w : fakenet) : outcome (fakenet * bool) :=
  w <- reinitNode s (fst ab) w ;; w <- reinitNode s (snd ab) w ;;
  w <- fsteps s 5 (p_wait pl) w ;; Ok (w, negb (p_after pl) || Nat.eqb (getNumMasters 5 w) 1).
(** RadioStateIntegrationTest.cpp lines 58-98 and 146-177. *)
Fixpoint iterations (s : source) (pl : plan) (dice : list (nat * nat)) (w : fakenet) : outcome bool :=
  match dice with
  | [] => Ok true
  | ab :: dice => r <- window s pl w ;; q <- swap s pl ab (fst r) ;; b <- iterations s pl dice (fst q) ;; Ok (snd r && snd q && b)
  end.
(** RadioStateIntegrationTest.cpp lines 49-99, stableWhenNodesDropOut; [dice] are
    the pairs of node numbers drawn in lines 93-94.  Lines 134-178,
    stableWithMildPacketLossAndNodesDropping, have the same form. *)
Definition drop_out_test (s : source) (pl : plan) (dice : list (nat * nat)) : outcome bool :=
  w <- frun s 5 (p_start pl) ;; r <- ones s (p_check pl) w ;; b <- iterations s pl dice (fst r) ;; Ok (snd r && b).
(** RadioStateIntegrationTest.cpp lines 50-52, 65, 85, 91, 92, 96 and 97. *)
Definition real_plan : plan :=
  mkPlan (runTicks (Z.to_nat (kSlaveNoPacketTimeout + kSlaveNoPacketRandom + 10)))
    (Z.to_nat (kSlaveNoPacketTimeout * 2 + 2)) (Z.to_nat (kSlaveNoPacketTimeout * 2 + 2)) 100
    (runTicks (Z.to_nat (kSlaveNoPacketTimeout * 2))) 10 10 true.
Definition stableWhenNodesDropOut (s : source) (dice : list (nat * nat)) : outcome bool := drop_out_test s real_plan dice.

(** ** Proof support *)
Definition one_each (s : source) (k : nat) (w : fakenet) : Prop :=
  forall j wj, (1 <= j <= k)%nat -> fsteps s 5 (runTicks j) w = Ok wj -> getNumMasters 5 wj = 1%nat.

Lemma one_each_step s k w w1 : FakeTick s 5 (advanceMillis 1 w) = Ok w1 -> one_each s (S k) w -> getNumMasters 5 w1 = 1%nat /\ one_each s k w1.
Proof.
  intros E H. split; [apply (H 1%nat w1 ltac:(lia)); rewrite one_round; exact E|].
  intros j wj Hj Ej. apply (H (S j) wj ltac:(lia)). cbn [runTicks fsteps fstep obind]. rewrite E. exact Ej.
Qed.

Lemma counted_ones s k : forall w c w', fsteps s 5 (runTicks k) w = Ok w' -> one_each s k w ->
  exists b, counted s k w c = Ok (w', mkCounters (c_current c) (c_max c) (c_total c) b).
Proof.
  induction k as [|k IH]; intros w c w' E H.
  - cbn in E. injection E as <-. exists (c_prev c). destruct c. reflexivity.
  - cbn [runTicks fsteps fstep obind] in E. destruct (FakeTick s 5 (advanceMillis 1 w)) as [w1| |] eqn:E1; try discriminate. cbn [obind] in E.
    destruct (one_each_step s k w w1 E1 H) as [O1 H1]. cbn [counted]. rewrite E1. cbn [obind]. rewrite O1.
    destruct (IH w1 (count_tick 1 c) w' E H1) as [b ->]. exists b. reflexivity.
Qed.

Lemma ones_ones s k : forall w w', fsteps s 5 (runTicks k) w = Ok w' -> one_each s k w -> ones s k w = Ok (w', true).
Proof.
  induction k as [|k IH]; intros w w' E H.
  - cbn in E. injection E as <-. reflexivity.
  - cbn [runTicks fsteps fstep obind] in E. destruct (FakeTick s 5 (advanceMillis 1 w)) as [w1| |] eqn:E1; try discriminate. cbn [obind] in E.
    destruct (one_each_step s k w w1 E1 H) as [O1 H1]. cbn [ones]. rewrite E1. cbn [obind]. rewrite O1, (IH w1 w' E H1). reflexivity.
Qed.

Lemma one_each_split s a b w w1 : fsteps s 5 (runTicks a) w = Ok w1 -> one_each s (a + b) w -> one_each s a w /\ one_each s b w1.
Proof.
  intros E H. split.
  - intros j wj Hj. apply H. lia.
  - intros j wj Hj Ej. apply (H (a + j)%nat wj ltac:(lia)). rewrite <- runTicks_app, fsteps_app, E. exact Ej.
Qed.

Lemma window_ones s pl w w' : 0 < p_max pl -> 0 < p_total pl -> fsteps s 5 (runTicks (p_count pl + p_stable pl)) w = Ok w' -> one_each s (p_count pl + p_stable pl) w ->
  window s pl w = Ok (w', true).
Proof.
  intros P1 P2 E H. rewrite <- runTicks_app, fsteps_app in E. destruct (fsteps s 5 (runTicks (p_count pl)) w) as [w1| |] eqn:E1; try discriminate. cbn [obind] in E.
  destruct (one_each_split s _ _ w w1 E1 H) as [H1 H2]. unfold window. destruct (counted_ones s _ w (mkCounters 0 0 0 false) w1 E1 H1) as [b ->].
  cbn [obind fst snd c_max c_total]. rewrite (ones_ones s _ w1 w' E H2). cbn [obind fst snd].
  destruct (Z.ltb_spec 0 (p_max pl)); [|lia]. destruct (Z.ltb_spec 0 (p_total pl)); [|lia]. reflexivity.
Qed.

(** Fewer ids are as new. *)
Lemma new_to_all_earlier s N m w w1 k w2 : ok N w1 -> (exists new, f_log w1 = f_log w ++ new) -> fsteps s N (runTicks k) w1 = Ok w2 -> new_to_all N m w w2 -> new_to_all N m w w1.
Proof.
  intros K [new Lg1] E [A B]. destruct (ticks_log s N k w1 w2 K E) as (_ & _ & more & Lg).
  unfold new_to_all, ids_of_node in *. rewrite Lg, calls_of_app, all_ids_app, Lg1, calls_of_app, all_ids_app in A, B. rewrite Lg1, calls_of_app, all_ids_app.
  rewrite <- app_assoc, skipn_app, skipn_all, Nat.sub_diag in A, B. cbn [app skipn] in A, B.
  rewrite skipn_app, skipn_all, Nat.sub_diag. cbn [app skipn]. split; [exact (distinct_prefix _ _ A)|].
  intros i x Hi Ni I. apply (B i x Hi Ni). rewrite firstn_app. apply in_or_app. left. exact I.
Qed.

(** ** How the test goes *)
(** The network just before two nodes are replaced, after the pairs [dice]
    were: node [m] is master.  The replacements come when nothing is in the air,
    the node that takes over waits shortest and stops waiting before the wait of
    the test is over, and the ids of the master are distinct, as in C127. *)
Inductive goes_well (s : source) (pl : plan) : list (nat * nat) -> list fop -> fakenet -> nat -> Prop :=
| well_start os k w m :
    p_start pl = os ++ runTicks k -> 0 < p_max pl -> 0 < p_total pl ->
    simulated s 5 (os ++ runTicks (k + (p_check pl + (p_count pl + p_stable pl)))) w -> (m < 5)%nat ->
    (forall i, (i < 5)%nat -> i <> m -> waits_until s m < waits_until s i) ->
    Forall idle os -> 5 + passed os <= waits_until s m ->
    waits_until s m < 5 + passed os + Z.of_nat k ->
    5 + passed os + Z.of_nat (k + (p_check pl + (p_count pl + p_stable pl))) < wrap - 90000 ->
    distinct_ids (all_ids (calls_of m (f_log w))) ->
    goes_well s pl [] (os ++ runTicks (k + (p_check pl + (p_count pl + p_stable pl)))) w m
| well_others dice ops w m a b w1 kw w2 :
    goes_well s pl dice ops w m -> nothing_in_the_air 5 w ->
    (a < 5)%nat -> (b < 5)%nat -> a <> m -> b <> m ->
    fsteps s 5 (map FReinit [a; b]) w = Ok w1 ->
    p_wait pl = runTicks kw -> (1 <= kw)%nat ->
    fsteps s 5 (runTicks (kw + (p_count pl + p_stable pl))) w1 = Ok w2 ->
    f_clock w2 < wrap - 90000 -> new_to_all 5 m w1 w2 ->
    goes_well s pl (dice ++ [(a, b)]) (ops ++ map FReinit [a; b] ++ runTicks (kw + (p_count pl + p_stable pl))) w2 m
| well_master dice ops w m a b w1 moment m2 os2 kw w2 :
    goes_well s pl dice ops w m -> nothing_in_the_air 5 w ->
    (a < 5)%nat -> (b < 5)%nat -> a = m \/ b = m ->
    fsteps s 5 (map FReinit [a; b] ++ [FAdvance 1; FTick]) w = Ok w1 ->
    p_wait pl = [FAdvance 1; FTick] ++ os2 ++ runTicks kw ->
    (forall i, (i < 5)%nat -> patient_until s w1 i (moment i)) ->
    (m2 < 5)%nat -> (forall i, (i < 5)%nat -> i <> m2 -> moment m2 < moment i) ->
    Forall idle os2 -> f_clock w1 + passed os2 <= moment m2 < f_clock w1 + passed os2 + Z.of_nat kw ->
    fsteps s 5 (os2 ++ runTicks (kw + (p_count pl + p_stable pl))) w1 = Ok w2 ->
    f_clock w2 < wrap - 90000 -> new_to_all 5 m2 w1 w2 ->
    goes_well s pl (dice ++ [(a, b)]) ((ops ++ map FReinit [a; b] ++ [FAdvance 1; FTick]) ++ os2 ++ runTicks (kw + (p_count pl + p_stable pl))) w2 m2.

Lemma fsteps_prefix s N a b w w' : fsteps s N (runTicks (a + b)) w = Ok w' -> exists w1, fsteps s N (runTicks a) w = Ok w1 /\ fsteps s N (runTicks b) w1 = Ok w'.
Proof.
  intros E. rewrite <- runTicks_app, fsteps_app in E. destruct (fsteps s N (runTicks a) w) as [w1| |]; try discriminate. exists w1. split; [reflexivity|exact E].
Qed.

(** [p] holds in the worlds after [a], ..., [a + b] rounds. *)
Lemma each_round s w a b wa w' : (forall j wj, (j <= b)%nat -> fsteps s 5 (runTicks (a + j)) w = Ok wj -> getNumMasters 5 wj = 1%nat) ->
  fsteps s 5 (runTicks a) w = Ok wa -> fsteps s 5 (runTicks b) wa = Ok w' -> getNumMasters 5 wa = 1%nat /\ one_each s b wa.
Proof.
  intros H Ea Eb. split; [apply (H 0%nat wa ltac:(lia)); rewrite Nat.add_0_r; exact Ea|].
  intros j wj Hj Ej. apply (H j wj ltac:(lia)). rewrite <- runTicks_app, fsteps_app, Ea. exact Ej.
Qed.

Lemma goes_steady s pl dice ops w m : goes_well s pl dice ops w m -> steady s 5 ops w m.
Proof.
  induction 1 as [os k w m Ps P1 P2 Sim Hm First Idle B1 B2 B3 Di|dice ops w m a b w1 kw w2 G IH Q Ha Hb Na Nb E1 Pw Hk E2 Ck New|dice ops w m a b w1 moment m2 os2 kw w2 G IH Q Ha Hb Mab E1 Pw Mo Hm2 First Idle B1 E2 Ck New].
  - apply powered_up; auto; lia.
  - assert (F : Forall (fun r => (r < 5)%nat) [a; b]) by (apply Forall_cons; [exact Ha|]; apply Forall_cons; [exact Hb|apply Forall_nil]).
    exact (others_replaced s 5 ops w m [a; b] w1 _ w2 IH Q F ltac:(cbn; intuition congruence) E1 E2 Ck New).
  - assert (F : Forall (fun r => (r < 5)%nat) [a; b]) by (apply Forall_cons; [exact Ha|]; apply Forall_cons; [exact Hb|apply Forall_nil]).
    apply (master_replaced s 5 ops w m [a; b] w1 moment m2 os2 _ w2 IH Q F ltac:(cbn; intuition) E1 Mo Hm2 First Idle ltac:(lia) E2); [|exact New].
    { split; [|exact Ck]. destruct (steady_in_charge s 5 ops w m ltac:(lia) IH) as (Sim & _ & _).
      assert (Sim1 : simulated s 5 (ops ++ map FReinit [a; b] ++ [FAdvance 1; FTick]) w1).
      { apply (simulated_app s 5 ops _ w w1 Sim); [|exact E1]. cbn [map app]. apply Forall_cons; [exact Ha|]. apply Forall_cons; [exact Hb|]. apply Forall_cons; [cbn; lia|]. apply Forall_cons; [exact I|apply Forall_nil]. }
      destruct (simulated_ok _ _ _ _ Sim1) as [K1 T1]. rewrite fsteps_app in E2. destruct (fsteps s 5 os2 w1) as [v| |] eqn:Ev; try discriminate. cbn [obind] in E2.
      assert (X : ok 5 v /\ f_clock v = f_clock w1 + passed os2).
      { clear - Idle Ev K1. revert w1 K1 Ev. induction Idle as [|o os2 Ho F IH]; intros w1 K1 Ev; [cbn in Ev; injection Ev as <-; cbn; split; [exact K1|lia]|].
        cbn [fsteps] in Ev. destruct o as [d| | | |]; cbn in Ho; try contradiction; cbn [fstep obind] in Ev; cbn [passed fold_right]; fold (passed os2).
        - destruct (IH (advanceMillis d w1)) as [A B]; [destruct K1 as [[? ? ? ?] ? ?]; constructor; [constructor|..]; auto; cbn; lia|exact Ev|]. split; [exact A|]. rewrite B. cbn. lia.
        - destruct (FakeTick_ok s 5 w1 K1) as (evs & w2 & E2 & K2 & _ & _ & _ & _ & _ & _ & C2 & _). rewrite E2 in Ev. cbn [obind] in Ev.
          destruct (IH w2 K2 Ev) as [A B]. split; [exact A|]. rewrite B, C2. lia. }
      destruct X as [Kv Cv]. destruct (ticks_log s 5 _ v w2 Kv E2) as (_ & C2 & _). lia. }
Qed.

Lemma goes_bounds s pl dice ops w m : goes_well s pl dice ops w m -> 0 < p_max pl /\ 0 < p_total pl.
Proof. induction 1; auto. Qed.

Lemma reinit_pair s a b w w1 : fsteps s 5 (map FReinit [a; b]) w = Ok w1 -> exists w0, reinitNode s a w = Ok w0 /\ reinitNode s b w0 = Ok w1.
Proof.
  cbn [map fsteps fstep]. intros E. destruct (reinitNode s a w) as [w0| |]; try discriminate. cbn [obind] in E. exists w0. split; [reflexivity|].
  destruct (reinitNode s b w0); try discriminate. exact E.
Qed.

(** What is left to do after the window before the replacements [rest]. *)
Definition onwards (s : source) (pl : plan) (rest : list (nat * nat)) (w : fakenet) : outcome bool :=
  match rest with [] => Ok true | ab :: rest => q <- swap s pl ab w ;; r <- iterations s pl rest (fst q) ;; Ok (snd q && r) end.

Lemma iterations_onwards s pl rest w w' : window s pl w = Ok (w', true) -> iterations s pl rest w = onwards s pl rest w'.
Proof. intros E. destruct rest as [|ab rest]; [reflexivity|]. cbn [iterations onwards]. rewrite E. reflexivity. Qed.

Lemma swap_window s pl ab w wq w' rest : swap s pl ab w = Ok (wq, true) -> window s pl wq = Ok (w', true) -> onwards s pl (ab :: rest) w = onwards s pl rest w'.
Proof.
  intros E W. cbn [onwards]. rewrite E. cbn [obind fst snd]. rewrite (iterations_onwards s pl rest wq w' W).
  destruct (onwards s pl rest w'); reflexivity.
Qed.

Lemma idle_log s N os : Forall idle os -> forall w w', ok N w -> fsteps s N os w = Ok w' ->
  ok N w' /\ f_clock w' = f_clock w + passed os /\ exists new, f_log w' = f_log w ++ new.
Proof.
  intros F. induction F as [|o os Ho F IH]; intros w w' K E; [cbn in E; injection E as <-; split; [exact K|]; split; [cbn; lia|exists []; rewrite app_nil_r; reflexivity]|].
  cbn [fsteps] in E. destruct o as [d| | | |]; cbn in Ho; try contradiction; cbn [fstep obind] in E; cbn [passed fold_right]; fold (passed os).
  - destruct (IH (advanceMillis d w) w') as (A & B & C); [destruct K as [[? ? ? ?] ? ?]; constructor; [constructor|..]; auto; cbn; lia|exact E|].
    split; [exact A|]. split; [rewrite B; cbn; lia|exact C].
  - destruct (FakeTick_ok s N w K) as (evs & w2 & E2 & K2 & _ & Lg & _ & _ & _ & _ & C2 & _). rewrite E2 in E. cbn [obind] in E.
    destruct (IH w2 w' K2 E) as (A & B & new & C). split; [exact A|]. split; [rewrite B, C2; lia|]. eexists. rewrite C, Lg, <- app_assoc. reflexivity.
Qed.

(** The two ways to be in charge for [b] rounds after [v]. *)
Lemma start_each s m os k b v w : simulated s 5 (os ++ runTicks k) v -> fsteps s 5 (runTicks b) v = Ok w -> (m < 5)%nat ->
  (forall i, (i < 5)%nat -> i <> m -> waits_until s m < waits_until s i) ->
  Forall idle os -> 5 + passed os <= waits_until s m -> waits_until s m < 5 + passed os + Z.of_nat k ->
  5 + passed os + Z.of_nat (k + b) < wrap - 90000 ->
  distinct_ids (all_ids (calls_of m (f_log w))) -> getNumMasters 5 v = 1%nat /\ one_each s b v.
Proof.
  intros Sim E Hm First Idle B1 B2 B3 Di.
  assert (G : forall j wj, (j <= b)%nat -> fsteps s 5 (runTicks j) v = Ok wj -> getNumMasters 5 wj = 1%nat).
  { intros j wj Hj Ej. assert (Simj : simulated s 5 (os ++ runTicks (k + j)) wj) by (rewrite <- runTicks_app, app_assoc; apply (simulated_app s 5 _ _ v wj Sim (runTicks_ok _ _) Ej)).
    replace b with (j + (b - j))%nat in E by lia. apply fsteps_prefix in E as (wj' & Ej' & E). rewrite Ej in Ej'. injection Ej' as <-.
    destruct (simulated_ok _ _ _ _ Simj) as [Kj _]. destruct (ticks_log s 5 _ wj w Kj E) as (_ & _ & new & Lg). rewrite Lg in Di.
    refine (proj1 (proj2 (C127_exactly_one_master_however_nodes_come_and_go s 5 _ wj m ltac:(lia) _))).
    apply (powered_up s 5 os (k + j) wj m Simj Hm First Idle B1); [split; lia|exact (distinct_earlier _ _ _ Di)]. }
  split; [apply (G 0%nat v ltac:(lia)); reflexivity|]. intros j wj Hj. apply G. lia.
Qed.

Lemma others_each s ops w m a b w1 k c v w2 : steady s 5 ops w m -> nothing_in_the_air 5 w -> (a < 5)%nat -> (b < 5)%nat -> a <> m -> b <> m ->
  fsteps s 5 (map FReinit [a; b]) w = Ok w1 -> fsteps s 5 (runTicks k) w1 = Ok v -> fsteps s 5 (runTicks c) v = Ok w2 ->
  f_clock w2 < wrap - 90000 -> new_to_all 5 m w1 w2 -> getNumMasters 5 v = 1%nat /\ one_each s c v.
Proof.
  intros St Q Ha Hb Na Nb E1 E2 E3 Ck New.
  assert (F : Forall (fun r => (r < 5)%nat) [a; b]) by (apply Forall_cons; [exact Ha|]; apply Forall_cons; [exact Hb|apply Forall_nil]).
  destruct (steady_in_charge s 5 ops w m ltac:(lia) St) as (Sim & _ & _).
  assert (Sim1 : simulated s 5 (ops ++ map FReinit [a; b]) w1) by (apply (simulated_app s 5 ops _ w w1 Sim); [apply reinit_fops; exact F|exact E1]).
  destruct (simulated_ok _ _ _ _ Sim1) as [K1 _].
  assert (G : forall j wj, (j <= c)%nat -> fsteps s 5 (runTicks j) v = Ok wj -> getNumMasters 5 wj = 1%nat).
  { intros j wj Hj Ej.
    assert (Ej1 : fsteps s 5 (runTicks (k + j)) w1 = Ok wj) by (rewrite <- runTicks_app, fsteps_app, E2; exact Ej).
    replace c with (j + (c - j))%nat in E3 by lia. apply fsteps_prefix in E3 as (wj' & Ej' & E3). rewrite Ej in Ej'. injection Ej' as <-.
    destruct (ticks_log s 5 _ w1 wj K1 Ej1) as (Kj & _ & Lg). destruct (ticks_log s 5 _ wj w2 Kj E3) as (_ & Cj & _).
    refine (proj1 (proj2 (C127_exactly_one_master_however_nodes_come_and_go s 5 _ wj m ltac:(lia) _))).
    apply (others_replaced s 5 ops w m [a; b] w1 (k + j) wj St Q F ltac:(cbn; intuition congruence) E1 Ej1 ltac:(lia)).
    exact (new_to_all_earlier s 5 m w1 wj _ w2 Kj Lg E3 New). }
  split; [apply (G 0%nat v ltac:(lia)); reflexivity|]. intros j wj Hj. apply G. lia.
Qed.

Lemma master_each s ops w m a b w1 moment m2 os2 k c v w2 : steady s 5 ops w m -> nothing_in_the_air 5 w -> (a < 5)%nat -> (b < 5)%nat -> a = m \/ b = m ->
  fsteps s 5 (map FReinit [a; b] ++ [FAdvance 1; FTick]) w = Ok w1 ->
  (forall i, (i < 5)%nat -> patient_until s w1 i (moment i)) ->
  (m2 < 5)%nat -> (forall i, (i < 5)%nat -> i <> m2 -> moment m2 < moment i) ->
  Forall idle os2 -> f_clock w1 + passed os2 <= moment m2 < f_clock w1 + passed os2 + Z.of_nat k ->
  fsteps s 5 (os2 ++ runTicks k) w1 = Ok v -> fsteps s 5 (runTicks c) v = Ok w2 ->
  f_clock w2 < wrap - 90000 -> new_to_all 5 m2 w1 w2 -> getNumMasters 5 v = 1%nat /\ one_each s c v.
Proof.
  intros St Q Ha Hb Mab E1 Mo Hm2 First Idle B1 E2 E3 Ck New.
  assert (F : Forall (fun r => (r < 5)%nat) [a; b]) by (apply Forall_cons; [exact Ha|]; apply Forall_cons; [exact Hb|apply Forall_nil]).
  destruct (steady_in_charge s 5 ops w m ltac:(lia) St) as (Sim & _ & _).
  assert (Sim1 : simulated s 5 (ops ++ map FReinit [a; b] ++ [FAdvance 1; FTick]) w1).
  { apply (simulated_app s 5 ops _ w w1 Sim); [|exact E1]. cbn [map app]. apply Forall_cons; [exact Ha|]. apply Forall_cons; [exact Hb|]. apply Forall_cons; [cbn; lia|]. apply Forall_cons; [exact I|apply Forall_nil]. }
  destruct (simulated_ok _ _ _ _ Sim1) as [K1 _].
  assert (G : forall j wj, (j <= c)%nat -> fsteps s 5 (runTicks j) v = Ok wj -> getNumMasters 5 wj = 1%nat).
  { intros j wj Hj Ej.
    assert (Ej1 : fsteps s 5 (os2 ++ runTicks (k + j)) w1 = Ok wj) by (rewrite <- runTicks_app, app_assoc, fsteps_app, E2; exact Ej).
    replace c with (j + (c - j))%nat in E3 by lia. apply fsteps_prefix in E3 as (wj' & Ej' & E3). rewrite Ej in Ej'. injection Ej' as <-.
    pose proof Ej1 as Ej2. rewrite fsteps_app in Ej2. destruct (fsteps s 5 os2 w1) as [u| |] eqn:Eu; try discriminate. cbn [obind] in Ej2.
    destruct (idle_log s 5 os2 Idle w1 u K1 Eu) as (Ku & Cu & n1 & L1). destruct (ticks_log s 5 _ u wj Ku Ej2) as (Kj & Cj & n2 & L2). destruct (ticks_log s 5 _ wj w2 Kj E3) as (_ & C2 & _).
    refine (proj1 (proj2 (C127_exactly_one_master_however_nodes_come_and_go s 5 _ wj m2 ltac:(lia) _))).
    apply (master_replaced s 5 ops w m [a; b] w1 moment m2 os2 (k + j) wj St Q F ltac:(cbn; intuition) E1 Mo Hm2 First Idle ltac:(lia) Ej1); [lia|].
    apply (new_to_all_earlier s 5 m2 w1 wj (c - j) w2 Kj); [exists (n1 ++ n2); rewrite L2, L1, app_assoc; reflexivity|exact E3|exact New]. }
  split; [apply (G 0%nat v ltac:(lia)); reflexivity|]. intros j wj Hj. apply G. lia.
Qed.

Lemma goes_onwards s pl dice ops w m : goes_well s pl dice ops w m -> forall rest, drop_out_test s pl (dice ++ rest) = onwards s pl rest w.
Proof.
  intros G. destruct (goes_bounds s pl dice ops w m G) as [P1' P2'].
  induction G as [os k w m Ps P1 P2 Sim Hm First Idle B1 B2 B3 Di|dice ops w m a b w1 kw w2 G IH Q Ha Hb Na Nb E1 Pw Hk E2 Ck New|dice ops w m a b w1 moment m2 os2 kw w2 G IH Q Ha Hb Mab E1 Pw Mo Hm2 First Idle B1 E2 Ck New]; intros rest.
  - cbn [app]. unfold drop_out_test. rewrite Ps.
    rewrite <- runTicks_app, app_assoc in Sim. destruct Sim as (J & B & F & E). apply Forall_app in F as [F1 F2]. unfold frun in *.
    destruct (FakeNetwork s 5) as [wi| |] eqn:E0; try discriminate. cbn [obind] in *. rewrite fsteps_app in E.
    destruct (fsteps s 5 (os ++ runTicks k) wi) as [v| |] eqn:Ev; try discriminate. cbn [obind] in *.
    assert (Simv : simulated s 5 (os ++ runTicks k) v) by (split; [exact J|]; split; [exact B|]; split; [exact F1|]; unfold frun; rewrite E0; exact Ev).
    destruct (start_each s m os k _ v w Simv E Hm First Idle B1 B2 B3 Di) as [_ O].
    apply fsteps_prefix in E as (v1 & E1 & E2). destruct (one_each_split s _ _ v v1 E1 O) as [O1 O2].
    rewrite (ones_ones s _ v v1 E1 O1). cbn [obind fst snd]. rewrite (iterations_onwards s pl rest v1 w (window_ones s pl v1 w P1' P2' E2 O2)).
    destruct (onwards s pl rest w); reflexivity.
  - rewrite <- app_assoc, IH. cbn [app]. apply fsteps_prefix in E2 as (v & E2 & E3). apply (swap_window s pl (a, b) w v w2 rest).
    + unfold swap. destruct (reinit_pair s a b w w1 E1) as (w0 & Ra & Rb). cbn [fst snd]. rewrite Ra. cbn [obind]. rewrite Rb. cbn [obind]. rewrite Pw, E2. cbn [obind].
      rewrite (proj1 (others_each s ops w m a b w1 kw _ v w2 (goes_steady _ _ _ _ _ _ G) Q Ha Hb Na Nb E1 E2 E3 Ck New)). cbn. rewrite orb_true_r. reflexivity.
    + apply (window_ones s pl v w2 P1' P2' E3). apply (others_each s ops w m a b w1 kw _ v w2 (goes_steady _ _ _ _ _ _ G) Q Ha Hb Na Nb E1 E2 E3 Ck New).
  - rewrite <- app_assoc, IH. cbn [app]. rewrite <- runTicks_app, app_assoc, fsteps_app in E2.
    destruct (fsteps s 5 (os2 ++ runTicks kw) w1) as [v| |] eqn:Ev; try discriminate. cbn [obind] in E2.
    destruct (master_each s ops w m a b w1 moment m2 os2 kw _ v w2 (goes_steady _ _ _ _ _ _ G) Q Ha Hb Mab E1 Mo Hm2 First Idle B1 Ev E2 Ck New) as [O1 O2].
    apply (swap_window s pl (a, b) w v w2 rest); [|exact (window_ones s pl v w2 P1' P2' E2 O2)].
    rewrite fsteps_app in E1. destruct (fsteps s 5 (map FReinit [a; b]) w) as [wr| |] eqn:Er; try discriminate. cbn [obind] in E1.
    unfold swap. destruct (reinit_pair s a b w wr Er) as (w0 & Ra & Rb). cbn [fst snd]. rewrite Ra. cbn [obind]. rewrite Rb. cbn [obind].
    rewrite Pw, fsteps_app, E1. cbn [obind]. rewrite Ev. cbn [obind]. rewrite O1. cbn. rewrite orb_true_r. reflexivity.
Qed.

(** ** The theorems *)
(** When it goes well the test passes, whatever nodes are replaced. *)
Theorem C136_the_test_of_nodes_dropping_out_passes : forall s pl dice ops w m,
  goes_well s pl dice ops w m -> drop_out_test s pl dice = Ok true.
Proof.
  intros s pl dice ops w m G. pose proof (goes_onwards s pl dice ops w m G []) as E. rewrite app_nil_r in E. exact E.
Qed.
Print Assumptions C136_the_test_of_nodes_dropping_out_passes.

(** The same for the numbers of the file. *)
Corollary C136_stableWhenNodesDropOut_passes : forall s dice ops w m,
  goes_well s real_plan dice ops w m -> stableWhenNodesDropOut s dice = Ok true.
Proof. intros s dice ops w m. exact (C136_the_test_of_nodes_dropping_out_passes s real_plan dice ops w m). Qed.
Print Assumptions C136_stableWhenNodesDropOut_passes.

(** What it does not see: when one of the replaced nodes was the master there is
    no master in any of the first 997 rounds after the replacements.  These rounds
    are part of the wait, and not counted. *)
Theorem C136_no_master_for_a_second_after_the_replacement : forall s N ops w m rs w1 k wk,
  (N <= 900)%nat -> steady s N ops w m -> nothing_in_the_air N w ->
  Forall (fun r => (r < N)%nat) rs -> In m rs ->
  fsteps s N (map FReinit rs) w = Ok w1 -> (1 <= k <= 997)%nat -> fsteps s N (runTicks k) w1 = Ok wk ->
  getNumMasters N wk = 0%nat.
Proof.
  intros s N ops w m rs w1 k wk Sm H Q Frs Min E1 Hk Ek. destruct (steady_in_charge s N ops w m Sm H) as (Sim & Hw & Ch).
  pose proof (in_charge_pauses N m w Ch Q) as P. destruct (simulated_ok _ _ _ _ Sim) as [K T]. pose proof Sim as (J & _).
  destruct (reinits s N m rs J w w1 T P Frs ltac:(lia) E1) as (Tv & Ckv & _ & Hv). specialize (Hv Min).
  destruct k as [|k]; [lia|]. change (S k) with (1 + k)%nat in Ek. apply fsteps_prefix in Ek as (w2 & E2 & Ek). rewrite one_round in E2.
  destruct (hush_round s N w1 w2 Hv ltac:(lia) E2) as (Sil & Ls & Ck1 & Nd).
  pose proof (q_ok _ _ Hv) as Kv. assert (K0 : ok N (advanceMillis 1 w1)) by (destruct Kv as [[? ? ? ?] ? ?]; constructor; [constructor|..]; auto; cbn; lia).
  assert (Tk : forall i, (i < N)%nat -> f_ticked w2 i = true) by (apply (all_ticked s N (advanceMillis 1 w1) w2 K0 E2)).
  assert (Sim2 : simulated s N (ops ++ map FReinit rs ++ [FAdvance 1; FTick]) w2).
  { apply (simulated_app s N ops _ w w2 Sim); [apply Forall_app; split; [apply reinit_fops; exact Frs|repeat constructor; cbn; lia]|]. rewrite fsteps_app, E1. cbn [obind fsteps fstep]. rewrite E2. reflexivity. }
  destruct (simulated_ok _ _ _ _ Sim2) as [K2 T2].
  assert (Sl : forall i, (i < N)%nat -> state (f_node w2 i) = Slave) by (intros i Hi; apply (proj2 Sil i Hi)).
  pose proof (calm_silence s N w2 K2 T2 Ls Tk (proj1 Sil) (fun i Hi => proj1 (proj2 Sil i Hi)) Sl) as C.
  destruct (calm_ticks s _ _ _ N k Sm w2 wk C) as [_ Same]; [|exact Ek|].
  { intros i Hi. rewrite (Nd i Hi), Ck1. pose proof (proj2 (q_slaves _ _ Hv i Hi)). lia. }
  unfold getNumMasters.
  assert (Z0 : forall l, (forall i, In i l -> (i < N)%nat) -> length (filter (fun i => match GetCurrentState (f_node wk i) with Master => true | Slave => false end) l) = 0%nat).
  { induction l as [|i l IH]; intros L; [reflexivity|]. cbn [filter]. rewrite (Same i (L i ltac:(left; reflexivity))). unfold GetCurrentState at 1. rewrite (Sl i (L i ltac:(left; reflexivity))). apply IH. intros j Hj. apply L. right. exact Hj. }
  apply Z0. intros i I. apply in_seq in I. lia.
Qed.
Print Assumptions C136_no_master_for_a_second_after_the_replacement.

(** ** What the counters count *)
(** A round is bad when there is not exactly one master.  Of the rounds of a
    window, numbered from 0, with [ms] masters: *)
Definition bad_round (ms : list nat) (j : nat) : Prop := exists n, nth_error ms j = Some n /\ n <> 1%nat.
Definition badb (ms : list nat) (j : nat) : bool := match nth_error ms j with Some n => negb (Nat.eqb n 1) | None => false end.
Definition bad_rounds (ms : list nat) : nat := length (filter (badb ms) (seq 0 (length ms))).
Definition bad_after_bad (ms : list nat) : nat := length (filter (fun j => badb ms j && badb ms (S j)) (seq 0 (length ms))).
(** There are [n] bad rounds in a row. *)
Definition bad_row (ms : list nat) (n : nat) : Prop := exists j, forall d, (d < n)%nat -> bad_round ms (j + d).

Definition tally (ms : list nat) : counters := fold_left (fun c n => count_tick n c) ms (mkCounters 0 0 0 false).
(** The numbers of masters after each of [k] rounds. *)
Fixpoint masters_along (s : source) (k : nat) (w : fakenet) : outcome (list nat) :=
  match k with O => Ok [] | S k => w <- FakeTick s 5 (advanceMillis 1 w) ;; l <- masters_along s k w ;; Ok (getNumMasters 5 w :: l) end.

Lemma counted_tally s k : forall w c w' c', counted s k w c = Ok (w', c') ->
  exists ms, masters_along s k w = Ok ms /\ length ms = k /\ c' = fold_left (fun c n => count_tick n c) ms c.
Proof.
  induction k as [|k IH]; intros w c w' c' E; cbn [counted masters_along] in *.
  - injection E as <- <-. exists []. auto.
  - destruct (FakeTick s 5 (advanceMillis 1 w)) as [w1| |]; try discriminate. cbn [obind] in *.
    destruct (IH _ _ _ _ E) as (ms & -> & L & C). exists (getNumMasters 5 w1 :: ms). cbn. auto.
Qed.

Lemma badb_snoc ms n j : (j < length ms)%nat -> badb (ms ++ [n]) j = badb ms j.
Proof. intros H. unfold badb. rewrite nth_error_app1 by exact H. reflexivity. Qed.
Lemma badb_last ms n : badb (ms ++ [n]) (length ms) = negb (Nat.eqb n 1).
Proof. unfold badb. rewrite nth_error_app2, Nat.sub_diag by lia. reflexivity. Qed.
Lemma badb_out ms j : (length ms <= j)%nat -> badb ms j = false.
Proof. intros H. unfold badb. apply nth_error_None in H. rewrite H. reflexivity. Qed.

Lemma bad_rounds_snoc ms n : bad_rounds (ms ++ [n]) = (bad_rounds ms + if Nat.eqb n 1 then 0 else 1)%nat.
Proof.
  unfold bad_rounds. rewrite app_length, Nat.add_1_r, seq_S, filter_app, app_length. cbn [filter Nat.add]. rewrite badb_last. f_equal.
  - f_equal. apply filter_ext_in. intros j I. apply in_seq in I. apply badb_snoc. lia.
  - destruct (Nat.eqb n 1); reflexivity.
Qed.

Definition ends_bad (ms : list nat) : bool := match length ms with O => false | S l => badb ms l end.
Lemma ends_bad_snoc ms n : ends_bad (ms ++ [n]) = negb (Nat.eqb n 1).
Proof. unfold ends_bad. rewrite app_length, Nat.add_1_r. apply badb_last. Qed.

Lemma bad_after_bad_snoc ms n : bad_after_bad (ms ++ [n]) = (bad_after_bad ms + if ends_bad ms && negb (Nat.eqb n 1) then 1 else 0)%nat.
Proof.
  unfold bad_after_bad. rewrite app_length, Nat.add_1_r, seq_S, filter_app, app_length. cbn [filter Nat.add].
  rewrite (badb_out (ms ++ [n]) (S (length ms))) by (rewrite app_length; cbn; lia). rewrite andb_false_r. cbn [length]. rewrite Nat.add_0_r.
  unfold ends_bad. destruct (length ms) as [|l] eqn:L; [reflexivity|].
  rewrite seq_S, !filter_app, !app_length. cbn [filter Nat.add].
  assert (Out : badb ms (S l) = false) by (apply badb_out; lia). assert (Last : badb (ms ++ [n]) (S l) = negb (Nat.eqb n 1)) by (rewrite <- L; apply badb_last).
  rewrite Out, Last, andb_false_r, (badb_snoc ms n l) by lia. cbn [length]. rewrite Nat.add_0_r.
  f_equal.
  - f_equal. apply filter_ext_in. intros j I. apply in_seq in I. rewrite !badb_snoc by lia. reflexivity.
  - destruct (badb ms l && negb (n =? 1)%nat); reflexivity.
Qed.

Lemma tally_is ms : let c := tally ms in
  c_total c = Z.of_nat (bad_rounds ms) /\ c_current c = Z.of_nat (bad_after_bad ms) /\ c_max c = Z.of_nat (bad_after_bad ms) /\ c_prev c = ends_bad ms.
Proof.
  induction ms as [|n ms IH] using rev_ind; [cbn; auto|]. unfold tally in *. cbv zeta in *. rewrite fold_left_app. cbn [fold_left].
  destruct IH as (A & B & C & D). set (c := fold_left _ ms _) in *. rewrite bad_rounds_snoc, bad_after_bad_snoc, ends_bad_snoc. unfold count_tick.
  rewrite D. destruct (Nat.eqb n 1); cbn [negb]; cbn [c_total c_current c_max c_prev].
  - rewrite andb_false_r. split; [lia|]. split; [lia|]. split; [lia|reflexivity].
  - rewrite andb_true_r. destruct (ends_bad ms); cbn [andb].
    + split; [lia|]. split; [lia|]. split; [|reflexivity]. destruct (Z.ltb_spec (c_max c) (c_current c + 1)); lia.
    + split; [lia|]. split; [lia|]. split; [lia|reflexivity].
Qed.

Lemma filter_le {A} (f g : A -> bool) l : (forall x, f x = true -> g x = true) -> (length (filter f l) <= length (filter g l))%nat.
Proof.
  intros H. induction l as [|x l IH]; [cbn; lia|]. cbn [filter]. pose proof (H x) as Hx. destruct (f x), (g x); cbn [length]; try lia.
Qed.

(** total_bad_ticks is the number of bad rounds; max_bad_ticks is the number of
    bad rounds that follow a bad round, of all runs together. *)
Theorem C136_what_the_counters_count : forall s k w w' c,
  counted s k w (mkCounters 0 0 0 false) = Ok (w', c) ->
  exists ms, masters_along s k w = Ok ms /\ length ms = k /\
    c_total c = Z.of_nat (bad_rounds ms) /\ c_max c = Z.of_nat (bad_after_bad ms) /\ c_max c <= c_total c.
Proof.
  intros s k w w' c E. destruct (counted_tally s k w _ w' c E) as (ms & M & L & ->). exists ms. split; [exact M|]. split; [exact L|].
  destruct (tally_is ms) as (A & _ & C & _). unfold tally in *. rewrite A, C. split; [reflexivity|]. split; [reflexivity|].
  apply inj_le. apply filter_le. intros j H. apply andb_true_iff in H as [H _]. exact H.
Qed.
Print Assumptions C136_what_the_counters_count.

(** So it is not the length of the longest run, which its name and the comment
    suggest: *)
Theorem C136_max_bad_ticks_is_the_longest_run_refuted : ~ (forall ms n,
  (forall l, bad_row ms l -> Z.of_nat l <= n) -> c_max (tally ms) <= n).
Proof.
  intros H. specialize (H [0; 0; 1; 0; 0; 1; 0; 0; 1; 0; 0]%nat 2). revert H. cbn [c_max tally fold_left count_tick Nat.eqb negb andb c_prev c_current c_total Z.add Z.ltb Z.compare Pos.compare Pos.compare_cont Pos.add].
  intros H. assert (4 <= 2); [|lia]. apply H. intros l [j B]. destruct (Nat.le_gt_cases l 2) as [L|L]; [lia|exfalso].
  destruct (B 0%nat ltac:(lia)) as (n0 & E0 & N0). destruct (B 1%nat ltac:(lia)) as (n1 & E1 & N1). destruct (B 2%nat ltac:(lia)) as (n2 & E2 & N2).
  do 11 (destruct j as [|j]; [cbn in E0, E1, E2; congruence|]). cbn in E0. destruct j; discriminate.
Qed.
Print Assumptions C136_max_bad_ticks_is_the_longest_run_refuted.

(** Passing still bounds every run: [n] bad rounds in a row need [n - 1] of it. *)
Theorem C136_a_long_run_is_noticed : forall ms n, bad_row ms n -> Z.of_nat n <= c_max (tally ms) + 1 /\ Z.of_nat n <= c_total (tally ms).
Proof.
  intros ms n [j B]. destruct (tally_is ms) as (A & _ & C & _). rewrite A, C.
  assert (Bb : forall d, (d < n)%nat -> badb ms (j + d) = true /\ (j + d < length ms)%nat).
  { intros d H. destruct (B d H) as (x & E & Ne). split; [unfold badb; rewrite E; destruct (Nat.eqb_spec x 1); [contradiction|reflexivity]|]. apply nth_error_Some. congruence. }
  assert (Sub : forall (f : nat -> bool) l, (forall d, (d < l)%nat -> f (j + d)%nat = true /\ (j + d < length ms)%nat) -> (l <= length (filter f (seq 0 (length ms))))%nat).
  { intros f l F. rewrite <- (seq_length l j) at 1. apply NoDup_incl_length; [apply seq_NoDup|]. intros x I. apply in_seq in I.
    destruct (F (x - j)%nat ltac:(lia)) as [F1 F2]. replace (j + (x - j))%nat with x in * by lia. apply filter_In. split; [apply in_seq; lia|exact F1]. }
  split.
  - destruct n as [|n]; [lia|]. unfold bad_after_bad.
    pose proof (Sub (fun j => badb ms j && badb ms (S j)) n) as H. cut (n <= length (filter (fun j => badb ms j && badb ms (S j)) (seq 0 (length ms))))%nat; [lia|]. apply H.
    intros d Hd. destruct (Bb d ltac:(lia)) as [B1 L1]. destruct (Bb (S d) ltac:(lia)) as [B2 _]. replace (j + S d)%nat with (S (j + d)) in B2 by lia. rewrite B1, B2. auto.
  - apply inj_le. apply Sub. exact Bb.
Qed.
Print Assumptions C136_a_long_run_is_noticed.
Example C136_a_long_run_inhabited : bad_row [1; 0; 2; 0; 1]%nat 3 /\ c_max (tally [1; 0; 2; 0; 1]%nat) = 2 /\ c_total (tally [1; 0; 2; 0; 1]%nat) = 3.
Proof.
  split; [|split; reflexivity]. exists 1%nat. intros d H. do 3 (destruct d as [|d]; [eexists; split; [reflexivity|discriminate]|]). lia.
Qed.

(** ** What passing means *)
(** The rounds of the windows and the states after the waits, without the
    counters: few bad rounds, then none, and one master after the wait. *)
Inductive no_complaint (s : source) (pl : plan) : list (nat * nat) -> fakenet -> Prop :=
| nothing_left w : no_complaint s pl [] w
| next_pair a b dice w ms w1 ms1 w2 w3 :
    masters_along s (p_count pl) w = Ok ms -> Z.of_nat (bad_after_bad ms) < p_max pl -> Z.of_nat (bad_rounds ms) < p_total pl -> fsteps s 5 (runTicks (p_count pl)) w = Ok w1 ->
    masters_along s (p_stable pl) w1 = Ok ms1 -> Forall (eq 1%nat) ms1 -> fsteps s 5 (runTicks (p_stable pl)) w1 = Ok w2 ->
    fsteps s 5 (map FReinit [a; b] ++ p_wait pl) w2 = Ok w3 -> (p_after pl = true -> getNumMasters 5 w3 = 1%nat) ->
    no_complaint s pl dice w3 -> no_complaint s pl ((a, b) :: dice) w.

Lemma counted_run s k : forall w c, match fsteps s 5 (runTicks k) w with
  | Ok w' => exists ms, masters_along s k w = Ok ms /\ counted s k w c = Ok (w', fold_left (fun c n => count_tick n c) ms c)
  | Undef => counted s k w c = Undef /\ masters_along s k w = Undef
  | Abort => counted s k w c = Abort /\ masters_along s k w = Abort
  end.
Proof.
  induction k as [|k IH]; intros w c; cbn [runTicks fsteps fstep obind counted masters_along]; [exists []; auto|].
  destruct (FakeTick s 5 (advanceMillis 1 w)) as [w1| |]; cbn [obind]; auto.
  specialize (IH w1 (count_tick (getNumMasters 5 w1) c)). destruct (fsteps s 5 (runTicks k) w1).
  - destruct IH as (ms & -> & ->). eexists. split; [reflexivity|]. reflexivity.
  - destruct IH as [-> ->]. auto.
  - destruct IH as [-> ->]. auto.
Qed.

Lemma ones_run s k : forall w w', ones s k w = Ok (w', true) <->
  fsteps s 5 (runTicks k) w = Ok w' /\ exists ms, masters_along s k w = Ok ms /\ Forall (eq 1%nat) ms.
Proof.
  induction k as [|k IH]; intros w w'; cbn [runTicks fsteps fstep obind ones masters_along].
  - split; [intros [= <-]; split; [reflexivity|]; exists []; auto|intros [[= <-] _]; reflexivity].
  - destruct (FakeTick s 5 (advanceMillis 1 w)) as [w1| |]; cbn [obind]; [|split; [discriminate|intros [? _]; discriminate]..].
    split.
    + intros E. destruct (ones s k w1) as [[v b]| |] eqn:O; try discriminate. cbn [obind fst snd] in E. injection E as -> E.
      apply andb_true_iff in E as [E ->]. apply Nat.eqb_eq in E. apply IH in O as (F & ms & M & Fo). split; [exact F|]. rewrite M. eexists. split; [reflexivity|]. constructor; auto.
    + intros (F & ms & M & Fo). destruct (masters_along s k w1) as [ms1| |] eqn:M1; try discriminate. cbn [obind] in M. injection M as <-. inversion Fo as [|? ? F1 F2]; subst.
      assert (O : ones s k w1 = Ok (w', true)) by (apply IH; split; [exact F|]; exists ms1; auto). rewrite O. cbn [obind fst snd]. rewrite <- F1. reflexivity.
Qed.

Lemma window_run s pl w w' : window s pl w = Ok (w', true) <-> exists ms w1 ms1,
  masters_along s (p_count pl) w = Ok ms /\ Z.of_nat (bad_after_bad ms) < p_max pl /\ Z.of_nat (bad_rounds ms) < p_total pl /\ fsteps s 5 (runTicks (p_count pl)) w = Ok w1 /\
  masters_along s (p_stable pl) w1 = Ok ms1 /\ Forall (eq 1%nat) ms1 /\ fsteps s 5 (runTicks (p_stable pl)) w1 = Ok w'.
Proof.
  pose proof (counted_run s (p_count pl) w (mkCounters 0 0 0 false)) as C. unfold window. split.
  - intros E. destruct (fsteps s 5 (runTicks (p_count pl)) w) as [w1| |] eqn:F; [|destruct C as [C _]; rewrite C in E; discriminate..].
    destruct C as (ms & M & C). rewrite C in E. cbn [obind fst snd] in E. destruct (ones s (p_stable pl) w1) as [[v b]| |] eqn:O; try discriminate. cbn [obind fst snd] in E.
    injection E as -> E. apply andb_true_iff in E as [E E2]. apply andb_true_iff in E as [-> E1]. apply ones_run in O as (F2 & ms1 & M1 & Fo).
    destruct (tally_is ms) as (A & _ & B & _). unfold tally in *. exists ms, w1, ms1. repeat (split; [try assumption; try reflexivity; try lia|]). exact F2.
  - intros (ms & w1 & ms1 & M & Lt1 & Lt & F & M1 & Fo & F2). rewrite F in C. destruct C as (ms' & M' & C). rewrite M in M'. injection M' as <-. rewrite C. cbn [obind fst snd].
    assert (O : ones s (p_stable pl) w1 = Ok (w', true)) by (apply ones_run; split; [exact F2|]; exists ms1; auto). rewrite O. cbn [obind fst snd andb].
    destruct (tally_is ms) as (A & _ & B & _). unfold tally in *. rewrite A, B.
    destruct (Z.ltb_spec (Z.of_nat (bad_after_bad ms)) (p_max pl)); [|lia]. destruct (Z.ltb_spec (Z.of_nat (bad_rounds ms)) (p_total pl)); [|lia]. reflexivity.
Qed.

Lemma swap_run s pl a b w w' : swap s pl (a, b) w = Ok (w', true) <-> fsteps s 5 (map FReinit [a; b] ++ p_wait pl) w = Ok w' /\ (p_after pl = true -> getNumMasters 5 w' = 1%nat).
Proof.
  unfold swap. cbn [fst snd map app fsteps fstep]. destruct (reinitNode s a w) as [w1| |]; cbn [obind]; [|split; [discriminate|intros [? _]; discriminate]..].
  destruct (reinitNode s b w1) as [w2| |]; cbn [obind]; [|split; [discriminate|intros [? _]; discriminate]..].
  destruct (fsteps s 5 (p_wait pl) w2) as [w3| |]; cbn [obind]; [|split; [discriminate|intros [? _]; discriminate]..].
  split.
  - intros [= -> E]. split; [reflexivity|]. intros A. rewrite A in E. apply Nat.eqb_eq. exact E.
  - intros [[= ->] A]. destruct (p_after pl); [rewrite (A eq_refl)|]; reflexivity.
Qed.

Lemma iterations_run s pl dice : forall w, iterations s pl dice w = Ok true <-> no_complaint s pl dice w.
Proof.
  induction dice as [|[a b] dice IH]; intros w; cbn [iterations]; [split; [constructor|reflexivity]|]. split.
  - intros E. destruct (window s pl w) as [[w2 b1]| |] eqn:W; try discriminate. cbn [obind fst snd] in E.
    destruct (swap s pl (a, b) w2) as [[w3 b2]| |] eqn:S1; try discriminate. cbn [obind fst snd] in E.
    destruct (iterations s pl dice w3) as [b3| |] eqn:I; try discriminate. cbn [obind] in E. injection E as E.
    apply andb_true_iff in E as [E ->]. apply andb_true_iff in E as [-> ->].
    apply window_run in W as (ms & w1 & ms1 & W1 & W2 & W2b & W3 & W4 & W5 & W6). apply swap_run in S1 as [S1 S2]. apply IH in I.
    exact (next_pair s pl a b dice w ms w1 ms1 w2 w3 W1 W2 W2b W3 W4 W5 W6 S1 S2 I).
  - intros H. inversion H as [|? ? ? ? ms w1 ms1 w2 w3 W1 W2 W2b W3 W4 W5 W6 S1 S2 I]; subst.
    assert (W : window s pl w = Ok (w2, true)) by (apply window_run; exists ms, w1, ms1; auto 8).
    assert (Sw : swap s pl (a, b) w2 = Ok (w3, true)) by (apply swap_run; auto). apply IH in I. rewrite W. cbn [obind fst snd]. rewrite Sw. cbn [obind fst snd]. rewrite I. reflexivity.
Qed.

(** A test passes exactly if every round of the first check has one master and
    nothing is to complain about after that. *)
Theorem C136_what_passing_means : forall s pl dice,
  drop_out_test s pl dice = Ok true <->
  exists w0 ms w1, frun s 5 (p_start pl) = Ok w0 /\ masters_along s (p_check pl) w0 = Ok ms /\ Forall (eq 1%nat) ms /\
    fsteps s 5 (runTicks (p_check pl)) w0 = Ok w1 /\ no_complaint s pl dice w1.
Proof.
  intros s pl dice. unfold drop_out_test. split.
  - intros E. destruct (frun s 5 (p_start pl)) as [w0| |]; try discriminate. cbn [obind] in E.
    destruct (ones s (p_check pl) w0) as [[w1 b]| |] eqn:O; try discriminate. cbn [obind fst snd] in E.
    destruct (iterations s pl dice w1) as [b2| |] eqn:I; try discriminate. cbn [obind] in E. injection E as E. apply andb_true_iff in E as [-> ->].
    apply ones_run in O as (F & ms & M & Fo). apply iterations_run in I. exists w0, ms, w1. auto 6.
  - intros (w0 & ms & w1 & E0 & M & Fo & F & I). rewrite E0. cbn [obind].
    assert (O : ones s (p_check pl) w0 = Ok (w1, true)) by (apply ones_run; split; [exact F|]; exists ms; auto). rewrite O. cbn [obind fst snd].
    apply iterations_run in I. rewrite I. reflexivity.
Qed.
Print Assumptions C136_what_passing_means.

(** Of equal bounds the one on max_bad_ticks tests nothing. *)
Theorem C136_max_bad_ticks_makes_no_difference : forall s pl m1 m2 dice,
  p_total pl <= m1 -> p_total pl <= m2 ->
  let with_max m := mkPlan (p_start pl) (p_check pl) (p_count pl) (p_stable pl) (p_wait pl) m (p_total pl) (p_after pl) in
  drop_out_test s (with_max m1) dice = Ok true -> drop_out_test s (with_max m2) dice = Ok true.
Proof.
  intros s pl m1 m2 dice B1 B2 with_max H. apply C136_what_passing_means in H as (w0 & ms & w1 & E0 & M & Fo & F & I). apply C136_what_passing_means.
  exists w0, ms, w1. repeat (split; [assumption|]). clear - B1 B2 I. induction I; [constructor|]. econstructor; eauto. cbn [with_max p_max p_total] in *.
  assert (bad_after_bad ms <= bad_rounds ms)%nat by (apply filter_le; intros j X; apply andb_true_iff in X as [X _]; exact X). lia.
Qed.
Print Assumptions C136_max_bad_ticks_makes_no_difference.

(** ** The hypotheses are met *)
(** Node 3 takes over and is counted; then it and node 4 are replaced, and node
    0 takes over while the test waits. *)
Definition brief_start : list fop := [FTick; FAdvance 4995; FTick].
Definition brief_plan : plan := mkPlan (brief_start ++ runTicks 37) 1 1 1 ([FAdvance 1; FTick] ++ [FAdvance 4957; FTick] ++ runTicks 40) 10 10 true.
Definition brief_swap : list fop := map FReinit [3; 4]%nat ++ [FAdvance 1; FTick].
Definition brief_rest : list fop := [FAdvance 4957; FTick] ++ runTicks 42.
Definition briefly (w0 : fakenet) : bool :=
  reigned w0 && two_parts (plain 3 1500) 5 brief_swap brief_rest
    (fun w1 w2 => timers_from 5 0 w1 && newb 5 0 w1 w2 && (f_clock w1 + 4957 <=? t_hb (f_node w1 0)) && (t_hb (f_node w1 0) <? f_clock w1 + 4957 + 40) && (f_clock w2 <? 11000)) w0.

Lemma briefly_goes w0 : simulated (plain 3 1500) 5 (brief_start ++ runTicks 40) w0 -> briefly w0 = true ->
  exists w2, goes_well (plain 3 1500) brief_plan [(3, 4)%nat] (((brief_start ++ runTicks 40) ++ brief_swap) ++ brief_rest) w2 0.
Proof.
  intros Sm L. unfold briefly in L. apply andb_true_iff in L as [L0 L]. unfold reigned in L0. apply andb_true_iff in L0 as [L0 L3]. apply andb_true_iff in L0 as [L1 L2].
  apply two_parts_ok in L as (w1 & w2 & E1 & E2 & L). do 4 (apply andb_true_iff in L as [L ?]).
  assert (Hw : waits_until (plain 3 1500) 3 = 5004) by reflexivity. assert (Hp : passed brief_start = 4995) by reflexivity.
  assert (G0 : goes_well (plain 3 1500) brief_plan [] (brief_start ++ runTicks 40) w0 3).
  { apply (well_start (plain 3 1500) brief_plan brief_start 37 w0 3); auto; try (rewrite Hw, Hp; lia); try (cbn; lia); try lia.
    - intros i Hi Ne. unfold waits_until. cbn [plain s_draw]. destruct (Nat.eqb_spec i 3); [contradiction|]. cbn. lia.
    - unfold brief_start. repeat constructor; cbn; lia.
    - rewrite Hp. cbn [brief_plan p_check p_count p_stable]. unfold wrap. lia.
    - apply distinctb_ok. exact L2. }
  pose proof (goes_steady _ _ _ _ _ _ G0) as St.
  assert (Q0 : nothing_in_the_air 5 w0) by (exact (quiet_ok _ _ L3)).
  assert (F34 : Forall (fun r => (r < 5)%nat) [3; 4]%nat) by (repeat constructor; lia).
  destruct (C127_a_new_master_is_due (plain 3 1500) 5 _ w0 3 [3; 4]%nat w1 ltac:(lia) St Q0 F34 ltac:(left; reflexivity) E1) as (_ & _ & moment & Mo).
  assert (Sim1 : simulated (plain 3 1500) 5 ((brief_start ++ runTicks 40) ++ brief_swap) w1).
  { apply (simulated_app _ _ _ _ w0 w1 Sm); [|exact E1]. unfold brief_swap. apply Forall_app. split; [apply reinit_fops; exact F34|]. repeat constructor; cbn; lia. }
  destruct (simulated_ok _ _ _ _ Sim1) as [K3 T3].
  assert (Tf : forall i, (i < 5)%nat -> state (f_node w1 i) = Slave /\ 0 < t_hb (f_node w1 i) /\ (i = 0%nat \/ t_hb (f_node w1 0) < t_hb (f_node w1 i))).
  { intros i Hi. unfold timers_from in L. apply (proj1 (forallb_forall _ _)) with (x := i) in L; [|apply in_seq; lia].
    apply andb_true_iff in L as [L Lb]. apply andb_true_iff in L as [La Lc]. split; [unfold GetCurrentState in La; destruct (state (f_node w1 i)); [reflexivity|discriminate]|].
    split; [lia|]. apply orb_true_iff in Lb as [Lb|Lb]; [left; apply Nat.eqb_eq; exact Lb|right; lia]. }
  exists w2. apply (well_master (plain 3 1500) brief_plan [] _ w0 3 3 4 w1 (fun i => t_hb (f_node w1 i)) 0 [FAdvance 4957; FTick] 40 w2 G0 Q0); auto; try lia.
  - intros i Hi. destruct (Tf i Hi) as (A & B & _). apply (waits_patient _ 5 w1 i (moment i) K3 Hi A B). apply Mo. exact Hi.
  - intros i Hi Ne. destruct (Tf i Hi) as (_ & _ & [?|?]); [contradiction|assumption].
  - repeat constructor; cbn; lia.
  - cbn [passed fold_right]. lia.
  - unfold wrap. lia.
  - apply newb_ok. assumption.
Qed.

(** The test passes, and for 997 rounds there was no master. *)
Example C136_inhabited : exists w,
  goes_well (plain 3 1500) brief_plan [(3, 4)%nat] (((brief_start ++ runTicks 40) ++ brief_swap) ++ brief_rest) w 0 /\
  drop_out_test (plain 3 1500) brief_plan [(3, 4)%nat] = Ok true.
Proof.
  destruct (simulated_exists (plain 3 1500) 5 (brief_start ++ runTicks 40)) as [w0 Sm].
  { apply plain_junk. } { lia. }
  { apply Forall_app. split; [unfold brief_start; repeat constructor; cbn; lia|apply runTicks_ok]. }
  destruct (briefly_goes w0 Sm) as [w G]; [apply (ends_true _ _ _ briefly _ Sm); vm_compute; reflexivity|].
  exists w. split; [exact G|]. exact (C136_the_test_of_nodes_dropping_out_passes _ _ _ _ _ _ G).
Qed.
