(** C127: nodes of the simulated network are replaced while it runs.
    Model: FakeNet.v. *)
From Coq Require Import ZArith NArith Lia List Bool.
From Coq Require Import ZifyBool.
From Verif Require Import CInt CIntFacts Packet SpecPacket PacketFacts NetMgr NetHist SpecNet NetFacts Rsm RsmStep RsmEval RsmRun RsmHist SpecRsm RsmFacts RsmTime RoleFacts.
From Verif Require Import Fastled Palette Device LedMgr Effects Show ShowFacts Bench FakeNet FakeNetFacts SimFacts PropFakeNet PropSim PropFailSim AgreeFacts AgreeRun PropAgree Timetable PropTimes Lull Visits.
Import ListNotations.
Open Scope Z_scope.
Ltac Zify.zify_post_hook ::= Z.div_mod_to_equations.

(** The runs of the test stableWhenNodesDropOut, as long as every replacement
    happens when nothing is on the air or waiting to be sent:
    - node [m] takes over after power-up, as in C118;
    - any nodes but the master are replaced, and the test goes on;
    - nodes, the master among them, are replaced, and the test goes on until
      after the node [m2] which waits shortest has stopped waiting.
    The ids of the master are distinct as in C118 and C120. *)
Inductive steady (s : source) (N : nat) : list fop -> fakenet -> nat -> Prop :=
| powered_up os k w m :
    simulated s N (os ++ runTicks k) w -> (m < N)%nat ->
    (forall i, (i < N)%nat -> i <> m -> waits_until s m < waits_until s i) ->
    Forall idle os -> Z.of_nat N + passed os <= waits_until s m ->
    waits_until s m < Z.of_nat N + passed os + Z.of_nat k < wrap - 90000 ->
    distinct_ids (all_ids (calls_of m (f_log w))) ->
    steady s N (os ++ runTicks k) w m
| others_replaced ops w m rs w1 k w2 :
    steady s N ops w m -> nothing_in_the_air N w ->
    Forall (fun r => (r < N)%nat) rs -> ~ In m rs ->
    fsteps s N (map FReinit rs) w = Ok w1 -> fsteps s N (runTicks k) w1 = Ok w2 ->
    f_clock w2 < wrap - 90000 -> new_to_all N m w1 w2 ->
    steady s N (ops ++ map FReinit rs ++ runTicks k) w2 m
| master_replaced ops w m rs w1 moment m2 os2 k w2 :
    steady s N ops w m -> nothing_in_the_air N w ->
    Forall (fun r => (r < N)%nat) rs -> In m rs ->
    fsteps s N (map FReinit rs ++ [FAdvance 1; FTick]) w = Ok w1 ->
    (forall i, (i < N)%nat -> patient_until s w1 i (moment i)) ->
    (m2 < N)%nat -> (forall i, (i < N)%nat -> i <> m2 -> moment m2 < moment i) ->
    Forall idle os2 -> f_clock w1 + passed os2 <= moment m2 ->
    fsteps s N (os2 ++ runTicks k) w1 = Ok w2 -> moment m2 < f_clock w2 < wrap - 90000 ->
    new_to_all N m2 w1 w2 ->
    steady s N ((ops ++ map FReinit rs ++ [FAdvance 1; FTick]) ++ os2 ++ runTicks k) w2 m2.

(** ** Proof support *)
Lemma patient_is_timer s w i t : nodeok (f_node w i) -> state (f_node w i) = Slave -> 0 < t_hb (f_node w i) -> patient_until s w i t -> t = t_hb (f_node w i).
Proof.
  intros K S1 Pos [Rt P]. pose proof (g_hb _ (proj1 K)) as Hh.
  assert (X : forall u, 0 <= u < wrap -> (t_hb (f_node w i) < u <-> t < u)).
  { intros u Hu. destruct (P u Hu) as (n' & out & St & Iff). rewrite <- Iff.
    assert (I : inc_sound None) by (intros p [=]).
    destruct (nodeok_runs (env_of s (f_name w i)) u (f_node w i) None eq_refl K I Hu) as (n1 & o1 & R1 & T1).
    unfold step in St. rewrite R1 in St. injection St as <- <-. unfold GetCurrentState.
    destruct (Z.lt_ge_cases (t_hb (f_node w i)) u) as [L|L].
    - assert (Du : timer_due u (t_hb (f_node w i)) = true) by (apply timer_due_iff; lia).
      split; [intros _|intros _; exact L]. inversion T1; subst; try congruence; try discriminate; try reflexivity. destruct H0; congruence.
    - destruct (not_due_slave _ u (f_node w i) None S1 ltac:(lia) ltac:(lia) eq_refl _ _ T1) as [_ ->]. rewrite S1. split; [lia|discriminate]. }
  unfold wrap in *. destruct (Z.eq_dec (t_hb (f_node w i)) 4294967295) as [M|M].
  - pose proof (X 4294967295 ltac:(lia)). lia.
  - pose proof (X t ltac:(lia)). pose proof (X (t + 1) ltac:(lia)). lia.
Qed.

Lemma all_ticked s N w w' : ok N w -> FakeTick s N w = Ok w' -> forall i, (i < N)%nat -> f_ticked w' i = true.
Proof.
  intros K E. destruct (FakeTick_ok s N w K) as (evs & v & Ev & _ & Tm & _). rewrite E in Ev. injection Ev as <-. intros i Hi. apply (Tm i Hi).
Qed.

Definition own_ids (w : fakenet) (i : nat) : list Z := all_ids (calls_of (f_name w i) (f_log w)).

Lemma new_unused N m w w' : new_to_all N m w w' -> forall own, all_ids (calls_of (f_name w m) (f_log w')) = own_ids w m ++ own -> unused N m (own_ids w) own.
Proof.
  intros [Sp Sp2] own Eo. unfold ids_of_node in Sp, Sp2. fold (own_ids w m) in Sp, Sp2. rewrite Eo in Sp, Sp2.
  rewrite skipn_app, skipn_all, Nat.sub_diag in Sp, Sp2. cbn [app skipn] in Sp, Sp2.
  split; [exact Sp|]. intros i x Hi Ne I J. apply last5_lastn in J as [->|J].
  - assert (I' : In 0 own) by (rewrite <- (firstn_skipn 24 own); apply in_or_app; left; exact I).
    apply in_split in I' as (a & b & Eab). destruct (Sp a 0 b Eab) as [Z _]. congruence.
  - exact (Sp2 i x Hi Ne I J).
Qed.

Lemma silence_led s N m w1 os2 k w : traced s N w1 -> ok N w1 -> silent N w1 -> f_loss w1 = 0 -> (N <= 900)%nat ->
  (forall i, (i < N)%nat -> f_ticked w1 i = true) ->
  (m < N)%nat -> 0 < t_hb (f_node w1 m) -> (forall i, (i < N)%nat -> i <> m -> t_hb (f_node w1 m) < t_hb (f_node w1 i)) ->
  Forall idle os2 -> f_clock w1 + passed os2 <= t_hb (f_node w1 m) -> fsteps s N (os2 ++ runTicks k) w1 = Ok w ->
  f_clock w < 4294967296 - 70000 -> new_to_all N m w1 w -> 
  f_clock w = f_clock w1 + passed os2 + Z.of_nat k /\ early_or_led (f_name w1) (own_ids w1) (fun i => t_hb (f_node w1 i)) N m w.
Proof.
  intros T K (Air0 & Qt) Ls Sm Tk Hm Pos First Idle B1 E Hc New.
  pose proof (calm_silence s N w1 K T Ls Tk Air0 (fun i Hi => proj1 (Qt i Hi)) (fun i Hi => proj2 (Qt i Hi))) as C.
  rewrite fsteps_app in E. destruct (fsteps s N os2 w1) as [w2| |] eqn:E2; try discriminate. cbn [obind] in E.
  destruct (idle_calm s _ _ _ N m os2 Sm Hm First Idle w1 w2 C B1 E2) as [C2 Ck2].
  destruct (ticks_log s N k w2 w (c_ok _ _ _ _ _ C2) E) as (_ & Ckw & _). split; [lia|].
  apply (run_ticks s (f_name w1) (own_ids w1) (fun i => t_hb (f_node w1 i)) N Sm m Hm ltac:(lia) First k w2 w);
    [left; split; [exact C2|lia]|lia|exact E|].
  apply new_unused. exact New.
Qed.

Lemma simulated_app s N os os2 w w' : simulated s N os w -> Forall (fop_ok N) os2 -> fsteps s N os2 w = Ok w' -> simulated s N (os ++ os2) w'.
Proof.
  intros (J & B & F & E) F2 E2. split; [exact J|]. split; [exact B|]. split; [apply Forall_app; split; assumption|].
  unfold frun in *. destruct (FakeNetwork s N) as [w0| |]; try discriminate. cbn [obind] in *. rewrite fsteps_app, E. exact E2.
Qed.

Lemma reinit_fops N rs : Forall (fun r => (r < N)%nat) rs -> Forall (fop_ok N) (map FReinit rs).
Proof. induction 1; constructor; auto. Qed.

Lemma idle_fops N os : Forall idle os -> Forall (fop_ok N) os.
Proof. intros F. induction F as [|o os H F IH]; constructor; auto. destruct o; try contradiction; cbn in *; auto. Qed.

Definition in_charge (N m : nat) (w : fakenet) : Prop := exists name Old, lull name Old N m w \/ led name Old N m w.

Lemma in_charge_pauses N m w : in_charge N m w -> nothing_in_the_air N w -> pauses N m w.
Proof. intros (name & Old & [[P _ _ _ _]|L]) Q; [exact P|]. exact (led_pauses name Old N m w L Q). Qed.

Lemma in_charge_master N m w : in_charge N m w ->
  (m < N)%nat /\ GetCurrentState (f_node w m) = Master /\ forall i, (i < N)%nat -> i <> m -> GetCurrentState (f_node w i) = Slave.
Proof.
  intros (name & Old & [[(T & s1 & h & g & a & kills & P) _ _ _ _]|(D & T & U & fly & j & s1 & h & g & a & kills & R)]).
  - split; [apply P|]. split; [apply (p_ms _ _ _ _ _ _ _ _ _ P)|]. intros i Hi Ni. apply (p_slaves _ _ _ _ _ _ _ _ _ P i Hi Ni).
  - split; [apply R|]. split; [apply (r_ms _ _ _ _ _ _ _ _ _ _ _ _ _ _ _ R)|]. intros i Hi Ni. apply (r_slaves _ _ _ _ _ _ _ _ _ _ _ _ _ _ _ R i Hi Ni).
Qed.

Lemma steady_in_charge s N ops w m : (N <= 900)%nat -> steady s N ops w m ->
  simulated s N ops w /\ f_clock w < 4294967296 - 90000 /\ in_charge N m w.
Proof.
  intros Sm H. induction H as [os k w m Sim Hm First Idle B1 B2 Di|ops w m rs w1 k w2 H IH Q Frs Nin E1 E2 Hc New|ops w m rs w1 moment m2 os2 k w2 H IH Q Frs Min E1 Mo Hm2 First Idle B1 E2 Hc New].
  - split; [exact Sim|]. pose proof Sim as (J & B & _ & E). unfold wrap in B2.
    assert (First' : forall i, (i < N)%nat -> i <> m -> wait s m < wait s i) by (intros i Hi Ne; rewrite <- !waits_wait; auto).
    rewrite waits_wait in *. unfold frun in E. destruct (FakeNetwork s N) as [w0| |] eqn:E0; try discriminate. cbn [obind] in E.
    destruct (calm_start s N w0 J B E0) as [C0 Ck0]. rewrite fsteps_app in E.
    destruct (fsteps s N os w0) as [w1| |] eqn:E1; try discriminate. cbn [obind] in E.
    destruct (idle_calm s _ _ _ N m os Sm Hm First' Idle w0 w1 C0 ltac:(lia) E1) as [C1 Ck1].
    destruct (ticks_log s N k w1 w (c_ok _ _ _ _ _ C1) E) as (_ & Ck & _). split; [lia|].
    assert (X : early_or_led (fun i => i) (fun _ => []) (wait s) N m w).
    { apply (run_ticks s (fun i => i) (fun _ => []) (wait s) N Sm m Hm ltac:(unfold wait; lia) First' k w1 w); [left; split; [exact C1|lia]|lia|exact E|].
      intros own Eo. apply unused_start. cbn [app] in Eo. rewrite <- Eo. exact Di. }
    destruct X as [[_ X]|[X _]]; [lia|]. eexists _, _. right. exact X.
  - destruct IH as (Sim & Hw & Ch). pose proof (in_charge_pauses N m w Ch Q) as P. destruct (simulated_ok _ _ _ _ Sim) as [K T].
    pose proof Sim as (J & _). unfold wrap in Hc.
    destruct (reinits s N m rs J w w1 T P Frs ltac:(lia) E1) as (T1 & Ck1 & P1 & _). specialize (P1 Nin).
    assert (Sim2 : simulated s N (ops ++ map FReinit rs ++ runTicks k) w2).
    { apply (simulated_app s N ops _ w w2 Sim); [apply Forall_app; split; [apply reinit_fops; exact Frs|apply runTicks_ok]|]. rewrite fsteps_app, E1. exact E2. }
    split; [exact Sim2|]. split; [lia|]. destruct P1 as (T0 & s1 & h & g & a & kills & P1).
    exists (f_name w1), (own_ids w1). 
    assert (Ck2 : f_clock w2 = f_clock w1 + Z.of_nat k) by (apply (ticks_log s N k w1 w2 (p_ok _ _ _ _ _ _ _ _ _ P1) E2)).
    apply (lull_ticks s (f_name w1) (own_ids w1) N m k Sm w1 w2); [left; apply (pause_lulls s N m w1 T0 s1 h g a kills P1 T1)|lia|exact E2|].
    apply new_unused. exact New.
  - destruct IH as (Sim & Hw & Ch). pose proof (in_charge_pauses N m w Ch Q) as P. destruct (simulated_ok _ _ _ _ Sim) as [K T].
    pose proof Sim as (J & _). unfold wrap in Hc.
    assert (Sim1 : simulated s N (ops ++ map FReinit rs ++ [FAdvance 1; FTick]) w1).
    { apply (simulated_app s N ops _ w w1 Sim); [|exact E1]. apply Forall_app. split; [apply reinit_fops; exact Frs|]. repeat constructor; cbn; lia. }
    destruct (simulated_ok _ _ _ _ Sim1) as [K1 T1].
    rewrite fsteps_app in E1. destruct (fsteps s N (map FReinit rs) w) as [v| |] eqn:Ev; try discriminate. cbn [obind fsteps fstep] in E1.
    destruct (FakeTick s N (advanceMillis 1 v)) as [w1'| |] eqn:Et; try discriminate. cbn [obind] in E1. injection E1 as ->.
    destruct (reinits s N m rs J w v T P Frs ltac:(lia) Ev) as (Tv & Ckv & _ & Hv). specialize (Hv Min).
    destruct (hush_round s N v w1 Hv ltac:(lia) Et) as (Sil & Ls & Ck1 & Nd).
    assert (Sl : forall i, (i < N)%nat -> state (f_node w1 i) = Slave /\ 0 < t_hb (f_node w1 i)).
    { intros i Hi. rewrite (Nd i Hi). destruct (q_slaves _ _ Hv i Hi). pose proof (k_clock _ _ (q_ok _ _ Hv)). split; [assumption|lia]. }
    assert (Eq : forall i, (i < N)%nat -> moment i = t_hb (f_node w1 i)).
    { intros i Hi. destruct (Sl i Hi). apply (patient_is_timer s w1 i _ (k_nodes _ _ K1 i Hi)); auto. }
    assert (Tk : forall i, (i < N)%nat -> f_ticked w1 i = true).
    { apply (all_ticked s N (advanceMillis 1 v) w1); [|exact Et]. destruct (q_ok _ _ Hv) as [[? ? ? ?] ? ?]; constructor; [constructor|..]; auto; cbn; lia. }
    assert (Sim2 : simulated s N ((ops ++ map FReinit rs ++ [FAdvance 1; FTick]) ++ os2 ++ runTicks k) w2).
    { apply (simulated_app s N _ _ w1 w2 Sim1); [|exact E2]. apply Forall_app. split; [apply idle_fops; exact Idle|apply runTicks_ok]. }
    split; [exact Sim2|]. split; [lia|].
    rewrite (Eq m2 Hm2) in *.
    destruct (silence_led s N m2 w1 os2 k w2 T1 K1 Sil Ls Sm Tk Hm2 ltac:(apply Sl; exact Hm2)) as [_ X]; auto.
    { intros i Hi Ne. rewrite <- (Eq i Hi). apply First; assumption. }
    { lia. }
    destruct X as [[_ X]|[X _]]; [lia|]. eexists _, _. right. exact X.
Qed.

(** ** The theorems *)
(** However often nodes come and go: there is exactly one master, and it is the
    node that took over last. *)
Theorem C127_exactly_one_master_however_nodes_come_and_go : forall s N ops w m,
  (N <= 900)%nat -> steady s N ops w m ->
  simulated s N ops w /\ getNumMasters N w = 1%nat /\ GetCurrentState (f_node w m) = Master.
Proof.
  intros s N ops w m Sm H. destruct (steady_in_charge s N ops w m Sm H) as (Sim & _ & Ch). split; [exact Sim|].
  destruct (in_charge_master N m w Ch) as (Hm & A & B). split; [apply (masters_counted N w m Hm A B)|exact A].
Qed.
Print Assumptions C127_exactly_one_master_however_nodes_come_and_go.

(** Replacing the master leaves the network without one: nobody is master, and
    every node waits, for less than seven seconds. *)
Theorem C127_a_new_master_is_due : forall s N ops w m rs w1,
  (N <= 900)%nat -> steady s N ops w m -> nothing_in_the_air N w ->
  Forall (fun r => (r < N)%nat) rs -> In m rs ->
  fsteps s N (map FReinit rs ++ [FAdvance 1; FTick]) w = Ok w1 ->
  silent N w1 /\ getNumMasters N w1 = 0%nat /\
  exists moment : nat -> Z, forall i, (i < N)%nat -> patient_until s w1 i (moment i) /\ f_clock w1 + 996 <= moment i <= f_clock w1 + 6999.
Proof.
  intros s N ops w m rs w1 Sm H Q Frs Min E1. destruct (steady_in_charge s N ops w m Sm H) as (Sim & Hw & Ch).
  pose proof (in_charge_pauses N m w Ch Q) as P. destruct (simulated_ok _ _ _ _ Sim) as [K T]. pose proof Sim as (J & _).
  assert (Sim1 : simulated s N ((ops ++ map FReinit rs ++ [FAdvance 1]) ++ [FTick]) w1).
  { rewrite <- !app_assoc. apply (simulated_app s N ops _ w w1 Sim); [|exact E1]. apply Forall_app. split; [apply reinit_fops; exact Frs|]. repeat constructor; cbn; lia. }
  destruct (simulated_ok _ _ _ _ Sim1) as [K1 T1].
  rewrite fsteps_app in E1. destruct (fsteps s N (map FReinit rs) w) as [v| |] eqn:Ev; try discriminate. cbn [obind fsteps fstep] in E1.
  destruct (FakeTick s N (advanceMillis 1 v)) as [w1'| |] eqn:Et; try discriminate. cbn [obind] in E1. injection E1 as ->.
  destruct (reinits s N m rs J w v T P Frs ltac:(lia) Ev) as (Tv & Ckv & _ & Hv). specialize (Hv Min).
  destruct (hush_round s N v w1 Hv ltac:(lia) Et) as (Sil & Ls & Ck1 & Nd).
  split; [exact Sil|]. split.
  { unfold getNumMasters. destruct Sil as [_ Sil].
    assert (Z0 : forall l, (forall i, In i l -> (i < N)%nat) -> length (filter (fun i => match GetCurrentState (f_node w1 i) with Master => true | Slave => false end) l) = 0%nat).
    { induction l as [|i l IH]; intros L; [reflexivity|]. cbn [filter]. rewrite (proj2 (Sil i (L i ltac:(left; reflexivity)))). apply IH. intros j Hj. apply L. right. exact Hj. }
    apply Z0. intros i I. apply in_seq in I. lia. }
  destruct (C120_silence_ends_with_one_master s N _ w1 Sim1 Sil Ls Sm ltac:(unfold wrap; lia)) as (moment & Mo & _).
  exists moment. intros i Hi. destruct (Mo i Hi) as [Pi Ui]. split; [exact Pi|]. split; [|exact Ui].
  destruct (q_slaves _ _ Hv i Hi) as [S1 S2]. pose proof (k_clock _ _ (q_ok _ _ Hv)).
  rewrite (patient_is_timer s w1 i (moment i) (k_nodes _ _ K1 i Hi)); [rewrite (Nd i Hi); lia|rewrite (Nd i Hi); exact S1|rewrite (Nd i Hi); lia|exact Pi].
Qed.
Print Assumptions C127_a_new_master_is_due.

(** Until then nobody is master, and from the next round on one node is. *)
Theorem C127_nobody_before_one_after : forall s N ops w m rs w1 moment m2 os2 k w2,
  (N <= 900)%nat -> steady s N ops w m -> nothing_in_the_air N w ->
  Forall (fun r => (r < N)%nat) rs -> In m rs ->
  fsteps s N (map FReinit rs ++ [FAdvance 1; FTick]) w = Ok w1 ->
  (forall i, (i < N)%nat -> patient_until s w1 i (moment i)) ->
  (m2 < N)%nat -> (forall i, (i < N)%nat -> i <> m2 -> moment m2 < moment i) ->
  Forall idle os2 -> f_clock w1 + passed os2 <= moment m2 ->
  fsteps s N (os2 ++ runTicks k) w1 = Ok w2 -> f_clock w2 < wrap - 90000 ->
  new_to_all N m2 w1 w2 ->
  (f_clock w2 <= moment m2 -> forall i, (i < N)%nat -> GetCurrentState (f_node w2 i) = Slave) /\
  (moment m2 < f_clock w2 -> GetCurrentState (f_node w2 m2) = Master /\ getNumMasters N w2 = 1%nat).
Proof.
  intros s N ops w m rs w1 moment m2 os2 k w2 Sm H Q Frs Min E1 Mo Hm2 First Idle B1 E2 Hc New. split.
  - intros L. destruct (steady_in_charge s N ops w m Sm H) as (Sim & Hw & Ch). unfold wrap in Hc.
    destruct (C127_a_new_master_is_due s N ops w m rs w1 Sm H Q Frs Min E1) as (Sil & _ & _).
    pose proof (in_charge_pauses N m w Ch Q) as P. destruct (simulated_ok _ _ _ _ Sim) as [K T]. pose proof Sim as (J & _).
    assert (Sim1 : simulated s N (ops ++ map FReinit rs ++ [FAdvance 1; FTick]) w1).
    { apply (simulated_app s N ops _ w w1 Sim); [|exact E1]. apply Forall_app. split; [apply reinit_fops; exact Frs|]. repeat constructor; cbn; lia. }
    destruct (simulated_ok _ _ _ _ Sim1) as [K1 T1].
    rewrite fsteps_app in E1. destruct (fsteps s N (map FReinit rs) w) as [v| |] eqn:Ev; try discriminate. cbn [obind fsteps fstep] in E1.
    destruct (FakeTick s N (advanceMillis 1 v)) as [w1'| |] eqn:Et; try discriminate. cbn [obind] in E1. injection E1 as ->.
    destruct (reinits s N m rs J w v T P Frs ltac:(lia) Ev) as (Tv & Ckv & _ & Hv). specialize (Hv Min).
    destruct (hush_round s N v w1 Hv ltac:(lia) Et) as (_ & Ls & Ck1 & Nd).
    assert (Sl : forall i, (i < N)%nat -> state (f_node w1 i) = Slave /\ 0 < t_hb (f_node w1 i)).
    { intros i Hi. rewrite (Nd i Hi). destruct (q_slaves _ _ Hv i Hi). pose proof (k_clock _ _ (q_ok _ _ Hv)). split; [assumption|lia]. }
    assert (Eq : forall i, (i < N)%nat -> moment i = t_hb (f_node w1 i)).
    { intros i Hi. destruct (Sl i Hi). apply (patient_is_timer s w1 i _ (k_nodes _ _ K1 i Hi)); auto. }
    assert (Tk : forall i, (i < N)%nat -> f_ticked w1 i = true).
    { apply (all_ticked s N (advanceMillis 1 v) w1); [|exact Et]. destruct (q_ok _ _ Hv) as [[? ? ? ?] ? ?]; constructor; [constructor|..]; auto; cbn; lia. }
    rewrite (Eq m2 Hm2) in *.
    destruct (silence_led s N m2 w1 os2 k w2 T1 K1 Sil Ls Sm Tk Hm2 ltac:(apply Sl; exact Hm2)) as [_ X]; auto.
    { intros i Hi Ne. rewrite <- (Eq i Hi). apply First; assumption. }
    { lia. }
    destruct X as [[C _]|[_ X]]; [|lia]. intros i Hi. apply (c_nodes _ _ _ _ _ C i Hi).
  - intros L. destruct (C127_exactly_one_master_however_nodes_come_and_go s N _ w2 m2 Sm (master_replaced s N ops w m rs w1 moment m2 os2 k w2 H Q Frs Min E1 Mo Hm2 First Idle B1 E2 (conj L Hc) New)) as (_ & A & B).
    auto.
Qed.
Print Assumptions C127_nobody_before_one_after.

(** ** The same from the random numbers *)
(** Among 136 successive random numbers of a node from number 1 on, which choose
    its ids, no two give the same id, and none gives 0. *)
Definition very_varied (draws : nat -> N) : Prop :=
  (forall j k, (1 <= j < k)%nat -> (k <= j + 135)%nat -> (draws j mod 65535 <> draws k mod 65535)%N) /\
  (forall j, (1 <= j)%nat -> (draws j mod 65535 <> 65534)%N).

(** Slaves come and go: rounds of a millisecond, and nodes other than [m]
    replaced when nothing is on the air or waiting to be sent. *)
Inductive visits (s : source) (N m : nat) (w0 : fakenet) : list fop -> fakenet -> Prop :=
| no_visit : visits s N m w0 [] w0
| a_round ops w w' : visits s N m w0 ops w -> fsteps s N [FAdvance 1; FTick] w = Ok w' -> visits s N m w0 (ops ++ [FAdvance 1; FTick]) w'
| a_visit ops w r w' : visits s N m w0 ops w -> nothing_in_the_air N w -> (r < N)%nat -> r <> m ->
    fsteps s N [FReinit r] w = Ok w' -> visits s N m w0 (ops ++ [FReinit r]) w'.

Lemma very_varied_varied d : very_varied d -> varied d.
Proof. intros [A B]. split; [|exact B]. intros j k H1 H2. apply A; lia. Qed.

Lemma very_varied_ids s m : very_varied (s_draw s m) -> far_apart (env_of s m) 1.
Proof.
  intros [V1 V2]. unfold far_apart, drawn_id, env_of. cbn [plat draw]. split.
  - intros j k H1 H2. specialize (V1 j k H1 H2). pose proof (V2 j ltac:(lia)) as Vj. pose proof (V2 k ltac:(lia)) as Vk. rewrite !host_id.
    pose proof (N.mod_upper_bound (s_draw s m j) 65535 ltac:(lia)). pose proof (N.mod_upper_bound (s_draw s m k) 65535 ltac:(lia)).
    set (x := (s_draw s m j mod 65535)%N) in *. set (y := (s_draw s m k mod 65535)%N) in *. unfold u16. lia.
  - intros j Hj. specialize (V2 j Hj). rewrite host_id. pose proof (N.mod_upper_bound (s_draw s m j) 65535 ltac:(lia)). set (x := (s_draw s m j mod 65535)%N) in *. unfold u16. lia.
Qed.

(** The master has taken over, and its ids are those of its random numbers. *)
Lemma drawing_runs s due N m r0 k : (N <= 900)%nat -> (m < N)%nat -> due m <> 0 -> (forall i, (i < N)%nat -> i <> m -> due m < due i) ->
  (forall j k, (r0 <= j < k)%nat -> (k <= j + 75)%nat -> drawn_id (env_of s m) j <> drawn_id (env_of s m) k /\ drawn_id (env_of s m) k <> 0) ->
  drawn_id (env_of s m) r0 <> 0 ->
  forall w w', drawing s due N m r0 w -> f_clock w + Z.of_nat k < 4294967296 - 70000 -> fsteps s N (runTicks k) w = Ok w' ->
  drawing s due N m r0 w' /\ f_clock w' = f_clock w + Z.of_nat k.
Proof.
  intros Sm Hm Nz First V V0. induction k as [|k IH]; intros w w' H Hc E.
  - cbn in E. injection E as <-. split; [exact H|lia].
  - cbn [runTicks fsteps fstep obind] in E. destruct (FakeTick s N (advanceMillis 1 w)) as [w1| |] eqn:E1; try discriminate. cbn [obind] in E.
    destruct (drawing_step s due N m Sm Hm Nz First r0 V V0 w w1 H ltac:(lia) E1) as [H1 Ck].
    destruct (IH w1 w' H1 ltac:(lia) E) as [H2 Ck2]. split; [exact H2|lia].
Qed.

Lemma power_up_governed s N m os k w : simulated s N (os ++ runTicks k) w ->
  (m < N)%nat -> (N <= 900)%nat ->
  (forall i, (i < N)%nat -> i <> m -> waits_until s m < waits_until s i) ->
  Forall idle os -> Z.of_nat N + passed os <= waits_until s m ->
  waits_until s m < Z.of_nat N + passed os + Z.of_nat k < 4294967296 - 70000 ->
  very_varied (s_draw s m) -> governed s N m w.
Proof.
  intros Sim Hm Sm First Idle B1 B2 VV. destruct (simulated_ok _ _ _ _ Sim) as [Kw Tw]. pose proof Sim as (J & B & _ & E).
  assert (First' : forall i, (i < N)%nat -> i <> m -> wait s m < wait s i) by (intros i Hi Ne; rewrite <- !waits_wait; auto).
  rewrite waits_wait in *. unfold frun in E. destruct (FakeNetwork s N) as [w0| |] eqn:E0; try discriminate. cbn [obind] in E.
  destruct (calm_start s N w0 J B E0) as [C0 Ck0]. rewrite fsteps_app in E.
  destruct (FakeNetwork_ok s N J B) as (w' & E' & _ & _ & _ & _ & _ & _ & _ & Nd & _). rewrite E0 in E'. injection E' as <-.
  destruct (fsteps s N os w0) as [w1| |] eqn:E1; try discriminate. cbn [obind] in E.
  destruct (idle_calm s _ _ _ N m os Sm Hm First' Idle w0 w1 C0 ltac:(lia) E1) as [C1 Ck1].
  destruct (idle_same s _ _ _ N m os Sm Hm First' Idle w0 w1 C0 ltac:(lia) E1) as [Nd1 _].
  assert (Q : f_node w0 m = powered s m (Z.of_nat m + 1)) by apply (Nd m Hm).
  destruct (varied_ids s m (very_varied_varied _ VV)) as [V1 V0].
  destruct (drawing_runs s (wait s) N m 1 k Sm Hm ltac:(unfold wait; lia) First' V1 V0 w1 w) as [Dr Ck]; [|lia|exact E|].
  { left. split; [exact C1|]. split; [lia|]. rewrite Nd1, Q. unfold powered, bare. destruct (s_junk s m) as [[[ty1 ty2] d1] d2]. reflexivity. }
  destruct Dr as [(_ & L & _)|(D & T & U & fly & j & s1 & h & g & a & kills & R & Dr)]; [lia|].
  pose proof (r_ids _ _ _ _ _ _ _ _ _ _ _ _ _ _ _ R) as Ri. cbn [app] in Ri. constructor; [exact Tw| | |].
  - apply (r_names _ _ _ _ _ _ _ _ _ _ _ _ _ _ _ R m Hm).
  - unfold log_ids. rewrite Ri. exact Dr.
  - exists (fun i => i), (fun _ => []). split; [right; do 10 eexists; exact R|]. intros i _ _. apply recent_new.
Qed.

Lemma visits_run s N m w0 ops w : junk_ok s -> ok N w0 -> traced s N w0 -> visits s N m w0 ops w ->
  ok N w /\ traced s N w /\ f_clock w0 <= f_clock w /\ fsteps s N ops w0 = Ok w /\ Forall (fop_ok N) ops.
Proof.
  intros J K T H. induction H as [|ops w w' H (Kw & Tw & C & E0 & F) E|ops w r w' H (Kw & Tw & C & E0 & F) Q Hr Ne E].
  - split; [exact K|]. split; [exact T|]. split; [lia|]. split; [reflexivity|constructor].
  - assert (F' : Forall (fop_ok N) [FAdvance 1; FTick]) by (repeat constructor; cbn; lia).
    destruct (fsteps_ok s N _ J F' w Kw Tw) as (v & Ev & Kv & Tv). rewrite E in Ev. injection Ev as <-.
    destruct (ticks_log s N 1 w w' Kw E) as (_ & Ck & _).
    split; [exact Kv|]. split; [exact Tv|]. split; [lia|]. split; [rewrite fsteps_app, E0; exact E|]. apply Forall_app. auto.
  - assert (F' : Forall (fop_ok N) [FReinit r]) by (repeat constructor; cbn; lia).
    destruct (fsteps_ok s N _ J F' w Kw Tw) as (v & Ev & Kv & Tv). rewrite E in Ev. injection Ev as <-.
    destruct (reinit_ok s N w r J Kw Tw Hr) as (v & Ev & _ & _ & _ & _ & _ & _ & _ & _ & Ck & _).
    cbn [fsteps fstep] in E. rewrite Ev in E. cbn [obind] in E. injection E as <-.
    split; [exact Kv|]. split; [exact Tv|]. split; [lia|]. split; [rewrite fsteps_app, E0; cbn [obind fsteps fstep]; rewrite Ev; reflexivity|]. apply Forall_app. auto.
Qed.

Lemma visits_governed s N m w0 ops w : (N <= 900)%nat -> junk_ok s -> far_apart (env_of s m) 1 -> governed s N m w0 ->
  visits s N m w0 ops w -> f_clock w < 4294967296 - 90000 -> governed s N m w.
Proof.
  intros Sm J V G H. pose proof (governed_ok s N m w0 G) as K. pose proof (v_traced _ _ _ _ G) as T.
  induction H as [|ops w w' H IH E|ops w r w' H IH Q Hr Ne E]; intros Hc; [exact G| |].
  - destruct (visits_run s N m w0 ops w J K T H) as (Kw & Tw & _).
    destruct (visits_run s N m w0 _ w' J K T (a_round s N m w0 ops w w' H E)) as (_ & Tw' & _).
    destruct (ticks_log s N 1 w w' Kw E) as (_ & Ck & _).
    cbn [fsteps fstep obind] in E. destruct (FakeTick s N (advanceMillis 1 w)) as [v| |] eqn:Et; try discriminate. cbn [obind] in E. injection E as ->.
    apply (governed_round s N m Sm V w w' (IH ltac:(lia)) ltac:(lia) Tw' Et).
  - destruct (visits_run s N m w0 ops w J K T H) as (Kw & Tw & _).
    destruct (reinit_ok s N w r J Kw Tw Hr) as (v & Ev & _ & _ & _ & _ & _ & _ & _ & _ & Ck & _).
    cbn [fsteps fstep] in E. rewrite Ev in E. cbn [obind] in E. injection E as ->.
    apply (governed_swap s N m Sm w r w' J (IH ltac:(lia)) Q Hr Ne ltac:(lia) Ev).
Qed.

Lemma run_clock s N m os k w0 : simulated s N (os ++ runTicks k) w0 -> (m < N)%nat -> (N <= 900)%nat ->
  (forall i, (i < N)%nat -> i <> m -> waits_until s m < waits_until s i) -> Forall idle os -> Z.of_nat N + passed os <= waits_until s m ->
  f_clock w0 = Z.of_nat N + passed os + Z.of_nat k.
Proof.
  intros (J & B & _ & E) Hm Sm First Idle B1. unfold frun in E. destruct (FakeNetwork s N) as [v| |] eqn:E0; try discriminate. cbn [obind] in E.
  destruct (calm_start s N v J B E0) as [C0 Ck0]. rewrite fsteps_app in E.
  destruct (fsteps s N os v) as [w1| |] eqn:E1; try discriminate. cbn [obind] in E.
  assert (First' : forall i, (i < N)%nat -> i <> m -> wait s m < wait s i) by (intros i Hi Ne; rewrite <- !waits_wait; auto).
  rewrite waits_wait in B1.
  destruct (idle_calm s _ _ _ N m os Sm Hm First' Idle v w1 C0 ltac:(lia) E1) as [C1 Ck1].
  destruct (ticks_log s N k w1 w0 (c_ok _ _ _ _ _ C1) E) as (_ & Ck & _). lia.
Qed.

(** However often slaves come and go, the node that took over first stays the
    only master.  No condition on the ids that are transmitted is needed when the
    random numbers of the master are varied enough. *)
Theorem C127_slaves_come_and_go : forall s N m os k w0 ops w,
  simulated s N (os ++ runTicks k) w0 ->
  (m < N)%nat -> (N <= 900)%nat ->
  (forall i, (i < N)%nat -> i <> m -> waits_until s m < waits_until s i) ->
  Forall idle os -> Z.of_nat N + passed os <= waits_until s m ->
  waits_until s m < Z.of_nat N + passed os + Z.of_nat k ->
  very_varied (s_draw s m) ->
  visits s N m w0 ops w -> f_clock w < wrap - 90000 ->
  simulated s N ((os ++ runTicks k) ++ ops) w /\ getNumMasters N w = 1%nat /\ GetCurrentState (f_node w m) = Master.
Proof.
  intros s N m os k w0 ops w Sim Hm Sm First Idle B1 Hk VV V Hc. unfold wrap in Hc.
  destruct (simulated_ok _ _ _ _ Sim) as [K T]. pose proof Sim as (J & B & _ & E).
  destruct (visits_run s N m w0 ops w J K T V) as (_ & _ & Le & Es & Fo).
  split; [apply (simulated_app s N _ ops w0 w Sim Fo Es)|].
  pose proof (run_clock s N m os k w0 Sim Hm Sm First Idle B1) as Ck.
  pose proof (power_up_governed s N m os k w0 Sim Hm Sm First Idle B1 ltac:(lia) VV) as G.
  pose proof (visits_governed s N m w0 ops w Sm J (very_varied_ids s m VV) G V ltac:(lia)) as Gw.
  destruct (v_in _ _ _ _ Gw) as (name & Old & L & _).
  destruct (in_charge_master N m w (ex_intro _ name (ex_intro _ Old L))) as (_ & A & B').
  split; [apply (masters_counted N w m Hm A B')|exact A].
Qed.
Print Assumptions C127_slaves_come_and_go.

(** ** The hypotheses are met *)
(** Node 3 takes over; nodes 1 and 2 are replaced; then the master and node 4
    are; node 0 takes over. *)
Definition lap1 : list fop := map FReinit [1; 2]%nat.
Definition lap2 : list fop := map FReinit [3; 4]%nat ++ [FAdvance 1; FTick].
Definition lap3 : list fop := [FAdvance 4957; FTick] ++ runTicks 40.
Definition timers_from (N m : nat) (w : fakenet) : bool :=
  forallb (fun i => role_eqb (GetCurrentState (f_node w i)) Slave && (0 <? t_hb (f_node w i)) && (Nat.eqb i m || (t_hb (f_node w m) <? t_hb (f_node w i)))) (seq 0 N).
Definition laps (w0 : fakenet) : bool :=
  reigned w0 && two_parts (plain 3 1500) 5 lap1 (runTicks 3)
    (fun w1 w2 => newb 5 3 w1 w2 && (f_clock w2 <? 5100) && quiet 5 w2 && two_parts (plain 3 1500) 5 lap2 lap3
      (fun w3 w4 => timers_from 5 0 w3 && newb 5 0 w3 w4 && (f_clock w3 + 4957 <=? t_hb (f_node w3 0)) && (t_hb (f_node w3 0) <? f_clock w4) && (f_clock w4 <? 11000)) w2) w0.

Lemma waits_patient s N w i moment : ok N w -> (i < N)%nat -> state (f_node w i) = Slave -> 0 < t_hb (f_node w i) -> patient_until s w i moment -> patient_until s w i (t_hb (f_node w i)).
Proof. intros K Hi S1 P Q. rewrite <- (patient_is_timer s w i moment (k_nodes _ _ K i Hi) S1 P Q). exact Q. Qed.

Lemma laps_steady w0 : simulated (plain 3 1500) 5 reigning w0 -> laps w0 = true ->
  exists w4, steady (plain 3 1500) 5 (((reigning ++ lap1 ++ runTicks 3) ++ lap2) ++ lap3) w4 0.
Proof.
  intros Sm L. unfold laps in L. apply andb_true_iff in L as [L0 L]. unfold reigned in L0. apply andb_true_iff in L0 as [L0 L3]. apply andb_true_iff in L0 as [L1 L2].
  apply two_parts_ok in L as (w1 & w2 & E1 & E2 & L). apply andb_true_iff in L as [L L4]. apply andb_true_iff in L as [L L5]. apply andb_true_iff in L as [L6 L7].
  apply two_parts_ok in L4 as (w3 & w4 & E3 & E4 & L). do 4 (apply andb_true_iff in L as [L ?]).
  assert (St0 : steady (plain 3 1500) 5 reigning w0 3).
  { unfold reigning. apply powered_up; auto; try lia.
    - intros i Hi Ne. unfold waits_until. cbn [plain s_draw]. destruct (Nat.eqb_spec i 3); [contradiction|]. cbn. lia.
    - repeat constructor; cbn; lia.
    - vm_compute. discriminate.
    - split; vm_compute; reflexivity.
    - apply distinctb_ok. exact L2. }
  assert (Q0 : nothing_in_the_air 5 w0) by (exact (quiet_ok _ _ L3)). assert (Q2 : nothing_in_the_air 5 w2) by (exact (quiet_ok _ _ L5)).
  assert (St2 : steady (plain 3 1500) 5 (reigning ++ lap1 ++ runTicks 3) w2 3).
  { apply (others_replaced (plain 3 1500) 5 reigning w0 3 [1; 2]%nat w1 3 w2 St0 Q0); auto.
    - repeat constructor; lia.
    - cbn. intuition lia.
    - unfold wrap. lia.
    - apply newb_ok. exact L6. }
  assert (F34 : Forall (fun r => (r < 5)%nat) [3; 4]%nat) by (repeat constructor; lia).
  destruct (C127_a_new_master_is_due (plain 3 1500) 5 _ w2 3 [3; 4]%nat w3 ltac:(lia) St2 Q2 F34 ltac:(left; reflexivity) E3) as (_ & _ & moment & Mo).
  destruct (steady_in_charge (plain 3 1500) 5 _ _ _ ltac:(lia) St2) as (Sim2 & _).
  assert (Sim3 : simulated (plain 3 1500) 5 ((reigning ++ lap1 ++ runTicks 3) ++ lap2) w3).
  { apply (simulated_app _ _ _ _ w2 w3 Sim2); [|exact E3]. unfold lap2. apply Forall_app. split; [apply reinit_fops; exact F34|]. repeat constructor; cbn; lia. }
  destruct (simulated_ok _ _ _ _ Sim3) as [K3 T3].
  assert (Tf : forall i, (i < 5)%nat -> state (f_node w3 i) = Slave /\ 0 < t_hb (f_node w3 i) /\ (i = 0%nat \/ t_hb (f_node w3 0) < t_hb (f_node w3 i))).
  { intros i Hi. unfold timers_from in L. apply (proj1 (forallb_forall _ _)) with (x := i) in L; [|apply in_seq; lia].
    apply andb_true_iff in L as [L Lb]. apply andb_true_iff in L as [La Lc]. split; [unfold GetCurrentState in La; destruct (state (f_node w3 i)); [reflexivity|discriminate]|].
    split; [lia|]. apply orb_true_iff in Lb as [Lb|Lb]; [left; apply Nat.eqb_eq; exact Lb|right; lia]. }
  exists w4. apply (master_replaced (plain 3 1500) 5 _ w2 3 [3; 4]%nat w3 (fun i => t_hb (f_node w3 i)) 0 [FAdvance 4957; FTick] 40 w4 St2 Q2 F34); auto.
  - left. reflexivity.
  - intros i Hi. destruct (Tf i Hi) as (A & B & _). apply (waits_patient _ 5 w3 i (moment i) K3 Hi A B). apply Mo. exact Hi.
  - lia.
  - intros i Hi Ne. destruct (Tf i Hi) as (_ & _ & [?|?]); [contradiction|assumption].
  - repeat constructor; cbn; lia.
  - cbn [passed fold_right]. lia.
  - unfold wrap. lia.
  - apply newb_ok. assumption.
Qed.

Example C127_inhabited : exists w, steady (plain 3 1500) 5 (((reigning ++ lap1 ++ runTicks 3) ++ lap2) ++ lap3) w 0.
Proof.
  destruct (simulated_exists (plain 3 1500) 5 reigning) as [w0 Sm].
  { apply plain_junk. } { lia. }
  { apply Forall_app. split; [repeat constructor; cbn; lia|apply runTicks_ok]. }
  apply (laps_steady w0 Sm). apply (ends_true _ _ _ laps _ Sm). vm_compute. reflexivity.
Qed.

(** Five nodes; two slaves are replaced after ten seconds; then a thousand
    seconds pass. *)
Lemma first_node_very_varied : very_varied (s_draw first_node 0).
Proof.
  split; [intros j k H1 H2|intros j H1]; cbn [s_draw first_node]; repeat match goal with |- context [match ?x with O => _ | _ => _ end] => destruct x; [lia|] end.
  - rewrite !(N.mod_small (_ mod 1000)) by (pose proof (N.mod_upper_bound (N.of_nat (S j)) 1000); pose proof (N.mod_upper_bound (N.of_nat (S k)) 1000); lia).
    intros Q. pose proof (N.div_mod (N.of_nat (S j)) 1000 ltac:(discriminate)). pose proof (N.div_mod (N.of_nat (S k)) 1000 ltac:(discriminate)). lia.
  - pose proof (N.mod_upper_bound (N.of_nat (S j)) 1000 ltac:(discriminate)). rewrite N.mod_small by lia. lia.
Qed.

Lemma visits_rounds s N m w0 k : junk_ok s -> ok N w0 -> traced s N w0 -> forall ops w, visits s N m w0 ops w ->
  exists w', visits s N m w0 (ops ++ runTicks k) w' /\ f_clock w' = f_clock w + Z.of_nat k.
Proof.
  intros J K T. induction k as [|k IH]; intros ops w V.
  - exists w. split; [cbn [runTicks]; rewrite app_nil_r; exact V|lia].
  - destruct (visits_run s N m w0 ops w J K T V) as (Kw & Tw & _).
    assert (F' : Forall (fop_ok N) [FAdvance 1; FTick]) by (repeat constructor; cbn; lia).
    destruct (fsteps_ok s N _ J F' w Kw Tw) as (w1 & E1 & K1 & T1).
    destruct (ticks_log s N 1 w w1 Kw E1) as (_ & Ck & _).
    destruct (IH _ w1 (a_round s N m w0 ops w w1 V E1)) as (w' & V' & Ck'). exists w'. rewrite <- app_assoc in V'. split; [exact V'|lia].
Qed.

Lemma visits_example k k2 : Z.of_nat k = 10000 -> Z.of_nat k2 = 1000000 -> exists w0 w,
  simulated first_node 5 ([] ++ runTicks k) w0 /\ visits first_node 5 0 w0 ([FReinit 2; FReinit 4] ++ runTicks k2) w /\
  f_clock w = 1010005 /\ very_varied (s_draw first_node 0) /\ getNumMasters 5 w = 1%nat /\ GetCurrentState (f_node w 0) = Master.
Proof.
  intros Hk Hk2. destruct (table_example k Hk) as (w0 & Sim & Di & _ & Air0 & Qt). destruct (simulated_ok _ _ _ _ Sim) as [K T].
  pose proof first_node_junk as J. destruct first_node_waits as [W First].
  destruct (reinit_ok first_node 5 w0 2 J K T ltac:(lia)) as (w1 & E1 & K1 & T1 & _ & _ & _ & _ & _ & _ & Ck1 & Ce1).
  destruct (reinit_ok first_node 5 w1 4 J K1 T1 ltac:(lia)) as (w2 & E2 & K2 & T2 & _ & _ & _ & _ & _ & _ & Ck2 & Ce2).
  assert (V1 : visits first_node 5 0 w0 ([] ++ [FReinit 2]) w1).
  { apply (a_visit _ _ _ _ [] w0 2 w1); [constructor|split; assumption|lia|lia|]. cbn [fsteps fstep]. rewrite E1. reflexivity. }
  assert (V2 : visits first_node 5 0 w0 (([] ++ [FReinit 2]) ++ [FReinit 4]) w2).
  { apply (a_visit _ _ _ _ _ w1 4 w2 V1); [|lia|lia|cbn [fsteps fstep]; rewrite E2; reflexivity]. split.
    - unfold on_air in *. rewrite (proj2 (Ce1 Air)). exact Air0.
    - intros i Hi. unfold waiting in *. rewrite (proj2 (Ce1 (Radio i))). apply Qt. exact Hi. }
  destruct (visits_rounds first_node 5 0 w0 k2 J K T _ w2 V2) as (w & V & Ck).
  assert (Id : Forall idle []) by constructor.
  assert (Ck0 : f_clock w0 = 10005).
  { rewrite (run_clock first_node 5 0 [] k w0 Sim); [cbn [passed fold_right]; lia|lia|lia|exact First|exact Id|cbn [passed fold_right]; lia]. }
  destruct (C127_slaves_come_and_go first_node 5 0 [] k w0 _ w Sim ltac:(lia) ltac:(lia) First Id ltac:(cbn [passed fold_right]; lia) ltac:(cbn [passed fold_right]; lia) first_node_very_varied V ltac:(unfold wrap; lia)) as (_ & A & B).
  exists w0, w. split; [exact Sim|]. split; [exact V|]. split; [lia|]. split; [exact first_node_very_varied|]. auto.
Qed.
Example C127_slaves_inhabited : exists w0 w,
  simulated first_node 5 ([] ++ runTicks (Z.to_nat 10000)) w0 /\ visits first_node 5 0 w0 ([FReinit 2; FReinit 4] ++ runTicks (Z.to_nat 1000000)) w /\
  f_clock w = 1010005 /\ very_varied (s_draw first_node 0) /\ getNumMasters 5 w = 1%nat /\ GetCurrentState (f_node w 0) = Master.
Proof. apply visits_example; apply Z2Nat.id; lia. Qed.
