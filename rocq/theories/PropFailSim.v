(** C120: whenever the simulated network of the integration tests has fallen
    silent, one node takes over and stays the only master.  Model: FakeNet.v. *)
From Coq Require Import ZArith NArith Lia List Bool.
From Coq Require Import ZifyBool.
From Verif Require Import CInt CIntFacts Packet SpecPacket PacketFacts NetMgr NetHist SpecNet NetFacts Rsm RsmStep RsmEval RsmRun RsmHist SpecRsm RsmFacts RsmTime RoleFacts.
From Verif Require Import Fastled Palette Device LedMgr Effects Show ShowFacts Bench FakeNet FakeNetFacts SimFacts PropFakeNet PropSim.
Import ListNotations.
Open Scope Z_scope.
Ltac Zify.zify_post_hook ::= Z.div_mod_to_equations.

(** Nobody is master, and nothing is on the air or waiting to be sent. *)
Definition silent (N : nat) (w : fakenet) : Prop :=
  on_air w = None /\ forall i, (i < N)%nat -> waiting w i = None /\ GetCurrentState (f_node w i) = Slave.

(** Node [i], when it hears nothing, stays slave up to time [t] and becomes
    master after it. *)
Definition patient_until (s : source) (w : fakenet) (i : nat) (t : Z) : Prop :=
  0 <= t < wrap - 1 /\ forall u, 0 <= u < wrap -> exists n' out,
    step (env_of s (f_name w i)) u (OTick None) (f_node w i) = Ok (tt, n', out) /\
    (GetCurrentState n' = Master <-> t < u).

(** The ids node [i] has transmitted so far. *)
Definition ids_of_node (w : fakenet) (i : nat) : list Z := all_ids (calls_of (f_name w i) (f_log w)).

(** From [w] on, node [m] gives its packets ids that are distinct as in C118, and
    the first 24 of them are not among the last five that another node has
    transmitted before. *)
Definition new_to_all (N m : nat) (w w' : fakenet) : Prop :=
  let ids := skipn (length (ids_of_node w m)) (all_ids (calls_of (f_name w m) (f_log w'))) in
  distinct_ids ids /\
  forall i x, (i < N)%nat -> i <> m -> In x (firstn 24 ids) ->
    let old := ids_of_node w i in ~ In x (skipn (length old - 5) old).

Lemma patience_is_timer e n t : plat e = Host -> nodeok n -> state n = Slave -> 0 <= t < wrap - 1 -> t_hb n = t -> t <> 0 ->
  forall u, 0 <= u < wrap -> exists n' out, step e u (OTick None) n = Ok (tt, n', out) /\ (state n' = Master <-> t < u).
Proof.
  intros Pl K St Ht E Nz u Hu. assert (I : inc_sound None) by (intros p [=]).
  destruct (nodeok_runs e u n None Pl K I Hu) as (n' & out & R & T). exists n', out. split; [exact R|].
  destruct (Z.lt_ge_cases t u) as [L|L].
  - assert (D : timer_due u (t_hb n) = true) by (apply timer_due_iff; lia).
    split; [intros _; exact L|intros _]. inversion T; subst; try congruence; try discriminate; try reflexivity.
    destruct H0; congruence.
  - destruct (not_due_slave e u n None St ltac:(lia) ltac:(lia) eq_refl _ _ T) as [_ ->]. rewrite St. split; [discriminate|lia].
Qed.

Theorem C120_silence_ends_with_one_master : forall s N os w1,
  simulated s N (os ++ [FTick]) w1 -> silent N w1 -> f_loss w1 = 0 -> (N <= 900)%nat -> f_clock w1 < wrap - 80000 ->
  exists moment : nat -> Z,
  (forall i, (i < N)%nat -> patient_until s w1 i (moment i) /\ moment i <= f_clock w1 + 6999) /\
  forall m os2 k w,
    fsteps s N (os2 ++ runTicks k) w1 = Ok w ->
    (m < N)%nat -> (forall i, (i < N)%nat -> i <> m -> moment m < moment i) ->
    Forall idle os2 -> f_clock w1 + passed os2 <= moment m ->
    f_clock w1 + passed os2 + Z.of_nat k < wrap - 70000 ->
    new_to_all N m w1 w ->
    (f_clock w <= moment m -> forall i, (i < N)%nat -> GetCurrentState (f_node w i) = Slave) /\
    (moment m < f_clock w ->
       GetCurrentState (f_node w m) = Master /\
       forall i, (i < N)%nat -> i <> m -> GetCurrentState (f_node w i) = Slave).
Proof.
  intros s N os w1 Sim (Air0 & Qt) Ls Sm Ck. unfold wrap in Ck.
  destruct (simulated_ok _ _ _ _ Sim) as [K T].
  assert (Tk : forall i, (i < N)%nat -> f_ticked w1 i = true).
  { destruct Sim as (J & B & F & E). unfold frun in E. destruct (FakeNetwork s N) as [w0| |] eqn:E0; try discriminate. cbn [obind] in E.
    rewrite fsteps_app in E. destruct (fsteps s N os w0) as [wa| |] eqn:E1; try discriminate. cbn [obind fsteps fstep] in E.
    destruct (FakeTick s N wa) as [wb| |] eqn:E2; try discriminate. cbn [obind] in E. injection E as ->.
    destruct (frun_ok s N os J B (proj1 (proj1 (Forall_app _ _ _) F))) as (wa' & Ea & Ka & _).
    unfold frun in Ea. rewrite E0 in Ea. cbn [obind] in Ea. rewrite E1 in Ea. injection Ea as <-.
    destruct (FakeTick_ok s N wa Ka) as (evs & w' & E' & _ & Tm & _). rewrite E2 in E'. injection E' as <-. intros i Hi. apply (Tm i Hi). }
  pose proof (calm_silence s N w1 K T Ls Tk Air0 (fun i Hi => proj1 (Qt i Hi)) (fun i Hi => proj2 (Qt i Hi))) as C.
  assert (Tb : forall i, (i < N)%nat -> 5000 <= t_hb (f_node w1 i) <= f_clock w1 + 6999).
  { intros i Hi. destruct (t_hist _ _ _ T (f_name w1 i) (t_names _ _ _ T i Hi)) as (t0 & n & B0 & _ & H & U).
    rewrite (U i Hi eq_refl) in H.
    assert (AB : forall ev, In ev (calls_of (f_name w1 i) (f_log w1)) -> at_ ev <= f_clock w1).
    { intros ev I. apply calls_of_in in I. apply (t_late _ _ _ T _ I). }
    assert (AB' : all_before (wrap - 7000) t0 (calls_of (f_name w1 i) (f_log w1))).
    { unfold wrap. split; [lia|]. intros ev I. specialize (AB ev I). lia. }
    pose proof (timer_inv _ _ _ _ H AB') as TI. destruct (Qt i Hi) as [_ S]. unfold GetCurrentState in S. rewrite S in TI.
    destruct TI as (c & (A1 & A2 & _) & Bc).
    assert (c <= f_clock w1); [|lia]. destruct A1 as [->|(ev & I & <- & _)]; [lia|apply AB; exact I]. }
  exists (fun i => t_hb (f_node w1 i)). split.
  - intros i Hi. specialize (Tb i Hi). split; [|lia]. split; [unfold wrap; lia|].
    apply (patience_is_timer (env_of s (f_name w1 i)) _ (t_hb (f_node w1 i)) eq_refl (k_nodes _ _ K i Hi)); try lia; [apply Qt; exact Hi|unfold wrap; lia].
  - intros m os2 k w E Hm First Idle B1 B2 [Sp Sp2]. unfold wrap in B2. rewrite fsteps_app in E.
    destruct (fsteps s N os2 w1) as [w2| |] eqn:E2; try discriminate. cbn [obind] in E.
    destruct (idle_calm s _ _ _ N m os2 Sm Hm First Idle w1 w2 C B1 E2) as [C2 Ck2].
    destruct (ticks_log s N k w2 w (c_ok _ _ _ _ _ C2) E) as (_ & Ckw & _).
    assert (H : early_or_led (f_name w1) (fun i => all_ids (calls_of (f_name w1 i) (f_log w1))) (fun i => t_hb (f_node w1 i)) N m w).
    { pose proof (Tb m Hm) as Tbm.
      apply (run_ticks s (f_name w1) (fun i => all_ids (calls_of (f_name w1 i) (f_log w1))) (fun i => t_hb (f_node w1 i)) N Sm m Hm ltac:(lia) First k w2 w);
        [left; split; [exact C2|lia]|lia|exact E|].
      intros own Eo. unfold ids_of_node in Sp, Sp2. rewrite Eo in Sp, Sp2.
      rewrite skipn_app, skipn_all, Nat.sub_diag in Sp, Sp2. cbn [app skipn] in Sp, Sp2.
      split; [exact Sp|]. intros i x Hi Ne I J. apply last5_lastn in J as [->|J].
      - assert (I' : In 0 own) by (rewrite <- (firstn_skipn 24 own); apply in_or_app; left; exact I).
        apply in_split in I' as (a & b & Eab). destruct (Sp a 0 b Eab) as [Z _]. congruence.
      - exact (Sp2 i x Hi Ne I J). }
    unfold GetCurrentState. destruct H as [[C' Hc]|[(D & T' & U & fly & j & s1 & h & g & a & kills & R) Hc]].
    + split; [|intros; lia]. intros _ i Hi. apply (c_nodes _ _ _ _ _ C' i Hi).
    + split; [intros; lia|]. intros _. split; [apply (r_ms _ _ _ _ _ _ _ _ _ _ _ _ _ _ _ R)|].
      intros i Hi Ne. apply (r_slaves _ _ _ _ _ _ _ _ _ _ _ _ _ _ _ R i Hi Ne).
Qed.
Print Assumptions C120_silence_ends_with_one_master.

(** ** Replacing the master *)
(** In the reign of C118, at a moment at which nothing is on the air or waiting,
    the master is replaced by a new node.  In the next round everybody is slave,
    nothing is on the air, and everybody still waits, the new node for at least
    4999 ms and the others for at least 996 ms. *)
Theorem C120_a_replaced_master_leaves_silence : forall s N m os k w0 w1,
  simulated s N (os ++ runTicks k) w0 -> fsteps s N [FReinit m; FAdvance 1; FTick] w0 = Ok w1 ->
  (m < N)%nat -> (N <= 900)%nat ->
  (forall i, (i < N)%nat -> i <> m -> waits_until s m < waits_until s i) ->
  Forall idle os -> Z.of_nat N + passed os <= waits_until s m ->
  waits_until s m < Z.of_nat N + passed os + Z.of_nat k < wrap - 90000 ->
  distinct_ids (all_ids (calls_of m (f_log w0))) ->
  on_air w0 = None -> (forall i, (i < N)%nat -> waiting w0 i = None) ->
  simulated s N ((os ++ runTicks k ++ [FReinit m; FAdvance 1]) ++ [FTick]) w1 /\ silent N w1 /\ f_loss w1 = 0 /\
  f_clock w1 = Z.of_nat N + passed os + Z.of_nat k + 1 /\
  (forall i t, (i < N)%nat -> patient_until s w1 i t -> f_clock w1 + 996 <= t) /\
  (forall t, patient_until s w1 m t -> f_clock w1 + 4999 <= t).
Proof.
  intros s N m os k w0 w1 Sim E Hm Sm First Idle B1 [B2 B3] Di Air0 Qt. unfold wrap in B3.
  destruct (simulated_ok _ _ _ _ Sim) as [K T].
  assert (First' : forall i, (i < N)%nat -> i <> m -> wait s m < wait s i) by (intros i Hi Ne; rewrite <- !waits_wait; auto).
  rewrite waits_wait in *.
  pose proof Sim as (J & B & F & E0). unfold frun in E0. destruct (FakeNetwork s N) as [v0| |] eqn:E1; try discriminate. cbn [obind] in E0.
  destruct (calm_start s N v0 J B E1) as [C0 Ck0]. rewrite fsteps_app in E0.
  destruct (fsteps s N os v0) as [v1| |] eqn:E2; try discriminate. cbn [obind] in E0.
  destruct (idle_calm s _ _ _ N m os Sm Hm First' Idle v0 v1 C0 ltac:(lia) E2) as [C1 Ck1].
  destruct (ticks_log s N k v1 w0 (c_ok _ _ _ _ _ C1) E0) as (_ & Ck & _).
  assert (H : early_or_led (fun i => i) (fun _ => []) (wait s) N m w0).
  { apply (run_ticks s (fun i => i) (fun _ => []) (wait s) N Sm m Hm ltac:(unfold wait; lia) First' k v1 w0); [left; split; [exact C1|lia]|lia|exact E0|].
    intros own Eo. apply unused_start. cbn [app] in Eo. rewrite <- Eo. exact Di. }
  destruct H as [[_ Hc]|[(D & T' & U & fly & j & s1 & h & g & a & kills & R) _]]; [lia|].
  assert (Fa : fly = false /\ a <> OnAir).
  { pose proof (r_air _ _ _ _ _ _ _ _ _ _ _ _ _ _ _ R) as Ra. destruct fly.
    - destruct Ra as (X & CA & _). unfold on_air in Air0. congruence.
    - destruct Ra as (_ & _ & _ & Na & _). auto. }
  destruct Fa as [-> Na].
  assert (EU : U = []).
  { pose proof (m_slot _ _ _ _ _ _ _ _ _ _ (r_ms _ _ _ _ _ _ _ _ _ _ _ _ _ _ _ R)) as Sl.
    specialize (Qt m Hm). unfold waiting in Qt. rewrite Qt in Sl. apply Sl. }
  subst U.
  assert (Pa : f_clock w0 + 997 <= g + 5000).
  { pose proof (r_ms _ _ _ _ _ _ _ _ _ _ _ _ _ _ _ R) as M. pose proof (r_hb _ _ _ _ _ _ _ _ _ _ _ _ _ _ _ R) as Hb.
    pose proof (m_slot _ _ _ _ _ _ _ _ _ _ M) as Sl. specialize (Qt m Hm). unfold waiting in Qt. rewrite Qt in Sl. destruct Sl as [_ Ni].
    pose proof (m_led _ _ _ _ _ _ _ _ _ _ M) as Le. pose proof (ledger_short _ _ _ _ _ _ Le). pose proof (l_g _ _ _ _ _ _ Le) as G.
    destruct a; try congruence; cbn [pend] in G; lia. }
  (* the new node *)
  cbn [fsteps fstep obind] in E. destruct (reinit_ok s N w0 m J K T Hm) as (w2 & Er & K2 & T2 & Nd & Tk & _ & _ & Ls2 & _ & Ck2 & Ce2).
  rewrite Er in E. cbn [obind] in E.
  set (w3 := advanceMillis 1 w2) in *.
  assert (K3 : ok N w3) by (destruct K2 as [[? ? ? ?] ? ?]; constructor; [constructor|..]; auto; cbn; lia).
  destruct (FakeTick_ok s N w3 K3) as (evs & w4 & E4 & K4 & Tm & _ & Nm & _ & Ls4 & _ & Ck4 & Res).
  rewrite E4 in E. cbn [obind] in E. injection E as <-.
  assert (Ck3 : f_clock w3 = f_clock w0 + 1) by (subst w3; cbn; lia).
  assert (Cc : forall o, cell w3 o = cell w0 o) by (intros o; rewrite <- (proj2 (Ce2 o)); destruct o; reflexivity).
  assert (Rc : forall i, receives s w3 i = None).
  { intros i. unfold receives. rewrite Cc. unfold on_air in Air0. rewrite Air0. destruct (keeps _ _ _ _); reflexivity. }
  assert (Sl : forall i, (i < N)%nat -> state (f_node w3 i) = Slave /\ t_hb (f_node w3 i) >= f_clock w0 + 997 /\ (i = m -> t_hb (f_node w3 i) >= f_clock w0 + 5000)).
  { intros i Hi. change (f_node w3 i) with (f_node w2 i). rewrite Nd. unfold upd. destruct (Nat.eqb_spec i m) as [->|Ne].
    - assert (P : state (powered s (f_born w0) (f_clock w0)) = Slave /\ t_hb (powered s (f_born w0) (f_clock w0)) >= f_clock w0 + 5000).
      { unfold powered, bare. destruct (s_junk s (f_born w0)) as [[[ty1 ty2] d1] d2]. cbn [state t_hb with_num_palettes with_num_effects]. split; [reflexivity|].
        pose proof (k_clock _ _ K). rewrite (u32_id (f_clock w0)) by lia. rewrite u32_id by lia. lia. }
      destruct P. split; [assumption|]. split; [lia|auto].
    - destruct (r_slaves _ _ _ _ _ _ _ _ _ _ _ _ _ _ _ R i Hi Ne) as (S1 & _ & _ & [X|X]); [contradiction|].
      split; [exact S1|]. split; [lia|]. intros; contradiction. }
  assert (Keep : forall i, (i < N)%nat -> f_node w4 i = f_node w3 i /\ outs (evs i) = []).
  { intros i Hi. destruct (Sl i Hi) as (S1 & S2 & _). destruct (Tm i Hi) as [Em _]. rewrite Rc in Em. unfold machine in Em.
    pose proof (k_clock _ _ K) as Kc. rewrite u32_id in Em by lia. assert (I : inc_sound None) by (intros p [=]).
    destruct (nodeok_runs (env_of s (f_name w3 i)) (f_clock w3) (f_node w3 i) None eq_refl (k_nodes _ _ K3 i Hi) I ltac:(lia)) as (n1 & o1 & R1 & T1).
    destruct (not_due_slave _ (f_clock w3) (f_node w3 i) None S1 ltac:(lia) ltac:(lia) eq_refl _ _ T1) as [-> ->]. rewrite R1 in Em. cbn [fst snd] in Em.
    destruct (f_ticked w3 i); [rewrite R1 in Em|]; injection Em as <- <-; auto. }
  assert (Pat : forall i t, (i < N)%nat -> patient_until s w4 i t -> t = t_hb (f_node w3 i)).
  { intros i t Hi [Rt P]. destruct (Keep i Hi) as [Kn _]. destruct (Sl i Hi) as (S1 & S2 & _). rewrite Kn in P.
    pose proof (k_clock _ _ K) as Kc.
    assert (Hh : 0 <= t_hb (f_node w3 i) < 4294967296) by (apply (g_hb _ (proj1 (k_nodes _ _ K3 i Hi)))).
    assert (X : forall u, 0 <= u < wrap -> (t_hb (f_node w3 i) < u <-> t < u)).
    { intros u Hu. destruct (P u Hu) as (n' & out & St & Iff). rewrite <- Iff.
      assert (I : inc_sound None) by (intros p [=]).
      destruct (nodeok_runs (env_of s (f_name w4 i)) u (f_node w3 i) None eq_refl (k_nodes _ _ K3 i Hi) I Hu) as (n1 & o1 & R1 & T1).
      unfold step in St. rewrite R1 in St. injection St as <- <-. unfold GetCurrentState.
      destruct (Z.lt_ge_cases (t_hb (f_node w3 i)) u) as [L|L].
      - assert (Du : timer_due u (t_hb (f_node w3 i)) = true) by (apply timer_due_iff; lia).
        split; [intros _|intros _; exact L]. inversion T1; subst; try congruence; try discriminate; try reflexivity. destruct H0; congruence.
      - destruct (not_due_slave _ u (f_node w3 i) None S1 ltac:(lia) ltac:(lia) eq_refl _ _ T1) as [_ ->]. rewrite S1. split; [lia|discriminate]. }
    unfold wrap in *. pose proof (X t ltac:(lia)). pose proof (X (t + 1) ltac:(lia)). lia. }
  split; [|split; [|split; [|split; [|split]]]].
  - split; [exact J|]. split; [exact B|]. apply Forall_app in F as [F1 F2]. split.
    + apply Forall_app. split; [apply Forall_app; split; [exact F1|apply Forall_app; split; [exact F2|]]|repeat constructor].
      apply Forall_cons; [exact Hm|]. apply Forall_cons; [cbn; lia|apply Forall_nil].
    + unfold frun. rewrite E1. cbn [obind]. rewrite <- app_assoc, fsteps_app, E2. cbn [obind]. rewrite <- app_assoc, fsteps_app, E0. cbn [obind app fsteps fstep].
      rewrite Er. cbn [obind]. fold w3. rewrite E4. reflexivity.
  - pose proof (first_some (fun i => is_some (after_out (cell w3 (Radio i)) (outs (evs i)))) N) as FS. cbv zeta in Res.
    destruct (find _ (seq 0 N)) as [i|].
    { destruct FS as (Lk & Fk & _). destruct (Keep i Lk) as [_ Qk]. specialize (Qt i Lk). unfold waiting in Qt. rewrite Qk, Cc, Qt in Fk. discriminate. }
    destruct Res as [RA RR]. split; [exact RA|]. intros i Hi. split; [apply RR; exact Hi|]. destruct (Keep i Hi) as [-> _]. apply (Sl i Hi).
  - rewrite Ls4. change (f_loss w3) with (f_loss w2). rewrite Ls2. apply (r_loss _ _ _ _ _ _ _ _ _ _ _ _ _ _ _ R).
  - lia.
  - intros i t Hi P. rewrite (Pat i t Hi P). destruct (Sl i Hi) as (_ & S2 & _). lia.
  - intros t P. rewrite (Pat m t Hm P). destruct (Sl m Hm) as (_ & _ & S2). specialize (S2 eq_refl). lia.
Qed.
Print Assumptions C120_a_replaced_master_leaves_silence.

(** Both together: the simulated network replaces its master.  For less than
    seven seconds nobody is master, and after that exactly one node is. *)
Corollary C120_the_network_replaces_its_master : forall s N m os k w0 w1,
  simulated s N (os ++ runTicks k) w0 -> fsteps s N [FReinit m; FAdvance 1; FTick] w0 = Ok w1 ->
  (m < N)%nat -> (N <= 900)%nat ->
  (forall i, (i < N)%nat -> i <> m -> waits_until s m < waits_until s i) ->
  Forall idle os -> Z.of_nat N + passed os <= waits_until s m ->
  waits_until s m < Z.of_nat N + passed os + Z.of_nat k < wrap - 90000 ->
  distinct_ids (all_ids (calls_of m (f_log w0))) ->
  on_air w0 = None -> (forall i, (i < N)%nat -> waiting w0 i = None) ->
  exists moment : nat -> Z,
  (forall i, (i < N)%nat -> patient_until s w1 i (moment i) /\ f_clock w1 <= moment i <= f_clock w1 + 6999) /\
  forall m2 k2 w,
    fsteps s N (runTicks k2) w1 = Ok w -> (m2 < N)%nat ->
    (forall i, (i < N)%nat -> i <> m2 -> moment m2 < moment i) ->
    f_clock w1 + Z.of_nat k2 < wrap - 70000 -> new_to_all N m2 w1 w ->
    (f_clock w1 + Z.of_nat k2 <= moment m2 -> getNumMasters N w = 0%nat) /\
    (moment m2 < f_clock w1 + Z.of_nat k2 -> getNumMasters N w = 1%nat /\ GetCurrentState (f_node w m2) = Master).
Proof.
  intros s N m os k w0 w1 Sim E Hm Sm First Idle B1 B2 Di Air0 Qt.
  destruct (C120_a_replaced_master_leaves_silence s N m os k w0 w1 Sim E Hm Sm First Idle B1 B2 Di Air0 Qt) as (Sim1 & Sil & Ls & Ck & Pt & _).
  destruct (C120_silence_ends_with_one_master s N _ w1 Sim1 Sil Ls Sm ltac:(unfold wrap in *; lia)) as (moment & Mo & After).
  exists moment. split.
  - intros i Hi. destruct (Mo i Hi) as [P U]. split; [exact P|]. split; [specialize (Pt i _ Hi P); lia|exact U].
  - intros m2 k2 w E2 Hm2 First2 B3 New.
    assert (Ckw : f_clock w = f_clock w1 + Z.of_nat k2) by (apply (ticks_log s N k2 w1 w (proj1 (simulated_ok _ _ _ _ Sim1)) E2)).
    destruct (After m2 [] k2 w E2 Hm2 First2 ltac:(constructor)) as [A B]; [|cbn [passed fold_right]; lia|exact New|].
    { cbn [passed fold_right]. rewrite Z.add_0_r. destruct (Mo m2 Hm2) as [P _]. specialize (Pt m2 _ Hm2 P). lia. }
    rewrite Ckw in A, B. split.
    + intros L. specialize (A L). unfold getNumMasters.
      assert (Z0 : forall l, (forall i, In i l -> (i < N)%nat) -> length (filter (fun i => match GetCurrentState (f_node w i) with Master => true | Slave => false end) l) = 0%nat).
      { induction l as [|i l IH]; intros H; [reflexivity|]. cbn [filter]. rewrite (A i) by (apply H; left; reflexivity). apply IH. intros j Hj. apply H. right. exact Hj. }
      apply Z0. intros i I. apply in_seq in I. lia.
    + intros L. destruct (B L) as [M1 M2]. split; [apply (masters_counted N w m2 Hm2 M1 M2)|exact M1].
Qed.
Print Assumptions C120_the_network_replaces_its_master.

(** ** The hypotheses are met *)
(** Node 3 becomes master after 5004, sends a heartbeat, and is replaced at 5040;
    node 0 takes over after 10013 and the network has one master again. *)
Definition reigning : list fop := [FTick; FAdvance 4995; FTick] ++ runTicks 40.
Definition quiet (N : nat) (w : fakenet) : bool :=
  match on_air w with None => forallb (fun i => match waiting w i with None => true | Some _ => false end) (seq 0 N) | Some _ => false end.
Lemma quiet_ok N w : quiet N w = true -> on_air w = None /\ forall i, (i < N)%nat -> waiting w i = None.
Proof.
  unfold quiet. destruct (on_air w); [discriminate|]. intros F. split; [reflexivity|]. intros i Hi.
  apply (proj1 (forallb_forall _ _)) with (x := i) in F; [|apply in_seq; lia]. destruct (waiting w i); [discriminate|reflexivity].
Qed.
Definition newb (N m : nat) (w w' : fakenet) : bool :=
  let ids := skipn (length (ids_of_node w m)) (all_ids (calls_of (f_name w m) (f_log w'))) in
  distinctb [] ids && forallb (fun i => Nat.eqb i m || forallb (fun x => negb (existsb (Z.eqb x) (ids_of_node w i))) ids) (seq 0 N).
Lemma newb_ok N m w w' : newb N m w w' = true -> new_to_all N m w w'.
Proof.
  unfold newb, new_to_all. cbv zeta. intros H. apply andb_true_iff in H as [H1 H2]. split; [apply distinctb_ok; exact H1|].
  intros i x Hi Ne I J. apply (proj1 (forallb_forall _ _)) with (x := i) in H2; [|apply in_seq; lia].
  apply orb_true_iff in H2 as [H2|H2]; [apply Nat.eqb_eq in H2; contradiction|].
  apply (proj1 (forallb_forall _ _)) with (x := x) in H2.
  - apply negb_true_iff in H2. assert (X : existsb (Z.eqb x) (ids_of_node w i) = true); [|congruence].
    apply existsb_exists. exists x. split; [|apply Z.eqb_refl].
    rewrite <- (firstn_skipn (length (ids_of_node w i) - 5) (ids_of_node w i)). apply in_or_app. right. exact J.
  - match goal with |- In _ ?l => rewrite <- (firstn_skipn 24 l) end. apply in_or_app. left. exact I.
Qed.

Definition two_parts (s : source) (N : nat) (l1 l2 : list fop) (b : fakenet -> fakenet -> bool) (w0 : fakenet) : bool :=
  match fsteps s N l1 w0 with Ok w1 => match fsteps s N l2 w1 with Ok w => b w1 w | _ => false end | _ => false end.
Lemma two_parts_ok s N l1 l2 b w0 : two_parts s N l1 l2 b w0 = true ->
  exists w1 w, fsteps s N l1 w0 = Ok w1 /\ fsteps s N l2 w1 = Ok w /\ b w1 w = true.
Proof.
  unfold two_parts. destruct (fsteps s N l1 w0) as [w1| |]; try discriminate. destruct (fsteps s N l2 w1) as [w| |] eqn:E; try discriminate.
  intros H. exists w1, w. auto.
Qed.
Definition recovered (w1 w : fakenet) : bool :=
  (f_clock w1 =? 5041) && (getNumMasters 5 w1 =? 0)%nat && newb 5 0 w1 w && (getNumMasters 5 w =? 1)%nat && role_eqb (GetCurrentState (f_node w 0)) Master.
Definition reigned (w0 : fakenet) : bool :=
  role_eqb (GetCurrentState (f_node w0 3)) Master && distinctb [] (all_ids (calls_of 3 (f_log w0))) && quiet 5 w0.
Lemma is_master r : role_eqb r Master = true -> r = Master.
Proof. destruct r; [discriminate|reflexivity]. Qed.
Definition replacing : list fop := [FReinit 3; FAdvance 1; FTick].
Definition recovering : list fop := [FAdvance 4960; FTick] ++ runTicks 40.

Example C120_replaced_inhabited : exists w0 w1 w,
  simulated (plain 3 1500) 5 reigning w0 /\ GetCurrentState (f_node w0 3) = Master /\
  distinct_ids (all_ids (calls_of 3 (f_log w0))) /\ on_air w0 = None /\ (forall i, (i < 5)%nat -> waiting w0 i = None) /\
  fsteps (plain 3 1500) 5 replacing w0 = Ok w1 /\ f_clock w1 = 5041 /\ getNumMasters 5 w1 = 0%nat /\
  fsteps (plain 3 1500) 5 recovering w1 = Ok w /\ new_to_all 5 0 w1 w /\
  getNumMasters 5 w = 1%nat /\ GetCurrentState (f_node w 0) = Master.
Proof.
  destruct (simulated_exists (plain 3 1500) 5 reigning) as [w0 Sm].
  { apply plain_junk. } { lia. }
  { apply Forall_app. split; [repeat constructor; cbn; lia|apply runTicks_ok]. }
  assert (L : reigned w0 && two_parts (plain 3 1500) 5 replacing recovering recovered w0 = true).
  { apply (ends_true _ _ _ (fun w0 => reigned w0 && two_parts (plain 3 1500) 5 replacing recovering recovered w0) _ Sm). vm_compute. reflexivity. }
  apply andb_true_iff in L as [L L4]. apply two_parts_ok in L4 as (w1 & w & E1 & E2 & L4).
  unfold reigned in L. apply andb_true_iff in L as [L L3]. apply andb_true_iff in L as [L1 L2]. unfold recovered in L4.
  apply andb_true_iff in L4 as [L4 M5]. apply andb_true_iff in L4 as [L4 M4]. apply andb_true_iff in L4 as [L4 M3]. apply andb_true_iff in L4 as [M1 M2].
  exists w0, w1, w. split; [exact Sm|]. split; [apply is_master; exact L1|].
  split; [apply distinctb_ok; exact L2|]. destruct (quiet_ok _ _ L3) as [Q1 Q2]. split; [exact Q1|]. split; [exact Q2|].
  split; [exact E1|]. split; [apply Z.eqb_eq; exact M1|]. split; [apply Nat.eqb_eq; exact M2|]. split; [exact E2|]. split; [apply newb_ok; exact M3|].
  split; [apply Nat.eqb_eq; exact M4|]. apply is_master. exact M5.
Qed.
