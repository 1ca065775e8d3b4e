(** C118: in the simulated network of the integration tests one node takes over
    and stays the only master.  Model: FakeNet.v. *)
From Coq Require Import ZArith NArith Lia List Bool.
From Coq Require Import ZifyBool.
From Verif Require Import CInt CIntFacts Packet SpecPacket PacketFacts NetMgr NetHist SpecNet NetFacts Rsm RsmStep RsmEval RsmRun RsmHist SpecRsm RsmFacts RoleFacts.
From Verif Require Import Fastled Palette Device LedMgr Effects Show ShowFacts Bench FakeNet FakeNetFacts SimFacts PropFakeNet.
Import ListNotations.
Open Scope Z_scope.
Ltac Zify.zify_post_hook ::= Z.div_mod_to_equations.

(** When node [i], constructed at time i + 1, stops waiting for a packet. *)
Definition waits_until (s : source) (i : nat) : Z := Z.of_nat i + 1 + 5000 + Z.of_N (s_draw s i 0%nat) mod 2000.

(** The first part of a test: rounds and jumps of the clock, in any order. *)
Definition idle (o : fop) : Prop := match o with FTick => True | FAdvance d => 0 <= d | _ => False end.
Definition passed (os : list fop) : Z :=
  fold_right (fun o z => match o with FAdvance d => d + z | _ => z end) 0 os.

(** No id is 0, and none is among the 24 before it. *)
Definition distinct_ids (ids : list Z) : Prop :=
  forall a x b, ids = a ++ x :: b -> x <> 0 /\ ~ In x (skipn (length a - 24) a).

Lemma waits_wait s i : waits_until s i = wait s i.
Proof. unfold waits_until, wait. lia. Qed.

Lemma idle_calm s name Old due N m os : (N <= 900)%nat -> (m < N)%nat -> (forall i, (i < N)%nat -> i <> m -> due m < due i) ->
  Forall idle os -> forall w w', calm name Old due N w -> f_clock w + passed os <= due m -> fsteps s N os w = Ok w' ->
  calm name Old due N w' /\ f_clock w' = f_clock w + passed os.
Proof.
  intros Sm Hm First F. induction F as [|o os Ho F IH]; intros w w' C B E.
  - cbn in E |- *. injection E as <-. split; [exact C|lia].
  - assert (P0 : 0 <= passed os).
    { clear - F. induction F as [|o os Ho F IH]; [cbn; lia|]. unfold passed in *. destruct o; cbn [fold_right idle] in *; try contradiction; lia. }
    destruct o; try contradiction; cbn [fsteps fstep obind] in E; cbn [passed fold_right] in *; cbn in Ho.
    + fold (passed os) in *. destruct (IH _ w' (calm_advance name Old due N Sm w d Ho C) ltac:(cbn; lia) E) as [C' Ck]. split; [exact C'|]. rewrite Ck. cbn. lia.
    + fold (passed os) in *. destruct (FakeTick s N w) as [w1| |] eqn:E1; try discriminate. cbn [obind] in E.
      destruct (calm_tick s name Old due N Sm w w1 C) as [C1 Ck1]; [|exact E1|].
      { intros i Hi. destruct (Nat.eq_dec i m) as [->|Ne]; [lia|]. specialize (First i Hi Ne). lia. }
      destruct (IH w1 w' C1 ltac:(lia) E) as [C' Ck]. split; [exact C'|]. lia.
Qed.

Lemma fsteps_app s N a b w : fsteps s N (a ++ b) w = obind (fsteps s N a w) (fsteps s N b).
Proof.
  revert w. induction a as [|o a IH]; intros w; [reflexivity|]. cbn [app fsteps]. destruct (fstep s N o w); cbn [obind]; [apply IH|reflexivity|reflexivity].
Qed.

(** Whatever numbers the nodes draw, as long as one of them waits for less time
    than every other and does not repeat its packet ids: until its time has
    come everybody is a slave, and from the next round on it is the master and
    everybody else is a slave, however long the test runs. *)
Theorem C118_exactly_one_master : forall s N m os k w,
  simulated s N (os ++ runTicks k) w ->
  (m < N)%nat -> (N <= 900)%nat ->
  (forall i, (i < N)%nat -> i <> m -> waits_until s m < waits_until s i) ->
  Forall idle os -> Z.of_nat N + passed os <= waits_until s m ->
  Z.of_nat N + passed os + Z.of_nat k < 4294967296 - 70000 ->
  distinct_ids (all_ids (calls_of m (f_log w))) ->
  (Z.of_nat N + passed os + Z.of_nat k <= waits_until s m -> forall i, (i < N)%nat -> GetCurrentState (f_node w i) = Slave) /\
  (waits_until s m < Z.of_nat N + passed os + Z.of_nat k ->
     GetCurrentState (f_node w m) = Master /\
     forall i, (i < N)%nat -> i <> m -> GetCurrentState (f_node w i) = Slave).
Proof.
  intros s N m os k w (J & B & _ & E) Hm Sm First Idle B1 B2 Sp.
  assert (First' : forall i, (i < N)%nat -> i <> m -> wait s m < wait s i) by (intros i Hi Ne; rewrite <- !waits_wait; auto).
  rewrite waits_wait in *. unfold frun in E. destruct (FakeNetwork s N) as [w0| |] eqn:E0; try discriminate. cbn [obind] in E.
  destruct (calm_start s N w0 J B E0) as [C0 Ck0]. rewrite fsteps_app in E.
  destruct (fsteps s N os w0) as [w1| |] eqn:E1; try discriminate. cbn [obind] in E.
  destruct (idle_calm s _ _ _ N m os Sm Hm First' Idle w0 w1 C0 ltac:(lia) E1) as [C1 Ck1].
  destruct (ticks_log s N k w1 w (c_ok _ _ _ _ _ C1) E) as (_ & Ck & _).
  assert (H : early_or_led (fun i => i) (fun _ => []) (wait s) N m w).
  { apply (run_ticks s (fun i => i) (fun _ => []) (wait s) N Sm m Hm ltac:(unfold wait; lia) First' k w1 w); [left; split; [exact C1|lia]|lia|exact E|].
    intros own Eo. apply unused_start. cbn [app] in Eo. rewrite <- Eo. exact Sp. }
  unfold GetCurrentState. destruct H as [[C Hc]|[(D & T & U & fly & j & s1 & h & g & a & kills & R) Hc]].
  - split; [|intros; lia]. intros _ i Hi. apply (c_nodes _ _ _ _ _ C i Hi).
  - split; [intros; lia|]. intros _. split; [apply (r_ms _ _ _ _ _ _ _ _ _ _ _ _ _ _ _ R)|].
    intros i Hi Ne. apply (r_slaves _ _ _ _ _ _ _ _ _ _ _ _ _ _ _ R i Hi Ne).
Qed.
Print Assumptions C118_exactly_one_master.

Lemma one_in_filter N m : (m < N)%nat -> length (filter (fun i => Nat.eqb i m) (seq 0 N)) = 1%nat.
Proof.
  intros H. replace N with (m + S (N - S m))%nat by lia. rewrite seq_app, filter_app, app_length. cbn [seq filter Nat.add]. rewrite Nat.eqb_refl. cbn [length].
  assert (A : forall a l, ~ (a <= m < a + l)%nat -> filter (fun i => Nat.eqb i m) (seq a l) = []).
  { intros a l. revert a. induction l as [|l IH]; intros a Ha; [reflexivity|]. cbn [seq filter]. destruct (Nat.eqb_spec a m); [lia|]. apply IH. lia. }
  rewrite !A by lia. reflexivity.
Qed.

Lemma masters_counted N w m : (m < N)%nat -> GetCurrentState (f_node w m) = Master ->
  (forall i, (i < N)%nat -> i <> m -> GetCurrentState (f_node w i) = Slave) -> getNumMasters N w = 1%nat.
Proof.
  intros Hm M S. unfold getNumMasters. rewrite <- (one_in_filter N m Hm). f_equal. apply filter_ext_in. intros i I. apply in_seq in I.
  destruct (Nat.eqb_spec i m) as [->|Ne]; [rewrite M; reflexivity|]. rewrite S by (try lia; exact Ne). reflexivity.
Qed.

(** The test electsOneMaster: 2010 rounds after the jump there is one master,
    for every seed, up to the two exceptions. *)
Corollary C118_electsOneMaster : forall s N m w,
  simulated s N ([FTick; FAdvance (kSlaveNoPacketTimeout - 5); FTick] ++ runTicks (Z.to_nat (kSlaveNoPacketRandom + 10))) w ->
  (m < N)%nat -> (N <= 6)%nat ->
  (forall i, (i < N)%nat -> i <> m -> waits_until s m < waits_until s i) ->
  distinct_ids (all_ids (calls_of m (f_log w))) ->
  getNumMasters N w = 1%nat.
Proof.
  intros s N m w Sm Hm Hn First Di.
  assert (Wm : 5001 <= waits_until s m <= Z.of_nat m + 7000) by (unfold waits_until; lia).
  destruct (C118_exactly_one_master s N m _ _ w Sm Hm ltac:(lia) First) as [_ M]; auto.
  - apply Forall_cons; [exact I|]. apply Forall_cons; [unfold idle, kSlaveNoPacketTimeout; lia|]. apply Forall_cons; [exact I|apply Forall_nil].
  - cbn [passed fold_right]. unfold kSlaveNoPacketTimeout. lia.
  - cbn [passed fold_right]. unfold kSlaveNoPacketTimeout, kSlaveNoPacketRandom. lia.
  - destruct M as [M1 M2]; [|apply (masters_counted N w m Hm M1 M2)].
    cbn [passed fold_right]. unfold kSlaveNoPacketTimeout, kSlaveNoPacketRandom. lia.
Qed.
Print Assumptions C118_electsOneMaster.

(** The test stableOverTime: after 10000 rounds there is one master in every
    further round. *)
Corollary C118_stableOverTime : forall s N m k w,
  simulated s N (runTicks k) w -> (m < N)%nat -> (N <= 900)%nat ->
  (forall i, (i < N)%nat -> i <> m -> waits_until s m < waits_until s i) ->
  distinct_ids (all_ids (calls_of m (f_log w))) ->
  kSlaveNoPacketTimeout * 2 <= Z.of_nat k < 4294967296 - 80000 ->
  getNumMasters N w = 1%nat.
Proof.
  intros s N m k w Sm Hm Hn First Di Hk. unfold kSlaveNoPacketTimeout in Hk.
  assert (Wm : 5001 <= waits_until s m <= Z.of_nat m + 7000) by (unfold waits_until; lia).
  destruct (C118_exactly_one_master s N m [] k w Sm Hm Hn First) as [_ M]; auto; try (cbn [passed fold_right]; lia).
  destruct M as [M1 M2]; [cbn [passed fold_right]; lia|]. apply (masters_counted N w m Hm M1 M2).
Qed.
Print Assumptions C118_stableOverTime.

(** ** Two nodes that wait equally long both become master *)
(** Node 0 draws 1 and node 1 draws 0, so both wait until 5002. *)
Definition tie : source :=
  mkSource (fun k r => if Nat.eqb r 0 then match k with O => 1%N | S O => 0%N | _ => 1500%N end else N.of_nat (100 * k + r + 7)) (fun r => N.of_nat r)
           (fun _ => mkOffsets 0 0 0) (fun _ => (0, 0, repeat 0 58, repeat 0 58)).

Theorem C118_one_master_without_a_first_refuted : ~ (forall s N m os k w,
  simulated s N (os ++ runTicks k) w -> (m < N)%nat -> (N <= 900)%nat ->
  (forall i, (i < N)%nat -> i <> m -> waits_until s m <= waits_until s i) ->
  Forall idle os -> Z.of_nat N + passed os <= waits_until s m ->
  Z.of_nat N + passed os + Z.of_nat k < 4294967296 - 70000 ->
  (forall i, (i < N)%nat -> distinct_ids (all_ids (calls_of i (f_log w)))) ->
  waits_until s m < Z.of_nat N + passed os + Z.of_nat k ->
  getNumMasters N w = 1%nat).
Proof.
  intros H. destruct (simulated_exists tie 5 ([FAdvance 4995] ++ runTicks 3)) as [w Sm].
  { intros k. cbn -[wf_packet]. split; apply wf_packetb_ok; vm_compute; reflexivity. } { lia. }
  { cbn. repeat constructor; cbn; lia. }
  assert (G : getNumMasters 5 w = 1%nat).
  { apply (H tie 5%nat 0%nat [FAdvance 4995] 3%nat w Sm); try lia.
    - intros i Hi Ne. unfold waits_until. destruct i as [|[|i]]; [contradiction| |]; cbn [tie s_draw Nat.eqb]; lia.
    - repeat constructor; cbn; lia.
    - unfold waits_until. cbn. lia.
    - cbn. lia.
    - intros i Hi. assert (A : match all_ids (calls_of i (f_log w)) with [] => true | [x] => negb (x =? 0) | _ => false end = true).
      { apply (ends_true _ _ _ (fun w => match all_ids (calls_of i (f_log w)) with [] => true | [x] => negb (x =? 0) | _ => false end) _ Sm).
        do 5 (destruct i as [|i]; [vm_compute; reflexivity|]). lia. }
      destruct (all_ids (calls_of i (f_log w))) as [|x [|y l]]; try discriminate.
      + intros a x b Q. destruct a; discriminate.
      + intros [|z a] v b Q; [|destruct a; discriminate]. injection Q as -> _. split; [lia|]. rewrite skipn_nil. intros [].
    - unfold waits_until. cbn. lia. }
  assert (F : negb (getNumMasters 5 w =? 1)%nat = true).
  { apply (ends_true _ _ _ (fun w => negb (getNumMasters 5 w =? 1)%nat) _ Sm). vm_compute. reflexivity. }
  rewrite G in F. discriminate.
Qed.
Print Assumptions C118_one_master_without_a_first_refuted.

Lemma runTicks_ok N n : Forall (fop_ok N) (runTicks n).
Proof. induction n as [|n IH]; [apply Forall_nil|]. cbn [runTicks]. apply Forall_cons; [cbn; lia|]. apply Forall_cons; [exact I|exact IH]. Qed.

(** ** A node that repeats its packet ids does not stay alone *)
(** Every draw but the first is 7: the master gives all its packets the id 9,
    the other node takes only the first of them. *)
Definition parrot : source :=
  mkSource (fun k r => if Nat.eqb r 0 then match k with O => 0%N | _ => 1500%N end else 7%N) (fun r => N.of_nat r)
           (fun _ => mkOffsets 0 0 0) (fun _ => (0, 0, repeat 0 58, repeat 0 58)).

Lemma known_unheard n p : nm_wf (nm n) -> In (pid p) (window (nm n)) -> heard n (Some p) = None.
Proof. intros W I. unfold heard. apply (existsb_window _ _ W) in I. rewrite I. reflexivity. Qed.
Lemma pushed_known m x : nm_wf m -> In x (window (nm_push m x)).
Proof.
  intros W. destruct (nm_add_ok m x W) as (m' & E & _ & V). rewrite (nm_add_push m x W) in E. injection E as <-.
  rewrite V. apply in_or_app. right. left. reflexivity.
Qed.

Definition babbling (n : node) : Prop := state n = Master /\ In 9 (window (nm n)) /\ (1 <= rng n)%nat.
Lemma parrot_draw k r : (1 <= r)%nat -> id_of Host (s_draw parrot k r) = 9.
Proof. intros H. unfold parrot. cbn [s_draw]. destruct (Nat.eqb_spec r 0); [lia|]. reflexivity. Qed.
Lemma babbling_tick k t n inc out n' : nodeok n -> inc_sound inc -> 0 <= t < 4294967296 -> babbling n -> (forall p, inc = Some p -> pid p = 9) ->
  tick (env_of parrot k) t n inc out n' -> babbling n' /\ (forall x, In x out -> pid (rtx_packet x) = 9).
Proof.
  intros Nk Is Ht (St & In9 & R) I T. pose proof (g_nm _ (proj1 Nk)) as W.
  assert (H : heard n inc = None) by (destruct inc as [p|]; [|reflexivity]; apply known_unheard; [exact W|rewrite (I p eq_refl); exact In9]).
  assert (Fr : RsmStep.fresh (env_of parrot k) n = 9) by (apply parrot_draw; exact R).
  assert (Pk : pick_id (env_of parrot k) n = 9) by (apply parrot_draw; lia).
  inversion T; subst; try congruence.
  - split; [repeat split; assumption|intros x []].
  - split; [|intros x [<-|[]]; exact Fr]. split; [exact St|]. split; [rewrite Fr; apply (pushed_known (nm n) 9 W)|cbn; lia].
  - split; [|intros x [<-|[]]; exact Pk]. split; [exact St|]. split; [rewrite Pk; apply (pushed_known (nm n) 9 W)|cbn; lia].
  - split; [|intros x [<-|[]]; exact Fr]. split; [exact St|]. split; [rewrite Fr; apply (pushed_known (nm n) 9 W)|cbn; lia].
Qed.

(** Node 0 babbles, node 1 is deaf to it and waits until [due]. *)
Record deaf (due : Z) (w : fakenet) : Prop := mkDeaf {
  d_ok : ok 2 w;
  d_names : forall i, (i < 2)%nat -> f_name w i = i;
  d_ticked : forall i, (i < 2)%nat -> f_ticked w i = true;
  d_loss : f_loss w = 0;
  d_cells : forall o p, match o with Radio i => (i < 2)%nat | Before => False | Air => True end -> cell w o = Some p -> pid p = 9;
  d_master : babbling (f_node w 0%nat);
  d_slave : state (f_node w 1%nat) = Slave /\ In 9 (window (nm (f_node w 1%nat))) /\ t_hb (f_node w 1%nat) = due /\ (1 <= rng (f_node w 1%nat))%nat
}.


Lemma deaf_hears due w i p : deaf due w -> receives parrot w i = Some p -> pid p = 9.
Proof.
  intros D. unfold receives. destruct (keeps _ _ _ _); [|discriminate]. destruct (cell w Air) as [q|] eqn:E; [|discriminate]. intros [= <-].
  exact (d_cells _ _ D Air q I E).
Qed.

Lemma after_out_all (Q : packet -> Prop) out slot p : (forall q, slot = Some q -> Q q) -> (forall x, In x out -> Q (rtx_packet x)) ->
  after_out slot out = Some p -> Q p.
Proof.
  revert slot. induction out as [|x out IH]; intros slot H0 H1 E; [apply H0; exact E|]. cbn in E.
  apply (IH (Some (rtx_packet x))); [intros q [= <-]; apply H1; left; reflexivity|intros y Hy; apply H1; right; exact Hy|exact E].
Qed.

Lemma deaf_round due w w' : deaf due w -> 0 < due < 4294967295 -> 0 < f_clock w <= due + 1 -> FakeTick parrot 2 w = Ok w' ->
  f_clock w' = f_clock w /\ (f_clock w <= due -> deaf due w') /\
  (f_clock w = due + 1 -> GetCurrentState (f_node w' 0%nat) = Master /\ GetCurrentState (f_node w' 1%nat) = Master).
Proof.
  intros D Bd [C0 C1] E. pose proof D as [K Nm Tk Ls Ce Ma (S1 & S2 & S3 & S4)].
  destruct (FakeTick_ok parrot 2 w K) as (evs & w1 & E1 & K1 & Tm & _ & Nm' & _ & Ls' & _ & Ck & Res).
  rewrite E in E1. injection E1 as <-. split; [exact Ck|].
  assert (P9 : forall i p, receives parrot w i = Some p -> pid p = 9) by (intros i p; apply (deaf_hears due w i p D)).
  (* the master *)
  destruct (Tm 0%nat ltac:(lia)) as [E0 T0']. rewrite (Tk 0%nat) in E0 by lia. unfold machine in E0. rewrite (u32_id (f_clock w)) in E0 by lia.
  pose proof (receives_sound parrot 2 w 0%nat K) as I0.
  destruct (nodeok_runs (env_of parrot (f_name w 0%nat)) (f_clock w) (f_node w 0%nat) (receives parrot w 0%nat) eq_refl (k_nodes _ _ K 0%nat ltac:(lia)) I0 ltac:(lia)) as (a1 & b1 & R1 & T1).
  rewrite R1 in E0. destruct (tick_nodeok _ (f_clock w) _ _ _ _ (k_nodes _ _ K 0%nat ltac:(lia)) I0 ltac:(lia) T1) as [Na1 _].
  destruct (nodeok_runs (env_of parrot (f_name w 0%nat)) (f_clock w) a1 (receives parrot w 0%nat) eq_refl Na1 I0 ltac:(lia)) as (a2 & b2 & R2 & T2).
  rewrite R2 in E0. injection E0 as E0 Ev0.
  destruct (babbling_tick _ (f_clock w) _ _ _ _ (k_nodes _ _ K 0%nat ltac:(lia)) I0 ltac:(lia) Ma (P9 0%nat) T1) as [Ba1 Bo1].
  destruct (babbling_tick _ (f_clock w) _ _ _ _ Na1 I0 ltac:(lia) Ba1 (P9 0%nat) T2) as [Ba2 Bo2].
  (* the slave *)
  destruct (Tm 1%nat ltac:(lia)) as [E2 T2']. rewrite (Tk 1%nat) in E2 by lia. unfold machine in E2. rewrite (u32_id (f_clock w)) in E2 by lia.
  pose proof (receives_sound parrot 2 w 1%nat K) as I1.
  destruct (nodeok_runs (env_of parrot (f_name w 1%nat)) (f_clock w) (f_node w 1%nat) (receives parrot w 1%nat) eq_refl (k_nodes _ _ K 1%nat ltac:(lia)) I1 ltac:(lia)) as (c1 & d1 & R3 & T3).
  assert (H1 : heard (f_node w 1%nat) (receives parrot w 1%nat) = None).
  { destruct (receives parrot w 1%nat) as [p|] eqn:Er; [|reflexivity]. apply known_unheard; [apply (g_nm _ (proj1 (k_nodes _ _ K 1%nat ltac:(lia))))|].
    rewrite (P9 1%nat p Er). exact S2. }
  rewrite R3 in E2. split.
  - intros L. destruct (not_due_slave _ (f_clock w) (f_node w 1%nat) (receives parrot w 1%nat) S1 ltac:(lia) ltac:(lia) H1 _ _ T3) as [-> ->].
    rewrite R3 in E2. injection E2 as E2 Ev1. constructor; auto.
    + intros i Hi. rewrite Nm'. auto.
    + intros i Hi. apply (Tm i Hi).
    + congruence.
    + assert (Full : forall i p, (i < 2)%nat -> after_out (cell w (Radio i)) (outs (evs i)) = Some p -> pid p = 9).
      { intros i p Hi. apply (after_out_all (fun p => pid p = 9)); [intros q; apply (Ce (Radio i)); exact Hi|].
        assert (i = 0 \/ i = 1)%nat as [-> | ->] by lia.
        - rewrite <- Ev0. unfold outs. cbn [map concat sent]. rewrite app_nil_r. intros x I. apply in_app_or in I as [I|I]; auto.
        - rewrite <- Ev1. intros x []. }
      cbv zeta in Res. intros o p Ho Hc. pose proof (first_some (fun i => is_some (after_out (cell w (Radio i)) (outs (evs i)))) 2) as FS.
      destruct (find _ (seq 0 2)) as [j|].
      * destruct Res as [RA RR]. destruct FS as (Lj & _). destruct o as [| |i]; [rewrite RA in Hc; exact (Full j p Lj Hc)|destruct Ho|].
        rewrite RR in Hc by exact Ho. destruct (Nat.eqb i j); [discriminate|]. exact (Full i p Ho Hc).
      * destruct Res as [RA RR]. destruct o as [| |i]; [congruence|destruct Ho|]. rewrite RR in Hc by exact Ho. discriminate.
    + rewrite <- E0. exact Ba2.
    + rewrite <- E2. auto.
  - intros L. unfold GetCurrentState. split; [rewrite <- E0; apply Ba2|].
    destruct (tick_nodeok _ (f_clock w) _ _ _ _ (k_nodes _ _ K 1%nat ltac:(lia)) I1 ltac:(lia) T3) as [Nc1 _].
    destruct (nodeok_runs (env_of parrot (f_name w 1%nat)) (f_clock w) c1 (receives parrot w 1%nat) eq_refl Nc1 I1 ltac:(lia)) as (c2 & d2 & R4 & T4).
    rewrite R4 in E2. injection E2 as E2 _. rewrite <- E2. rewrite Nm in * by lia.
    assert (Du : timer_due (f_clock w) (t_hb (f_node w 1%nat)) = true) by (apply timer_due_iff; lia).
    assert (Bc : babbling c1).
    { inversion T3; subst; try congruence; [destruct H0; congruence|].
      assert (Fr : RsmStep.fresh (env_of parrot 1) (f_node w 1%nat) = 9) by (apply parrot_draw; exact S4). rewrite Fr.
      split; [reflexivity|]. split; [apply (pushed_known (nm (f_node w 1%nat)) 9), (g_nm _ (proj1 (k_nodes _ _ K 1%nat ltac:(lia))))|cbn; lia]. }
    apply (babbling_tick _ (f_clock w) _ _ _ _ Nc1 I1 ltac:(lia) Bc (P9 1%nat) T4).
Qed.

Lemma deaf_rounds k : forall due w w', deaf due w -> 0 < due < 4294967295 -> 0 < f_clock w -> f_clock w + Z.of_nat k = due + 1 -> (0 < k)%nat ->
  fsteps parrot 2 (runTicks k) w = Ok w' ->
  GetCurrentState (f_node w' 0%nat) = Master /\ GetCurrentState (f_node w' 1%nat) = Master.
Proof.
  induction k as [|k IH]; intros due w w' D Bd C0 C1 Kp E; [lia|].
  cbn [runTicks fsteps fstep obind] in E.
  assert (D0 : deaf due (advanceMillis 1 w)).
  { destruct D as [[[? ? ? ?] ? ?] ? ? ? ? ? ?]. constructor; auto. constructor; [constructor|..]; auto. cbn. lia. }
  destruct (FakeTick parrot 2 (advanceMillis 1 w)) as [w1| |] eqn:E1; try discriminate. cbn [obind] in E.
  assert (Ca : f_clock (advanceMillis 1 w) = f_clock w + 1) by reflexivity.
  destruct (deaf_round due _ w1 D0 Bd ltac:(lia) E1) as (Ck & St & Fin).
  destruct k as [|k].
  - cbn in E. injection E as <-. apply Fin. lia.
  - apply (IH due w1 w'); auto; try lia. apply St. lia.
Qed.

Lemma runTicks_add a b : runTicks (a + b) = runTicks a ++ runTicks b.
Proof. induction a as [|a IH]; [reflexivity|]. cbn [Nat.add runTicks app]. rewrite IH. reflexivity. Qed.

Lemma simulated_rest s N a b v w : simulated s N a v -> simulated s N (a ++ b) w -> fsteps s N b v = Ok w.
Proof.
  intros (_ & _ & _ & Ev) (_ & _ & _ & Em). unfold frun in *. destruct (FakeNetwork s N) as [w0| |]; try discriminate. cbn [obind] in *.
  rewrite fsteps_app, Ev in Em. exact Em.
Qed.

Lemma two_masters w : GetCurrentState (f_node w 0%nat) = Master -> GetCurrentState (f_node w 1%nat) = Master -> getNumMasters 2 w = 2%nat.
Proof. intros M0 M1. unfold getNumMasters. cbn [seq filter]. rewrite M0, M1. reflexivity. Qed.
Definition pid9 (o : option packet) : bool := match o with Some p => pid p =? 9 | None => true end.
Definition knows9 (n : node) : bool := existsb (Z.eqb 9) (window (nm n)) && (1 <=? rng n)%nat.
Definition deafb (due : Z) (w : fakenet) : bool :=
  (f_name w 0 =? 0)%nat && (f_name w 1 =? 1)%nat && f_ticked w 0%nat && f_ticked w 1%nat && (f_loss w =? 0) &&
  pid9 (cell w Air) && pid9 (cell w (Radio 0)) && pid9 (cell w (Radio 1)) &&
  role_eqb (state (f_node w 0%nat)) Master && knows9 (f_node w 0%nat) &&
  role_eqb (state (f_node w 1%nat)) Slave && knows9 (f_node w 1%nat) && (t_hb (f_node w 1%nat) =? due).
Lemma knows9_ok n : knows9 n = true -> In 9 (window (nm n)) /\ (1 <= rng n)%nat.
Proof.
  unfold knows9. intros H. apply andb_true_iff in H as [H1 H2]. apply existsb_exists in H1 as (x & I & E). apply Z.eqb_eq in E. subst x.
  split; [exact I|]. apply Nat.leb_le. exact H2.
Qed.
Lemma role_eqb_eq a b : role_eqb a b = true -> a = b.
Proof. destruct a, b; try discriminate; reflexivity. Qed.
Lemma pid9_ok o p : pid9 o = true -> o = Some p -> pid p = 9.
Proof. intros H ->. apply Z.eqb_eq. exact H. Qed.
Lemma deafb_ok due w : ok 2 w -> deafb due w = true -> deaf due w.
Proof.
  intros K H. unfold deafb in H. repeat (apply andb_true_iff in H as [H ?]).
  repeat match goal with X : knows9 _ = true |- _ => apply knows9_ok in X; destruct X end.
  repeat match goal with X : role_eqb _ _ = true |- _ => apply role_eqb_eq in X end.
  repeat match goal with X : (_ =? _)%nat = true |- _ => apply Nat.eqb_eq in X end.
  repeat match goal with X : (_ =? _) = true |- _ => apply Z.eqb_eq in X end.
  constructor; auto.
  - intros i Hi. assert (i = 0 \/ i = 1)%nat as [-> | ->] by lia; assumption.
  - intros i Hi. assert (i = 0 \/ i = 1)%nat as [-> | ->] by lia; assumption.
  - intros [| |i] p Ho; [|destruct Ho|assert (i = 0 \/ i = 1)%nat as [-> | ->] by lia]; apply pid9_ok; assumption.
  - repeat split; assumption.
Qed.

Theorem C118_one_master_with_repeated_ids_refuted : ~ (forall s N m os k w,
  simulated s N (os ++ runTicks k) w -> (m < N)%nat -> (N <= 900)%nat ->
  (forall i, (i < N)%nat -> i <> m -> waits_until s m < waits_until s i) ->
  Forall idle os -> Z.of_nat N + passed os <= waits_until s m ->
  Z.of_nat N + passed os + Z.of_nat k < 4294967296 - 70000 ->
  waits_until s m < Z.of_nat N + passed os + Z.of_nat k ->
  getNumMasters N w = 1%nat).
Proof.
  intros H. assert (J : junk_ok parrot) by (intros k; cbn -[wf_packet]; split; apply wf_packetb_ok; vm_compute; reflexivity).
  destruct (simulated_exists parrot 2 ([FAdvance 4998] ++ runTicks 20) J ltac:(lia)) as [v Sv].
  { apply Forall_app. split; [repeat constructor; cbn; lia|apply runTicks_ok]. }
  destruct (simulated_exists parrot 2 ([FAdvance 4998] ++ runTicks (20 + Z.to_nat 4991)) J ltac:(lia)) as [w Sm].
  { apply Forall_app. split; [repeat constructor; cbn; lia|apply runTicks_ok]. }
  assert (G : getNumMasters 2 w = 1%nat).
  { apply (H parrot 2%nat 0%nat [FAdvance 4998] (20 + Z.to_nat 4991)%nat w Sm); try lia.
    - intros i Hi Ne. unfold waits_until. destruct i as [|i]; [contradiction|]; cbn [parrot s_draw Nat.eqb]; lia.
    - repeat constructor; cbn; lia.
    - unfold waits_until. cbn. lia.
    - cbn [passed fold_right]. lia.
    - unfold waits_until. cbn [passed fold_right parrot s_draw Nat.eqb]. lia. }
  assert (B : deafb 10010 v && (f_clock v =? 5020) = true).
  { apply (ends_true _ _ _ (fun v => deafb 10010 v && (f_clock v =? 5020)) _ Sv). vm_compute. reflexivity. }
  apply andb_true_iff in B as [B Cv]. apply Z.eqb_eq in Cv.
  assert (E : fsteps parrot 2 (runTicks (Z.to_nat 4991)) v = Ok w).
  { apply (simulated_rest _ _ _ _ _ _ Sv). rewrite <- app_assoc, <- runTicks_add. exact Sm. }
  destruct (deaf_rounds (Z.to_nat 4991) 10010 v w (deafb_ok _ _ (proj1 (simulated_ok _ _ _ _ Sv)) B) ltac:(lia) ltac:(lia) ltac:(lia) ltac:(lia) E) as [M0 M1].
  assert (G2 : getNumMasters 2 w = 2%nat) by (apply two_masters; assumption). congruence.
Qed.
Print Assumptions C118_one_master_with_repeated_ids_refuted.

(** ** The hypotheses are met *)
(** Node 3 waits least; it sends a heartbeat before the end. *)
Fixpoint distinctb (before ids : list Z) : bool :=
  match ids with
  | [] => true
  | x :: rest => negb (x =? 0) && negb (existsb (Z.eqb x) before) && distinctb (before ++ [x]) rest
  end.
Lemma distinctb_ok ids : distinctb [] ids = true -> distinct_ids ids.
Proof.
  assert (G : forall l bef, distinctb bef l = true -> forall a x b, l = a ++ x :: b -> x <> 0 /\ ~ In x (bef ++ a)).
  { induction l as [|y l IH]; intros bef D a x b E; [destruct a; discriminate|]. cbn [distinctb] in D. apply andb_true_iff in D as [D D3].
    apply andb_true_iff in D as [D1 D2]. destruct a as [|z a].
    - injection E as -> _. split; [lia|]. rewrite app_nil_r. intros I. apply negb_true_iff in D2.
      assert (X : existsb (Z.eqb x) bef = true) by (apply existsb_exists; exists x; split; [exact I|apply Z.eqb_refl]). congruence.
    - injection E as -> E. specialize (IH _ D3 a x b E). rewrite <- app_assoc in IH. exact IH. }
  intros D a x b E. destruct (G ids [] D a x b E) as [H0 H1]. split; [exact H0|]. intros I. apply H1. cbn [app].
  rewrite <- (firstn_skipn (length a - 24) a). apply in_or_app. right. exact I.
Qed.

Example C118_one_master_inhabited : exists w,
  simulated (plain 3 1500) 5 ([FTick; FAdvance 4995; FTick] ++ runTicks 40) w /\
  (forall i, (i < 5)%nat -> i <> 3%nat -> waits_until (plain 3 1500) 3 < waits_until (plain 3 1500) i) /\
  5 + passed [FTick; FAdvance 4995; FTick] <= waits_until (plain 3 1500) 3 /\
  distinct_ids (all_ids (calls_of 3 (f_log w))) /\ length (all_ids (calls_of 3 (f_log w))) = 1%nat.
Proof.
  destruct (simulated_exists (plain 3 1500) 5 ([FTick; FAdvance 4995; FTick] ++ runTicks 40)) as [w Sm].
  { apply plain_junk. } { lia. }
  { apply Forall_app. split; [repeat constructor; cbn; lia|apply runTicks_ok]. }
  exists w. split; [exact Sm|]. split; [|split; [|split]].
  - intros i Hi Ne. unfold waits_until. cbn [plain s_draw Nat.eqb]. destruct (Nat.eqb_spec i 3); [contradiction|]. cbn. lia.
  - unfold waits_until. cbn. lia.
  - apply distinctb_ok. apply (ends_true _ _ _ (fun w => distinctb [] (all_ids (calls_of 3 (f_log w)))) _ Sm). vm_compute. reflexivity.
  - apply Nat.eqb_eq. apply (ends_true _ _ _ (fun w => (length (all_ids (calls_of 3 (f_log w))) =? 1)%nat) _ Sm). vm_compute. reflexivity.
Qed.
