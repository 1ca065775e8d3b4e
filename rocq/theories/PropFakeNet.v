(** C117: what the simulated network of the integration tests does.  Model:
    FakeNet.v. *)
From Coq Require Import ZArith NArith Lia List Bool.
From Coq Require Import ZifyBool.
From Verif Require Import CInt CIntFacts Packet SpecPacket PacketFacts NetMgr NetHist SpecNet NetFacts Rsm RsmStep RsmEval RsmRun RsmHist SpecRsm RsmFacts.
From Verif Require Import Fastled Palette Device LedMgr Effects Show ShowFacts Bench FakeNet FakeNetFacts PropNetTime.
Import ListNotations.
Open Scope Z_scope.
Ltac Zify.zify_post_hook ::= Z.div_mod_to_equations.

(** A test made a network of [N] nodes and did [os] to it, and now it is [w].
    Indices exist, times do not run backwards, packets are values of their type,
    and uninitialised memory holds bytes. *)
Definition simulated (s : source) (N : nat) (os : list fop) (w : fakenet) : Prop :=
  junk_ok s /\ Z.of_nat N < 4000000000 /\ Forall (fop_ok N) os /\ frun s N os = Ok w.

Lemma simulated_ok s N os w : simulated s N os w -> ok N w /\ traced s N w.
Proof.
  intros (J & B & F & E). destruct (frun_ok s N os J B F) as (w' & E' & K & T). rewrite E in E'. injection E' as <-. auto.
Qed.

(** For the examples: numbers that do not depend on anything, except that node
    [fast] draws 0 for its first wait and the others draw [slow]. *)
Definition plain (fast : nat) (slow : N) : source :=
  mkSource (fun k r => if Nat.eqb r 0 then if Nat.eqb k fast then 0%N else slow else N.of_nat (100 * k + r + 7)) (fun r => N.of_nat r)
           (fun _ => mkOffsets 0 0 0) (fun _ => (0, 0, repeat 0 58, repeat 0 58)).
Lemma plain_junk f d : junk_ok (plain f d).
Proof. intros k. cbn -[wf_packet]. split; apply wf_packetb_ok; vm_compute; reflexivity. Qed.

(** ** No test can make the simulation misbehave *)
Theorem C117_the_simulation_is_sound : forall s N os,
  junk_ok s -> Z.of_nat N < 4000000000 -> Forall (fop_ok N) os ->
  exists w, frun s N os = Ok w /\
  exists w', FakeDestroy N w = Ok w' /\ forall a, f_heap w' a = None.
Proof.
  intros s N os J B F. destruct (frun_ok s N os J B F) as (w & E & K & T). exists w. split; [exact E|]. exact (FakeDestroy_ok N w K).
Qed.
Print Assumptions C117_the_simulation_is_sound.

(** ** One round *)
Definition on_air (w : fakenet) : option packet := cell w Air.
Definition waiting (w : fakenet) (i : nat) : option packet := cell w (Radio i).
(** The packet as a receiver sees it: the bytes behind its data are zero. *)
Definition seen_as (p q : packet) : Prop :=
  pid q = pid p /\ ptype q = ptype p /\ dlen q = dlen p /\ length (pdata q) = 58%nat /\
  forall j, nth j (pdata q) 0 = if Z.of_nat j <? dlen p then nth j (pdata p) 0 else 0.
(** The last packet transmitted in the calls [evs], or [old]. *)
Definition last_sent (old : option packet) (evs : list event) : option packet :=
  match rev (flat_map sent evs) with [] => old | x :: _ => Some (rtx_packet x) end.

Lemma after_out_last old evs : after_out old (outs evs) = last_sent old evs.
Proof.
  unfold last_sent, outs. rewrite flat_map_concat_map. generalize (concat (map sent evs)). intros l. unfold after_out.
  rewrite <- (rev_involutive l) at 1. destruct (rev l) as [|x r]; [reflexivity|]. cbn [rev]. rewrite fold_left_app. reflexivity.
Qed.

Lemma not_some {A} (x : option A) : is_some x = false -> x = None.
Proof. destruct x; [discriminate|reflexivity]. Qed.

Theorem C117_one_round : forall s N os w, simulated s N os w ->
  exists w' new, FakeTick s N w = Ok w' /\ f_log w' = f_log w ++ new /\ f_clock w' = f_clock w /\
  (forall i, (i < N)%nat ->
     exists inc,
       (forall q, inc = Some q -> exists p, on_air w = Some p /\ seen_as p q) /\
       (f_loss w = 0 -> inc = None -> on_air w = None) /\
       let evs := calls_of (f_name w i) new in
       evs <> [] /\ (length evs <= 2)%nat /\
       (f_ticked w i = true -> length evs = 2%nat) /\
       Forall (fun ev => call ev = OTick inc /\ at_ ev = f_clock w) evs) /\
  let full i := last_sent (waiting w i) (calls_of (f_name w i) new) in
  ((on_air w' = None /\ forall i, (i < N)%nat -> full i = None /\ waiting w' i = None) \/
   exists k, (k < N)%nat /\ full k <> None /\ on_air w' = full k /\ waiting w' k = None /\
     (forall i, (i < k)%nat -> full i = None) /\
     (forall i, (i < N)%nat -> i <> k -> waiting w' i = full i)).
Proof.
  intros s N os w Sm. destruct (simulated_ok _ _ _ _ Sm) as [K T].
  destruct (FakeTick_ok s N w K) as (evs & w' & E & K' & Tk & Lg & Nm & Bn & _ & _ & Ck & Res).
  set (new := flat_map (fun i => map (pair (f_name w i)) (evs i)) (seq 0 N)) in *.
  assert (Mine : forall i, (i < N)%nat -> calls_of (f_name w i) new = evs i).
  { intros i Hi. destruct (calls_of_round (f_name w) evs N (f_name w i) (t_inj s N w T)) as [R _]. apply R; [exact Hi|reflexivity]. }
  exists w', new. split; [exact E|]. split; [exact Lg|]. split; [exact Ck|]. split.
  - intros i Hi. exists (receives s w i). split; [|split].
    + intros q. unfold receives. destruct (keeps s _ _ i); [|discriminate]. unfold on_air. destruct (cell w Air) as [p|] eqn:Ea; [|discriminate].
      cbn. intros [= <-]. exists p. split; [reflexivity|]. pose proof (cell_air_sound _ _ _ (k_mem _ _ K) Ea) as So.
      repeat (split; [reflexivity|]). split; [apply zero_tail_length; exact So|]. intros j. apply zero_tail_nth. exact So.
    + intros L. unfold receives, keeps, on_air. rewrite L. cbn. destruct (cell w Air); [discriminate|reflexivity].
    + cbv zeta. rewrite Mine by exact Hi. destruct (Tk i Hi) as [Tm _]. unfold machine in Tm.
      destruct (RadioTick _ _ _ (f_node w i)) as [[[[] n1] o1]| |]; try discriminate. destruct (f_ticked w i).
      * destruct (RadioTick _ _ _ n1) as [[[[] n2] o2]| |]; try discriminate. injection Tm as _ <-.
        split; [discriminate|]. split; [cbn; lia|]. split; [reflexivity|]. repeat constructor.
      * injection Tm as _ <-. split; [discriminate|]. split; [cbn; lia|]. split; [discriminate|]. repeat constructor.
  - cbv zeta in Res |- *.
    assert (Full : forall i, (i < N)%nat -> last_sent (waiting w i) (calls_of (f_name w i) new) = after_out (cell w (Radio i)) (outs (evs i))).
    { intros i Hi. rewrite Mine by exact Hi. symmetry. apply after_out_last. }
    destruct (find _ (seq 0 N)) as [k|] eqn:Ef; destruct Res as [Ra Rr].
    + right. exists k. pose proof (find_some _ _ Ef) as [Ik Fk]. apply in_seq in Ik.
      split; [lia|]. rewrite Full by lia. split; [cbn beta in Fk; intros X; rewrite X in Fk; discriminate|]. split; [exact Ra|].
      split; [unfold waiting; rewrite Rr, Nat.eqb_refl by lia; reflexivity|]. split.
      * intros i Hi. rewrite Full by lia.
        assert (X : is_some (after_out (cell w (Radio i)) (outs (evs i))) = false).
        { destruct (is_some (after_out (cell w (Radio i)) (outs (evs i)))) eqn:Ei; [|reflexivity]. exfalso.
          assert (Y : seq 0 N = seq 0 k ++ seq k (N - k)) by (rewrite <- seq_app; f_equal; lia).
          assert (In_i : In i (seq 0 k)) by (apply in_seq; lia).
          assert (Z : exists j, find (fun i => is_some (after_out (cell w (Radio i)) (outs (evs i)))) (seq 0 k) = Some j).
          { destruct (find _ (seq 0 k)) eqn:Ez; [eauto|]. pose proof (find_none _ _ Ez i In_i) as Q. cbn beta in Q. congruence. }
          destruct Z as [j Ej]. pose proof (find_some _ _ Ej) as [Ij _]. apply in_seq in Ij.
          rewrite Y in Ef. assert (W : forall (f : nat -> bool) a b x, find f a = Some x -> find f (a ++ b) = Some x).
          { intros f a b x. induction a as [|y a IHa]; [discriminate|]. cbn. destruct (f y); [auto|apply IHa]. }
          rewrite (W _ _ _ _ Ej) in Ef. injection Ef as <-. lia. }
        apply not_some. exact X.
      * intros i Hi Ne. rewrite Full by exact Hi. unfold waiting. rewrite Rr by exact Hi. destruct (Nat.eqb_spec i k); [contradiction|reflexivity].
    + left. split; [exact Ra|]. intros i Hi. rewrite Full by exact Hi. split; [|apply Rr; exact Hi].
      assert (Ii : In i (seq 0 N)) by (apply in_seq; lia). pose proof (find_none _ _ Ef i Ii) as Q. cbn beta in Q.
      apply not_some. exact Q.
Qed.
Print Assumptions C117_one_round.

(** ** Everything proved about nodes and their networks holds in the simulation *)
Theorem C117_the_simulation_is_a_run : forall s N os w, simulated s N os w ->
  exists start,
    is_run (mkNetwork (env_of s) start (fun _ => 0) (fun _ => [])) (f_log w) /\
    forall i, (i < N)%nat -> hist (env_of s (f_name w i)) (start (f_name w i)) (calls_at (f_name w i) (f_log w)) (f_node w i).
Proof.
  intros s N os w Sm. pose proof Sm as (J & _). destruct (simulated_ok _ _ _ _ Sm) as [K T]. destruct T as [TN TI TH TW TL TA].
  exists (fun k => match calls_of k (f_log w) with ev :: _ => at_ ev | [] => 0 end). split.
  - intros k. cbn [n_env n_start n_past app]. change (calls_at k (f_log w)) with (calls_of k (f_log w)).
    destruct (le_lt_dec (f_born w) k) as [Hk|Hk].
    + rewrite (TW k Hk). split; [|intros ev p []]. specialize (J k). exists (bare s k 0). unfold bare.
      destruct (s_junk s k) as [[[ty1 ty2] d1] d2]. destruct J as [J1 J2].
      apply (hist_start _ _ ty1 ty2 d1 d2); [lia|exact J1|exact J2|]. rewrite construct_eq. reflexivity.
    + destruct (TH k Hk) as (t0 & n & B & (ev & rest & Ec & Et) & H & F). rewrite Ec in *. rewrite Et. split; [exists n; exact H|].
      intros ev' p I C. exfalso. rewrite <- Ec in I. apply calls_of_in in I. exact (TA _ p I C).
  - intros i Hi. change (calls_at (f_name w i) (f_log w)) with (calls_of (f_name w i) (f_log w)).
    destruct (TH (f_name w i) (TN i Hi)) as (t0 & n & B & (ev & rest & Ec & Et) & H & F). rewrite Ec in *. rewrite Et.
    rewrite <- (F i Hi eq_refl). exact H.
Qed.
Print Assumptions C117_the_simulation_is_a_run.

(** ** A packet a test injects reaches nobody *)
Theorem C117_injected_packets_reach_nobody : forall s N os w, simulated s N os w ->
  exists v, simulated s N (filter (fun o => negb (is_transmit o)) os) v /\
    f_log v = f_log w /\ f_clock v = f_clock w /\ on_air v = on_air w /\
    forall i, (i < N)%nat -> f_node v i = f_node w i /\ waiting v i = waiting w i.
Proof.
  intros s N os w (J & B & F & E). unfold frun in E. destruct (FakeNetwork_ok s N J B) as (w0 & E0 & K0 & T0 & _).
  rewrite E0 in E. cbn [obind] in E.
  destruct (fsteps_alike s N os J F w0 w0 K0 T0 K0 T0 (alike_refl N w0)) as (w' & v & E1 & E2 & A1 & A2 & A3 & A4 & A5 & A6 & A7).
  rewrite E in E1. injection E1 as <-. exists v. split.
  - split; [exact J|]. split; [exact B|]. split; [|unfold frun; rewrite E0; exact E2].
    rewrite Forall_forall in *. intros o I. apply filter_In in I as [I _]. apply F. exact I.
  - split; [congruence|]. split; [congruence|]. split; [symmetry; exact A7|]. intros i Hi. destruct (A1 i Hi) as (X1 & X2 & X3 & X4). auto.
Qed.
Print Assumptions C117_injected_packets_reach_nobody.

(** ** resetMaster resets node 0 or nobody *)
Theorem C117_resetMaster_resets_node_0_or_nobody : forall s N os w, simulated s N os w -> (0 < N)%nat ->
  exists w', resetMaster s N w = Ok w' /\
    (forall i, (0 < i < N)%nat -> f_node w' i = f_node w i /\ f_name w' i = f_name w i) /\
    (state (f_node w 0%nat) = Master -> state (f_node w' 0%nat) = Slave /\ f_name w' 0%nat = f_born w) /\
    (state (f_node w 0%nat) = Slave -> w' = w).
Proof.
  intros s N os w Sm HN. pose proof Sm as (J & _). destruct (simulated_ok _ _ _ _ Sm) as [K T].
  assert (Q : forall todo from v, state (f_node v 0%nat) = Slave ->
    loop todo from (fun i w => if role_eqb (GetCurrentState (f_node w 0%nat)) Master then reinitNode s i w else Ok w) v = Ok v).
  { induction todo as [|todo IH]; intros from v S0; [reflexivity|]. cbn [loop]. unfold GetCurrentState at 1. rewrite S0. cbn [role_eqb obind]. apply IH. exact S0. }
  unfold resetMaster. destruct (state (f_node w 0%nat)) eqn:S0.
  - exists w. split; [apply Q; exact S0|]. split; [auto|]. split; [discriminate|reflexivity].
  - destruct N as [|N]; [lia|]. cbn [loop]. unfold GetCurrentState at 1. rewrite S0. cbn [role_eqb].
    destruct (reinit_ok s (S N) w 0%nat J K T ltac:(lia)) as (w' & E & K' & T' & A1 & A2 & A3 & A4 & A5 & A6 & A7 & A8).
    rewrite E. cbn [obind].
    assert (S1 : state (f_node w' 0%nat) = Slave).
    { rewrite A1, PropBench.upd_same. unfold powered, bare. destruct (s_junk s (f_born w)) as [[[ty1 ty2] d1] d2]. reflexivity. }
    exists w'. split; [apply Q; exact S1|]. split; [|split; [|discriminate]].
    + intros i Hi. rewrite A1, A3, !PropBench.upd_other by lia. auto.
    + intros _. split; [exact S1|]. rewrite A3, PropBench.upd_same. reflexivity.
Qed.
Print Assumptions C117_resetMaster_resets_node_0_or_nobody.

Definition electing : list fop := [FTick; FAdvance 4995; FTick] ++ runTicks 20.

Lemma simulated_exists s N os : junk_ok s -> Z.of_nat N < 4000000000 -> Forall (fop_ok N) os -> exists w, simulated s N os w.
Proof.
  intros J B F. destruct (frun_ok s N os J B F) as (w & E & _). exists w. repeat (split; [assumption|]). exact E.
Qed.

(** [b] holds of the network after the test. *)
Definition ends (s : source) (N : nat) (os : list fop) (b : fakenet -> bool) : bool :=
  match frun s N os with Ok w => b w | _ => false end.
Lemma ends_true s N os b w : simulated s N os w -> ends s N os b = true -> b w = true.
Proof. intros (_ & _ & _ & E). unfold ends. rewrite E. auto. Qed.

Theorem C117_resetMaster_resets_the_master_refuted : ~ (forall s N os w w', simulated s N os w ->
  getNumMasters N w = 1%nat -> resetMaster s N w = Ok w' -> getNumMasters N w' = 0%nat).
Proof.
  intros H.
  destruct (simulated_exists (plain 3 1500) 5 electing) as [w Sm].
  { apply plain_junk. } { lia. } { cbn. repeat constructor; cbn; lia. }
  destruct (C117_resetMaster_resets_node_0_or_nobody _ _ _ _ Sm ltac:(lia)) as (w' & E & _ & _ & Same).
  assert (S0 : role_eqb (state (f_node w 0%nat)) Slave && (getNumMasters 5 w =? 1)%nat = true).
  { apply (ends_true _ _ _ (fun w => role_eqb (state (f_node w 0%nat)) Slave && (getNumMasters 5 w =? 1)%nat) _ Sm). vm_compute. reflexivity. }
  apply andb_true_iff in S0 as [S0 M1]. apply Nat.eqb_eq in M1.
  assert (S1 : state (f_node w 0%nat) = Slave) by (destruct (state (f_node w 0%nat)); [reflexivity|discriminate]).
  rewrite (Same S1) in E. specialize (H _ _ _ _ _ Sm M1 E). rewrite M1 in H. discriminate.
Qed.
Print Assumptions C117_resetMaster_resets_the_master_refuted.

(** ** Without packet loss a packet can still get lost *)
Definition still_there (w : fakenet) (p : packet) : Prop := on_air w = Some p \/ exists i, waiting w i = Some p.

Definition differs (p : packet) (o : option packet) : bool := match o with Some q => negb (pid q =? pid p) | None => true end.
Definition vanished (N : nat) (w : fakenet) (new : list (nat * event)) : bool :=
  existsb (fun ke => existsb (fun x => differs (rtx_packet x) (on_air w) && forallb (fun i => differs (rtx_packet x) (waiting w i)) (seq 0 N))
                             (sent (snd ke))) new.

Definition next_vanishes (w : fakenet) : bool :=
  match FakeTick (plain 3 1500) 5 w with Ok w' => vanished 5 w' (skipn (length (f_log w)) (f_log w')) | _ => false end.

Theorem C117_nothing_gets_lost_refuted : ~ (forall s N os w w' new, simulated s N os w ->
  (forall n, ~ In (FLoss n) os) -> FakeTick s N w = Ok w' -> f_log w' = f_log w ++ new ->
  forall k ev x, In (k, ev) new -> In x (sent ev) -> still_there w' (rtx_packet x)).
Proof.
  intros H.
  destruct (simulated_exists (plain 3 1500) 5 (electing ++ [FAdvance 2500])) as [w Sm].
  { apply plain_junk. } { lia. } { cbn. repeat constructor; cbn; lia. }
  destruct (C117_one_round _ _ _ _ Sm) as (w' & new & E & L & _).
  assert (No : forall n, ~ In (FLoss n) (electing ++ [FAdvance 2500])).
  { intros n I. cbn in I. repeat (destruct I as [I|I]; [discriminate|]). exact I. }
  assert (V : vanished 5 w' new = true).
  { assert (V : next_vanishes w = true) by (apply (ends_true _ _ _ next_vanishes _ Sm); vm_compute; reflexivity).
    unfold next_vanishes in V. rewrite E, L, skipn_app, skipn_all, Nat.sub_diag in V. exact V. }
  unfold vanished in V. apply existsb_exists in V as ([k ev] & I1 & V). apply existsb_exists in V as (x & I2 & V). cbn [snd] in I2.
  destruct (H _ _ _ _ _ _ Sm No E L k ev x I1 I2) as [A|[i A]].
  - unfold on_air in *. rewrite A in V. cbn in V. rewrite Z.eqb_refl in V. discriminate.
  - apply andb_true_iff in V as [_ V]. rewrite forallb_forall in V.
    assert (Hi : In i (seq 0 5)).
    { apply in_seq. destruct (le_lt_dec 5 i) as [Hi|Hi]; [|lia]. exfalso.
      destruct (FakeTick_ok (plain 3 1500) 5 w (proj1 (simulated_ok _ _ _ _ Sm))) as (evs & v & Ev & Kv & _). rewrite E in Ev. injection Ev as <-.
      unfold waiting, cell in A. cbn [ptr] in A. rewrite (m_out _ _ (k_mem _ _ Kv) i Hi) in A. discriminate. }
    specialize (V i Hi). rewrite A in V. cbn in V. rewrite Z.eqb_refl in V. discriminate.
Qed.
Print Assumptions C117_nothing_gets_lost_refuted.

(** ** The hypotheses are met *)
(** A test with loss, a reset node and an injected packet; the last round
    delivers the heartbeat of node 3 to the others. *)
Definition eventful : list fop :=
  electing ++ [FTransmit (mkPacket 9 7 200 (repeat 255 58)); FReinit 1; FLoss 10; FAdvance 1001; FTick].
Example C117_simulated_inhabited : exists w, simulated (plain 3 1500) 5 eventful w /\
  getNumMasters 5 w = 1%nat /\ on_air w <> None /\ (50 < length (f_log w))%nat /\ f_name w 1%nat = 5%nat.
Proof.
  destruct (simulated_exists (plain 3 1500) 5 eventful) as [w Sm].
  { apply plain_junk. } { lia. }
  { cbn. repeat (apply Forall_cons; [cbn; try lia; try exact I|]); [|apply Forall_nil|..]. apply wf_packetb_ok. vm_compute. reflexivity. }
  exists w. split; [exact Sm|].
  assert (B : (getNumMasters 5 w =? 1)%nat && is_some (on_air w) && (50 <? length (f_log w))%nat && (f_name w 1 =? 5)%nat = true).
  { apply (ends_true _ _ _ (fun w => (getNumMasters 5 w =? 1)%nat && is_some (on_air w) && (50 <? length (f_log w))%nat && (f_name w 1 =? 5)%nat) _ Sm).
    vm_compute. reflexivity. }
  rewrite !andb_true_iff in B. destruct B as [[[B1 B2] B3] B4]. apply Nat.eqb_eq in B1, B4. apply Nat.ltb_lt in B3.
  split; [exact B1|]. split; [|split; [exact B3|exact B4]]. intros X. rewrite X in B2. discriminate.
Qed.
