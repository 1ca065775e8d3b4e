(** C123, C124: when the master of the simulated network transmits, when nothing
    is in the air, and what follows for two of the integration tests.
    Model: FakeNet.v. *)
From Coq Require Import ZArith NArith Lia List Bool.
From Coq Require Import ZifyBool.
From Verif Require Import CInt CIntFacts Packet SpecPacket PacketFacts NetMgr NetHist SpecNet NetFacts Rsm RsmStep RsmEval RsmRun RsmHist SpecRsm RsmFacts RsmTime RoleFacts.
From Verif Require Import Fastled Palette Device LedMgr Effects Show ShowFacts Bench FakeNet FakeNetFacts SimFacts PropFakeNet PropSim PropFailSim AgreeFacts AgreeRun PaceRun PropAgree Timetable.
Import ListNotations.
Open Scope Z_scope.
Ltac Zify.zify_post_hook ::= Z.div_mod_to_equations.

Lemma power_up_table : forall s N m os k w,
  simulated s N (os ++ runTicks k) w ->
  (m < N)%nat -> (N <= 900)%nat ->
  (forall i, (i < N)%nat -> i <> m -> waits_until s m < waits_until s i) ->
  Forall idle os -> Z.of_nat N + passed os <= waits_until s m ->
  Z.of_nat N + passed os + Z.of_nat k < 4294967296 - 70000 ->
  distinct_ids (all_ids (calls_of m (f_log w))) ->
  waits_until s m < Z.of_nat N + passed os + Z.of_nat k ->
  f_clock w = Z.of_nat N + passed os + Z.of_nat k /\
  exists n0, ce_takeover (waits_until s m + 1) n0 = 60000 /\ tabled (waits_until s) m n0 w (calls_of m (f_log w)) /\
  exists D T U fly j s1 h g a kills c,
      reign (fun i => i) (fun _ => []) N m w D T U fly j s1 h g a kills /\ drain N w U fly s1 c /\ latest (calls_of m (f_log w)) c.
Proof.
  intros s N m os k w (J & B & _ & E) Hm Sm First Idle B1 B2 Sp Hk.
  assert (First' : forall i, (i < N)%nat -> i <> m -> wait s m < wait s i) by (intros i Hi Ne; rewrite <- !waits_wait; auto).
  assert (Wm : 5001 <= wait s m <= Z.of_nat m + 7000) by (rewrite <- waits_wait; unfold waits_until; lia).
  assert (Ww : waits_until s m = wait s m) by apply waits_wait.
  unfold frun in E. destruct (FakeNetwork s N) as [w0| |] eqn:E0; try discriminate. cbn [obind] in E.
  destruct (calm_start s N w0 J B E0) as [C0 Ck0]. rewrite fsteps_app in E.
  destruct (FakeNetwork_ok s N J B) as (w' & E' & _ & _ & _ & _ & _ & _ & _ & Nd & Qu). rewrite E0 in E'. injection E' as <-.
  destruct (fsteps s N os w0) as [w1| |] eqn:E1; try discriminate. cbn [obind] in E.
  destruct (idle_calm s _ _ _ N m os ltac:(lia) Hm First' Idle w0 w1 C0 ltac:(lia) E1) as [C1 Ck1].
  destruct (idle_same s _ _ _ N m os ltac:(lia) Hm First' Idle w0 w1 C0 ltac:(lia) E1) as (Nd1 & evs & Ee & Oe). cbv beta in Ee.
  destruct (ticks_log s N k w1 w (c_ok _ _ _ _ _ C1) E) as (_ & Ck & _).
  assert (Q : f_node w0 m = powered s m (Z.of_nat m + 1)) by apply (Nd m Hm).
  assert (Se : seen_at (f_node w0 m) = 0) by (rewrite Q; unfold powered, bare; destruct (s_junk s m) as [[[ty1 ty2] d1] d2]; reflexivity).
  assert (Ce : ce_takeover (wait s m + 1) (f_node w0 m) = 60000).
  { unfold ce_takeover. rewrite Se, Z.sub_0_r, (u32_id (wait s m + 1)) by lia.
    destruct (Z.ltb_spec 60000 (wait s m + 1)); [lia|]. destruct (Z.eqb_spec (wait s m + 1) 60000); [lia|]. rewrite u32_id by lia. lia. }
  assert (H : table (fun i => i) (fun _ => []) (wait s) N m [] (f_node w0 m) w).
  { apply (table_ticks s (fun i => i) (fun _ => []) (wait s) N m ltac:(lia) Hm ltac:(lia) First' [] (f_node w0 m) ltac:(lia) k w1 w); [|lia|exact E|].
    - exists (calls_of m (f_log w1)). split; [reflexivity|]. left. split; [exact C1|]. split; [lia|]. split; [exact Nd1|].
      rewrite Ee, outs_app, Oe, app_nil_r. clear - Qu. unfold calls_of.
      induction Qu as [|[i x] log H F IH]; [reflexivity|]. cbn [filter fst]. destruct (i =? m)%nat; [|exact IH].
      cbn [map snd]. unfold outs. cbn [map concat]. cbn in H. rewrite H. exact IH.
    - intros own Eo. apply unused_start. cbn [app] in Eo. rewrite <- Eo. exact Sp. }
  split; [lia|]. exists (f_node w0 m). split; [rewrite Ww; exact Ce|].
  destruct H as (new & En & [(C & Hc & _)|(Hc & Tb & Rest)]); [lia|]. cbn [app] in En. rewrite <- En in Tb, Rest.
  split; [|exact Rest]. destruct Tb as [T1 T2 T3]. rewrite <- Ww in T1, T2, T3. constructor; assumption.
Qed.

(** ** The timetable *)
(** The master of a simulated network, which takes over at [t0], transmits its
    heartbeats exactly at t0, t0 + 1001, t0 + 2002 and so on.  It repeats its
    effect 2001 ms after the take-over and then every 2001 ms, a millisecond
    later when a heartbeat and a new effect (C122) both fall on that moment. *)
Theorem C124_when_the_master_transmits : forall s N m os k w,
  simulated s N (os ++ runTicks k) w ->
  (m < N)%nat -> (N <= 900)%nat ->
  (forall i, (i < N)%nat -> i <> m -> waits_until s m < waits_until s i) ->
  Forall idle os -> Z.of_nat N + passed os <= waits_until s m ->
  let now := Z.of_nat N + passed os + Z.of_nat k in
  now < 4294967296 - 70000 ->
  distinct_ids (all_ids (calls_of m (f_log w))) ->
  let t0 := waits_until s m + 1 in
  t0 <= now ->
  let at_times kind := times kind (calls_of m (f_log w)) in
  at_times ByHeartbeat = map (fun j => t0 + 1001 * Z.of_nat j) (seq 0 (S (Z.to_nat ((now - t0) / 1001)))) /\
  (forall a x y b, t0 :: at_times ByRebroadcast = a ++ x :: y :: b ->
     y = x + 2001 \/ y = x + 2002 /\ In (x + 2001) (at_times ByHeartbeat) /\ In (x + 2001) (at_times ByChange)) /\
  now <= last (t0 :: at_times ByRebroadcast) 0 + 2001.
Proof.
  intros s N m os k w Sim Hm Sm First Idle B1 now B2 Di t0 Ht0 at_times.
  destruct (power_up_table s N m os k w Sim Hm Sm First Idle B1 B2 Di ltac:(subst t0 now; lia)) as (Ck & n0 & _ & [(q & Hb & _ & Hq) _ (R & x & ER & Sp & _ & _ & Lx)] & _).
  fold now in Ck. rewrite Ck in *. subst at_times. cbv beta. split; [|split].
  - rewrite Hb. fold t0. do 3 f_equal. fold t0 in Hq. assert (Qq : (now - t0) / 1001 = Z.of_nat q) by (symmetry; apply (Z.div_unique _ _ _ (now - t0 - 1001 * Z.of_nat q)); [left|]; lia).
    rewrite Qq, Nat2Z.id. reflexivity.
  - intros a u v b Q. fold t0 in ER. rewrite ER in Q. exact (Sp a u v b Q).
  - fold t0 in ER. rewrite ER, last_last. lia.
Qed.
Print Assumptions C124_when_the_master_transmits.

(** ** Nothing in the air *)
(** When the master has transmitted nothing for 2N + 2 ms, everything it
    transmitted has been delivered and relayed. *)
Theorem C124_the_air_clears : forall s N m os k w,
  simulated s N (os ++ runTicks k) w ->
  (m < N)%nat -> (N <= 900)%nat ->
  (forall i, (i < N)%nat -> i <> m -> waits_until s m < waits_until s i) ->
  Forall idle os -> Z.of_nat N + passed os <= waits_until s m ->
  let now := Z.of_nat N + passed os + Z.of_nat k in
  waits_until s m < now < 4294967296 - 70000 ->
  distinct_ids (all_ids (calls_of m (f_log w))) ->
  (forall ev, In ev (calls_of m (f_log w)) -> sent ev <> [] -> at_ ev + 2 * Z.of_nat N + 2 < now) ->
  on_air w = None /\ forall i, (i < N)%nat -> waiting w i = None.
Proof.
  intros s N m os k w Sim Hm Sm First Idle B1 now B2 Di Old.
  destruct (power_up_table s N m os k w Sim Hm Sm First Idle B1 ltac:(apply B2) Di ltac:(apply B2)) as (Ck & n0 & _ & _ & D & T & U & fly & j & s1 & h & g & a & kills & c & R & Dr & La).
  fold now in Ck. apply (drained _ _ _ _ _ _ _ _ _ _ _ _ _ _ _ c R Dr). rewrite Ck.
  assert (X : forall kd, In c (times kd (calls_of m (f_log w))) -> c + 2 * Z.of_nat N + 2 < now).
  { intros kd I. unfold times in I. apply in_map_iff in I as (ev & <- & I). apply filter_In in I as [I F]. apply (Old ev I).
    unfold sends in F. destruct (sent ev); [discriminate F|discriminate]. }
  destruct La as [I|[I|I]]; exact (X _ I).
Qed.
Print Assumptions C124_the_air_clears.

(** In the first minute these moments can be read off the clock. *)
Theorem C124_clear_moments : forall s N m os k w,
  simulated s N (os ++ runTicks k) w ->
  (m < N)%nat -> (N <= 900)%nat ->
  (forall i, (i < N)%nat -> i <> m -> waits_until s m < waits_until s i) ->
  Forall idle os -> Z.of_nat N + passed os <= waits_until s m ->
  let now := Z.of_nat N + passed os + Z.of_nat k in
  let t0 := waits_until s m + 1 in
  t0 <= now <= 60000 ->
  distinct_ids (all_ids (calls_of m (f_log w))) ->
  2 * Z.of_nat N + 2 < (now - t0) mod 1001 -> 2 * Z.of_nat N + 2 < (now - t0) mod 2001 ->
  on_air w = None /\ forall i, (i < N)%nat -> waiting w i = None.
Proof.
  intros s N m os k w Sim Hm Sm First Idle B1 now t0 B2 Di R1 R2.
  destruct (power_up_table s N m os k w Sim Hm Sm First Idle B1 ltac:(subst now t0; lia) Di ltac:(subst now t0; lia)) as
    (Ck & n0 & Ce & [(q & Hb & _ & Hq) (q2 & Hc & _ & _ & Hq2) (R & x & ER & Sp & _ & Lx & _)] & D & T & U & fly & j & s1 & h & g & a & kills & c & Re & Dr & La).
  fold now in Ck. fold t0 in Hb, Hq, ER. rewrite Ce in Hc, Hq2. apply (drained _ _ _ _ _ _ _ _ _ _ _ _ _ _ _ c Re Dr). rewrite Ck in *.
  assert (Q2 : q2 = O) by (destruct q2; [reflexivity|]; specialize (Hq2 ltac:(discriminate)); lia). subst q2. cbn [seq map] in Hc.
  destruct La as [I|[I|I]].
  - rewrite Hb in I. apply in_map_iff in I as (v & <- & Iv). apply in_seq in Iv.
    assert (Q : (now - t0) mod 1001 = now - t0 - 1001 * Z.of_nat q) by (symmetry; apply (Z.mod_unique _ _ (Z.of_nat q)); [left|]; lia). nia.
  - rewrite Hc in I. destruct I.
  - (* every rebroadcast is a multiple of 2001 after the take-over *)
    assert (Mul : forall L pre z, pre ++ z :: L = R ++ [x] -> (z - t0) mod 2001 = 0 -> Forall (fun y => (y - t0) mod 2001 = 0) L).
    { induction L as [|y L IH]; intros pre z Q Z0; [constructor|].
      destruct (Sp pre z y L ltac:(symmetry; exact Q)) as [Y|(_ & _ & Y)]; [|rewrite Hc in Y; destruct Y].
      assert (Y0 : (y - t0) mod 2001 = 0) by (rewrite Y; replace (z + 2001 - t0) with (z - t0 + 1 * 2001) by lia; rewrite Z_mod_plus_full; exact Z0).
      constructor; [exact Y0|]. apply (IH (pre ++ [z]) y); [rewrite <- app_assoc; exact Q|exact Y0]. }
    pose proof (Mul _ [] t0 ER) as F. rewrite Z.sub_diag in F. specialize (F eq_refl). pose proof (proj1 (Forall_forall _ _) F c I) as C0. cbn beta in C0.
    (* and not after now *)
    assert (Up : forall L pre z, pre ++ z :: L = R ++ [x] -> forall y, In y (z :: L) -> z <= y <= x).
    { induction L as [|v L IH]; intros pre z Q y Iy.
      - destruct Iy as [->|[]]. apply app_inj_tail in Q as [_ ->]. lia.
      - assert (Zv : z < v) by (destruct (Sp pre z v L ltac:(symmetry; exact Q)) as [Y|(Y & _)]; lia).
        assert (Q' : (pre ++ [z]) ++ v :: L = R ++ [x]) by (rewrite <- app_assoc; exact Q).
        pose proof (IH _ _ Q') as G. destruct Iy as [->|Iy]; [specialize (G v ltac:(left; reflexivity)); lia|]. specialize (G y Iy). lia. }
    pose proof (Up _ [] t0 ER c ltac:(right; exact I)) as Uc.
    assert (Dd : (now - c) mod 2001 = (now - t0) mod 2001).
    { replace (now - t0) with (now - c + ((c - t0) / 2001) * 2001) by lia. rewrite Z_mod_plus_full. reflexivity. }
    pose proof (Z.mod_le (now - c) 2001 ltac:(lia) ltac:(lia)). lia.
Qed.
Print Assumptions C124_clear_moments.

(** ** resetMaster *)
Lemma loop_still n body w : (forall j, body j w = Ok w) -> forall from, loop n from body w = Ok w.
Proof. intros H. induction n as [|n IH]; intros from; [reflexivity|]. cbn [loop]. rewrite H. cbn [obind]. apply IH. Qed.

(** The helper resetMaster of the tests replaces node 0 when node 0 is master,
    and nobody otherwise. *)
Theorem C123_reset_master_only_looks_at_node_0 : forall s N os w,
  simulated s N os w -> (0 < N)%nat ->
  resetMaster s N w = match GetCurrentState (f_node w 0) with Master => reinitNode s 0 w | Slave => Ok w end.
Proof.
  intros s N os w Sim HN. destruct (simulated_ok _ _ _ _ Sim) as [K T]. destruct Sim as (J & _).
  unfold resetMaster. destruct (GetCurrentState (f_node w 0)) eqn:S0.
  - apply loop_still. intros j. rewrite S0. reflexivity.
  - destruct N as [|N]; [lia|]. cbn [loop]. rewrite S0. cbn [role_eqb].
    destruct (reinit_ok s (S N) w 0 J K T ltac:(lia)) as (w' & E & _ & _ & Nd & _). rewrite E. cbn [obind].
    apply loop_still. intros j. rewrite Nd. unfold upd. cbn [Nat.eqb].
    replace (GetCurrentState (powered s (f_born w) (f_clock w))) with Slave; [reflexivity|].
    unfold powered, bare. destruct (s_junk s (f_born w)) as [[[ty1 ty2] d1] d2]. reflexivity.
Qed.
Print Assumptions C123_reset_master_only_looks_at_node_0.

(** Nobody does anything while nobody is due. *)
Lemma calm_ticks s name Old due N k : (N <= 900)%nat -> forall w w', calm name Old due N w ->
  (forall i, (i < N)%nat -> f_clock w + Z.of_nat k <= due i) -> fsteps s N (runTicks k) w = Ok w' ->
  calm name Old due N w' /\ forall i, (i < N)%nat -> f_node w' i = f_node w i.
Proof.
  intros Sm. induction k as [|k IH]; intros w w' C Due E.
  - cbn in E. injection E as <-. auto.
  - cbn [runTicks fsteps fstep obind] in E. destruct (FakeTick s N (advanceMillis 1 w)) as [w1| |] eqn:E1; try discriminate. cbn [obind] in E.
    pose proof (calm_advance name Old due N Sm w 1 ltac:(lia) C) as C'.
    destruct (calm_tick s name Old due N Sm _ w1 C') as [C1 Ck]; [intros i Hi; specialize (Due i Hi); cbn; lia|exact E1|].
    destruct (IH w1 w' C1) as [C2 Same]; [intros i Hi; specialize (Due i Hi); rewrite Ck; cbn; lia|exact E|].
    split; [exact C2|]. intros i Hi. rewrite (Same i Hi).
    destruct (calm_same s name Old due N i Sm Hi _ w1 C' ltac:(specialize (Due i Hi); cbn; lia) E1) as [Q _]. exact Q.
Qed.

Lemma patient_timer s w i t : nodeok (f_node w i) -> state (f_node w i) = Slave -> patient_until s w i t -> t <= t_hb (f_node w i).
Proof.
  intros K St [Rt P]. pose proof (g_hb _ (proj1 K)) as Hh. assert (I : inc_sound None) by (intros p [=]). unfold wrap in *.
  destruct (Z.le_gt_cases t (t_hb (f_node w i))) as [L|L]; [exact L|exfalso].
  destruct (Z.eq_dec (t_hb (f_node w i)) 0) as [Z0|Nz].
  - destruct (P (t + 1) ltac:(lia)) as (n' & out & Ss & Iff).
    destruct (nodeok_runs (env_of s (f_name w i)) (t + 1) (f_node w i) None eq_refl K I ltac:(lia)) as (n1 & o1 & R1 & T1). unfold step in Ss. rewrite R1 in Ss. injection Ss as <- <-.
    assert (D : timer_due (t + 1) (t_hb (f_node w i)) = false) by (apply timer_due_false; lia).
    assert (state n1 = Master) by (apply Iff; lia). inversion T1; subst; try congruence; discriminate.
  - destruct (P t ltac:(lia)) as (n' & out & Ss & Iff).
    destruct (nodeok_runs (env_of s (f_name w i)) t (f_node w i) None eq_refl K I ltac:(lia)) as (n1 & o1 & R1 & T1). unfold step in Ss. rewrite R1 in Ss. injection Ss as <- <-.
    assert (D : timer_due t (t_hb (f_node w i)) = true) by (apply timer_due_iff; lia).
    assert (Nm : state n1 <> Master) by (intros Q; apply Iff in Q; lia).
    inversion T1; subst; try congruence; try discriminate; [destruct H0; congruence|apply Nm; reflexivity].
Qed.

(** ** The test of a master that is not stable *)
(** changesEffectWhenMasterNotStable reads the number of node 0, calls
    resetMaster, waits 100 ms and wants another number.  When another node
    leads, nobody is replaced; when node 0 leads and nothing is in the air, the
    number is 0 before and 0 after. *)
Theorem C123_no_master_is_replaced : forall s N m os k w,
  simulated s N (os ++ runTicks k) w ->
  (m < N)%nat -> (N <= 900)%nat -> m <> 0%nat ->
  (forall i, (i < N)%nat -> i <> m -> waits_until s m < waits_until s i) ->
  Forall idle os -> Z.of_nat N + passed os <= waits_until s m ->
  Z.of_nat N + passed os + Z.of_nat k < 4294967296 - 70000 ->
  distinct_ids (all_ids (calls_of m (f_log w))) ->
  resetMaster s N w = Ok w.
Proof.
  intros s N m os k w Sim Hm Sm Nm First Idle B1 B2 Di.
  rewrite (C123_reset_master_only_looks_at_node_0 s N _ w Sim ltac:(lia)).
  destruct (C118_exactly_one_master s N m os k w Sim Hm Sm First Idle B1 B2 Di) as [A B].
  destruct (Z.le_gt_cases (Z.of_nat N + passed os + Z.of_nat k) (waits_until s m)) as [L|L].
  - rewrite (A L 0%nat ltac:(lia)). reflexivity.
  - rewrite (proj2 (B ltac:(lia)) 0%nat ltac:(lia) ltac:(congruence)). reflexivity.
Qed.
Print Assumptions C123_no_master_is_replaced.

Theorem C123_the_replaced_master_keeps_its_number : forall s N os k k2 w0 w1 w,
  simulated s N (os ++ runTicks k) w0 -> resetMaster s N w0 = Ok w1 -> fsteps s N (runTicks k2) w1 = Ok w ->
  (0 < N)%nat -> (N <= 499)%nat ->
  (forall i, (i < N)%nat -> i <> 0%nat -> waits_until s 0 < waits_until s i) ->
  Forall idle os -> Z.of_nat N + passed os <= waits_until s 0 ->
  waits_until s 0 < Z.of_nat N + passed os + Z.of_nat k <= 60000 ->
  distinct_ids (all_ids (calls_of 0 (f_log w0))) ->
  on_air w0 = None -> (forall i, (i < N)%nat -> waiting w0 i = None) ->
  (k2 <= 997)%nat ->
  GetCurrentState (f_node w0 0) = Master /\ GetCurrentState (f_node w1 0) = Slave /\
  GetEffectIndex (f_node w0 0) = 0 /\ GetEffectIndex (f_node w 0) = 0.
Proof.
  intros s N os k k2 w0 w1 w Sim Er E HN Sm First Idle B1 B2 Di Air0 Qt Hk2.
  rewrite (C123_reset_master_only_looks_at_node_0 s N _ w0 Sim HN) in Er.
  destruct (C118_exactly_one_master s N 0 os k w0 Sim HN ltac:(lia) First Idle B1 ltac:(lia) Di) as [_ [Ms _]]; [lia|]. rewrite Ms in Er.
  assert (G0 : GetEffectIndex (f_node w0 0) = 0).
  { destruct (power_up_course s N 0 os k w0 Sim HN Sm First Idle B1 ltac:(lia) Di ltac:(lia)) as (Ck & n0 & I0 & S0 & Se & fly & y & yk & sk & c & st & A & O & _).
    assert (Wm : 5001 <= waits_until s 0 <= 7000) by (unfold waits_until; lia).
    assert (Ce : ce_takeover (waits_until s 0 + 1) n0 = 60000).
    { unfold ce_takeover. rewrite Se, Z.sub_0_r, (u32_id (waits_until s 0 + 1)) by lia.
      destruct (Z.ltb_spec 60000 (waits_until s 0 + 1)); [lia|]. destruct (Z.eqb_spec (waits_until s 0 + 1) 60000); [lia|]. rewrite u32_id by lia. lia. }
    destruct O as [(_ & -> & Ei & _)|(_ & _ & _ & L)]; [|rewrite Ce in L; lia]. unfold GetEffectIndex. rewrite Ei, I0. reflexivity. }
  destruct (simulated_ok _ _ _ _ Sim) as [K T]. pose proof Sim as (J & _).
  destruct (reinit_ok s N w0 0 J K T HN) as (w1' & E1 & K1 & T1 & Nd & _). rewrite Er in E1. injection E1 as <-.
  assert (P0 : f_node w1 0 = powered s (f_born w0) (f_clock w0)) by (rewrite Nd; reflexivity).
  assert (Q0 : GetCurrentState (f_node w1 0) = Slave /\ GetEffectIndex (f_node w1 0) = 0).
  { rewrite P0. unfold powered, bare. destruct (s_junk s (f_born w0)) as [[[ty1 ty2] d1] d2]. split; reflexivity. }
  split; [exact Ms|]. split; [apply Q0|]. split; [exact G0|].
  destruct k2 as [|k2]; [cbn in E; injection E as <-; apply Q0|].
  cbn [runTicks] in E. change (FAdvance 1 :: FTick :: runTicks k2) with ([FAdvance 1; FTick] ++ runTicks k2) in E. rewrite fsteps_app in E.
  destruct (fsteps s N [FAdvance 1; FTick] w1) as [w2| |] eqn:E2; try discriminate. cbn [obind] in E.
  assert (Et : fsteps s N [FReinit 0; FAdvance 1; FTick] w0 = Ok w2) by (cbn [fsteps fstep obind]; rewrite Er; cbn [obind]; exact E2).
  destruct (C120_a_replaced_master_leaves_silence s N 0 os k w0 w2 Sim Et HN ltac:(lia) First Idle B1 ltac:(unfold wrap; lia) Di Air0 Qt) as (Sim2 & (Air2 & Sil) & Ls & Ck2 & Pt & _).
  (* the first round *)
  assert (S2 : f_node w2 0 = f_node w1 0).
  { cbn [fsteps fstep obind] in E2. destruct (FakeTick s N (advanceMillis 1 w1)) as [w2'| |] eqn:E3; try discriminate. cbn [obind] in E2. injection E2 as <-.
    assert (K1' : ok N (advanceMillis 1 w1)) by (apply (advance_ok s N w1 1 ltac:(lia) K1 T1)).
    destruct (FakeTick_ok s N _ K1') as (evs & v & Ev & _ & Tm & _). rewrite E3 in Ev. injection Ev as <-.
    destruct (Tm 0%nat HN) as [Em _]. change (f_node (advanceMillis 1 w1) 0%nat) with (f_node w1 0) in Em.
    destruct (reinit_ok s N w0 0 J K T HN) as (v & Ev & _ & _ & _ & _ & _ & _ & _ & _ & Ckv & Cev). rewrite Er in Ev. injection Ev as <-.
    assert (Rc : receives s (advanceMillis 1 w1) 0 = None).
    { unfold receives. change (cell (advanceMillis 1 w1) Air) with (cell w1 Air). rewrite (proj2 (Cev Air)). unfold on_air in Air0. rewrite Air0. destruct (keeps _ _ _ _); reflexivity. }
    pose proof (k_clock _ _ K) as Kc. 
    assert (Ck0 : f_clock w0 = Z.of_nat N + passed os + Z.of_nat k).
    { destruct (power_up_table s N 0 os k w0 Sim HN ltac:(lia) First Idle B1 ltac:(lia) Di ltac:(lia)) as [Q _]. exact Q. }
    assert (Hb : f_clock w0 + 5000 <= t_hb (f_node w1 0)).
    { rewrite P0. unfold powered, bare. destruct (s_junk s (f_born w0)) as [[[ty1 ty2] d1] d2]. cbn [t_hb with_num_palettes with_num_effects].
      rewrite (u32_id (f_clock w0)) by lia. rewrite u32_id by lia. lia. }
    rewrite Rc in Em. unfold machine in Em. change (f_clock (advanceMillis 1 w1)) with (f_clock w1 + 1) in Em. rewrite Ckv in Em. rewrite u32_id in Em by lia.
    assert (I : inc_sound None) by (intros p [=]).
    destruct (nodeok_runs (env_of s (f_name (advanceMillis 1 w1) 0%nat)) (f_clock w0 + 1) (f_node w1 0) None eq_refl (k_nodes _ _ K1 0%nat HN) I ltac:(lia)) as (n1 & o1 & R1 & T1').
    destruct (not_due_slave _ (f_clock w0 + 1) (f_node w1 0) None (proj1 Q0) ltac:(lia) ltac:(lia) eq_refl _ _ T1') as [-> ->]. rewrite R1 in Em.
    destruct (f_ticked (advanceMillis 1 w1) 0); [rewrite R1 in Em|]; injection Em as Q _; auto. }
  (* the others *)
  destruct (simulated_ok _ _ _ _ Sim2) as [K2 T2].
  assert (Tk : forall i, (i < N)%nat -> f_ticked w2 i = true).
  { cbn [fsteps fstep obind] in E2. destruct (FakeTick s N (advanceMillis 1 w1)) as [w2'| |] eqn:E3; try discriminate. cbn [obind] in E2. injection E2 as <-.
    assert (K1' : ok N (advanceMillis 1 w1)) by (apply (advance_ok s N w1 1 ltac:(lia) K1 T1)).
    destruct (FakeTick_ok s N _ K1') as (evs & v & Ev & _ & Tm & _). rewrite E3 in Ev. injection Ev as <-. intros i Hi. apply (Tm i Hi). }
  pose proof (calm_silence s N w2 K2 T2 Ls Tk Air2 (fun i Hi => proj1 (Sil i Hi)) (fun i Hi => proj2 (Sil i Hi))) as C.
  destruct (C120_silence_ends_with_one_master s N _ w2 Sim2 (conj Air2 Sil) Ls ltac:(lia) ltac:(unfold wrap; lia)) as (moment & Mo & _).
  destruct (calm_ticks s _ _ _ N k2 ltac:(lia) w2 w C) as [_ Same]; [|exact E|].
  - intros i Hi. destruct (Mo i Hi) as [P _]. pose proof (Pt i _ Hi P).
    pose proof (patient_timer s w2 i (moment i) (k_nodes _ _ K2 i Hi) (proj2 (Sil i Hi)) P). lia.
  - rewrite (Same 0%nat HN), S2. apply Q0.
Qed.
Print Assumptions C123_the_replaced_master_keeps_its_number.

(** The test itself, which runs 59990 rounds, calls resetMaster and runs 100
    more: whatever numbers are drawn, as long as node 0 waits shortest and its
    wait (5000 ms and [r]) does not put a packet in the air at 59995 ms, the
    number is the same before and after, and the test fails. *)
Lemma unstable_fails s k r : junk_ok s ->
  (forall i, (i < 5)%nat -> i <> 0%nat -> waits_until s 0 < waits_until s i) -> varied (s_draw s 0) ->
  r = Z.of_N (s_draw s 0%nat 0%nat) mod 2000 -> ~ 927 <= r <= 939 -> ~ 954 <= r <= 966 -> ~ 1928 <= r <= 1940 ->
  Z.of_nat k = 59990 ->
  exists w0 w1 w, frun s 5 (runTicks k) = Ok w0 /\ resetMaster s 5 w0 = Ok w1 /\ fsteps s 5 (runTicks 100) w1 = Ok w /\
    GetCurrentState (f_node w0 0) = Master /\ GetCurrentState (f_node w1 0) = Slave /\ GetEffectIndex (f_node w0 0) = GetEffectIndex (f_node w 0).
Proof.
  intros J First V Er N1 N2 N3 Hk.
  destruct (simulated_exists s 5 (runTicks k) J ltac:(lia) (runTicks_ok _ _)) as [w0 Sim].
  assert (W : waits_until s 0 = 5001 + r) by (unfold waits_until; lia).
  assert (Hr : 0 <= r < 2000) by lia. clear Er.
  assert (Id : Forall idle []) by constructor.
  pose proof (C118_varied_draws_give_distinct_ids s 5 0 [] k w0 Sim ltac:(lia) ltac:(lia) First Id ltac:(cbn; lia) ltac:(cbn; lia) V) as Di.
  assert (Now : Z.of_nat 5 + passed [] + Z.of_nat k = 59995) by (cbn [passed fold_right]; lia).
  destruct (C124_clear_moments s 5 0 [] k w0 Sim ltac:(lia) ltac:(lia) First Id ltac:(cbn; lia)) as [Air0 Qt]; [lia|exact Di|lia|lia|].
  pose proof (C123_reset_master_only_looks_at_node_0 s 5 _ w0 Sim ltac:(lia)) as Er.
  destruct (C118_exactly_one_master s 5 0 [] k w0 Sim ltac:(lia) ltac:(lia) First Id ltac:(cbn; lia) ltac:(lia) Di) as [_ [Ms _]]; [lia|]. rewrite Ms in Er.
  destruct (simulated_ok _ _ _ _ Sim) as [K T].
  destruct (reinit_ok s 5 w0 0 J K T ltac:(lia)) as (w1 & E1 & K1 & T1 & _). rewrite E1 in Er.
  destruct (fsteps_ok s 5 (runTicks 100) J (runTicks_ok _ _) w1 K1 T1) as (w & E & _).
  destruct (C123_the_replaced_master_keeps_its_number s 5 [] k 100 w0 w1 w Sim Er E ltac:(lia) ltac:(lia) First Id ltac:(cbn; lia) ltac:(lia) Di Air0 Qt ltac:(lia)) as (A & B & C & D).
  exists w0, w1, w. split; [apply Sim|]. split; [exact Er|]. split; [exact E|]. split; [exact A|]. split; [exact B|]. congruence.
Qed.

Theorem C123_the_test_of_an_unstable_master_fails : forall s,
  junk_ok s -> (forall i, (i < 5)%nat -> i <> 0%nat -> waits_until s 0 < waits_until s i) -> varied (s_draw s 0) ->
  let r := Z.of_N (s_draw s 0%nat 0%nat) mod 2000 in
  ~ 927 <= r <= 939 -> ~ 954 <= r <= 966 -> ~ 1928 <= r <= 1940 ->
  exists w0 w1 w,
    frun s 5 (runTicks (Z.to_nat 59990)) = Ok w0 /\ resetMaster s 5 w0 = Ok w1 /\ fsteps s 5 (runTicks 100) w1 = Ok w /\
    GetCurrentState (f_node w0 0) = Master /\ GetCurrentState (f_node w1 0) = Slave /\
    GetEffectIndex (f_node w0 0) = GetEffectIndex (f_node w 0).
Proof.
  intros s J First V r N1 N2 N3. apply (unstable_fails s (Z.to_nat 59990) r J First V eq_refl N1 N2 N3). apply Z2Nat.id. lia.
Qed.
Print Assumptions C123_the_test_of_an_unstable_master_fails.

(** ** The hypotheses are met *)
Definition first_node : source :=
  mkSource (fun k r => match r with O => if Nat.eqb k 0 then 0%N else 1500%N | _ => (N.of_nat r mod 1000)%N end) (fun r => N.of_nat r)
           (fun _ => mkOffsets 0 0 0) (fun _ => (0, 0, repeat 0 58, repeat 0 58)).
Lemma first_node_varied : varied (s_draw first_node 0).
Proof.
  split; [intros j k H1 H2|intros j H1]; cbn [s_draw first_node]; repeat match goal with |- context [match ?x with O => _ | _ => _ end] => destruct x; [lia|] end.
  - rewrite !(N.mod_small (_ mod 1000)) by (pose proof (N.mod_upper_bound (N.of_nat (S j)) 1000); pose proof (N.mod_upper_bound (N.of_nat (S k)) 1000); lia).
    intros Q. pose proof (N.div_mod (N.of_nat (S j)) 1000 ltac:(discriminate)). pose proof (N.div_mod (N.of_nat (S k)) 1000 ltac:(discriminate)). lia.
  - pose proof (N.mod_upper_bound (N.of_nat (S j)) 1000 ltac:(discriminate)). rewrite N.mod_small by lia. lia.
Qed.
Lemma first_node_junk : junk_ok first_node.
Proof. intros i. cbn -[wf_packet]. split; apply wf_packetb_ok; vm_compute; reflexivity. Qed.
Lemma first_node_waits : waits_until first_node 0 = 5001 /\ forall i, (i < 5)%nat -> i <> 0%nat -> waits_until first_node 0 < waits_until first_node i.
Proof. split; [reflexivity|]. intros i Hi Ne. unfold waits_until. cbn [first_node s_draw]. destruct i; [contradiction|]. cbn. lia. Qed.

Example C123_inhabited : exists w0 w1 w,
  frun first_node 5 (runTicks (Z.to_nat 59990)) = Ok w0 /\ resetMaster first_node 5 w0 = Ok w1 /\ fsteps first_node 5 (runTicks 100) w1 = Ok w /\
  GetCurrentState (f_node w0 0) = Master /\ GetCurrentState (f_node w1 0) = Slave /\ GetEffectIndex (f_node w0 0) = GetEffectIndex (f_node w 0).
Proof.
  apply (C123_the_test_of_an_unstable_master_fails first_node first_node_junk (proj2 first_node_waits) first_node_varied); cbn; lia.
Qed.

Lemma table_example k : Z.of_nat k = 10000 -> exists w,
  simulated first_node 5 (runTicks k) w /\ distinct_ids (all_ids (calls_of 0 (f_log w))) /\
  times ByHeartbeat (calls_of 0 (f_log w)) = [5002; 6003; 7004; 8005; 9006] /\ on_air w = None /\ (forall i, (i < 5)%nat -> waiting w i = None).
Proof.
  intros Hk. destruct first_node_waits as [W First]. assert (Id : Forall idle []) by constructor.
  destruct (simulated_exists first_node 5 (runTicks k) first_node_junk ltac:(lia) (runTicks_ok _ _)) as [w Sim]. exists w. split; [exact Sim|].
  pose proof (C118_varied_draws_give_distinct_ids first_node 5 0 [] k w Sim ltac:(lia) ltac:(lia) First Id ltac:(cbn; lia) ltac:(cbn; lia) first_node_varied) as Di.
  split; [exact Di|]. assert (Now : Z.of_nat 5 + passed [] + Z.of_nat k = 10005) by (cbn [passed fold_right]; lia).
  destruct (C124_when_the_master_transmits first_node 5 0 [] k w Sim ltac:(lia) ltac:(lia) First Id ltac:(cbn; lia) ltac:(lia) Di ltac:(lia)) as (T & _).
  rewrite Now, W in T. split; [rewrite T; reflexivity|].
  apply (C124_clear_moments first_node 5 0 [] k w Sim ltac:(lia) ltac:(lia) First Id ltac:(cbn; lia) ltac:(lia) Di); rewrite Now, W; reflexivity.
Qed.
Example C124_inhabited : exists w,
  simulated first_node 5 (runTicks (Z.to_nat 10000)) w /\ distinct_ids (all_ids (calls_of 0 (f_log w))) /\
  times ByHeartbeat (calls_of 0 (f_log w)) = [5002; 6003; 7004; 8005; 9006] /\ on_air w = None /\ (forall i, (i < 5)%nat -> waiting w i = None).
Proof. apply table_example. apply Z2Nat.id. lia. Qed.
