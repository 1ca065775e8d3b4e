(** C121: in the simulated network of the integration tests everybody soon shows
    the effect of the master.  Model: FakeNet.v. *)
From Coq Require Import ZArith NArith Lia List Bool.
From Coq Require Import ZifyBool.
From Verif Require Import CInt CIntFacts Packet SpecPacket PacketFacts NetMgr NetHist SpecNet NetFacts Rsm RsmStep RsmEval RsmRun RsmHist SpecRsm RsmFacts RsmTime RoleFacts.
From Verif Require Import Fastled Palette Device LedMgr Effects Show ShowFacts Bench FakeNet FakeNetFacts SimFacts PropFakeNet PropSim PropFailSim AgreeFacts AgreeRun PaceRun.
Import ListNotations.
Open Scope Z_scope.
Ltac Zify.zify_post_hook ::= Z.div_mod_to_equations.

(** ** Random numbers instead of ids *)
(** Of 76 successive random numbers no two give the same id, and none gives 0.
    (Number 0 is the first wait.) *)
Definition varied (draws : nat -> N) : Prop :=
  (forall j k, (1 <= j < k)%nat -> (k <= j + 75)%nat -> (draws j mod 65535 <> draws k mod 65535)%N) /\
  (forall j, (1 <= j)%nat -> (draws j mod 65535 <> 65534)%N).

Lemma host_id raw : id_of Host raw = u16 (2 + Z.of_N (raw mod 65535)%N).
Proof. unfold id_of, random2. cbn [Z.eqb]. rewrite N2Z.inj_mod. reflexivity. Qed.

Lemma varied_ids s m : varied (s_draw s m) ->
  (forall j k, (1 <= j < k)%nat -> (k <= j + 75)%nat -> drawn_id (env_of s m) j <> drawn_id (env_of s m) k /\ drawn_id (env_of s m) k <> 0) /\
  drawn_id (env_of s m) 1 <> 0.
Proof.
  intros [V1 V2]. unfold drawn_id, env_of. cbn [plat draw].
  assert (Z0 : forall j, (1 <= j)%nat -> id_of Host (s_draw s m j) <> 0).
  { intros j Hj. specialize (V2 j Hj). rewrite host_id. pose proof (N.mod_upper_bound (s_draw s m j) 65535 ltac:(lia)). set (x := (s_draw s m j mod 65535)%N) in *. unfold u16. lia. }
  split; [|apply Z0; lia]. intros j k H1 H2. split; [|apply Z0; lia]. specialize (V1 j k H1 H2). pose proof (V2 j ltac:(lia)) as Vj. pose proof (V2 k ltac:(lia)) as Vk. rewrite !host_id.
  pose proof (N.mod_upper_bound (s_draw s m j) 65535 ltac:(lia)). pose proof (N.mod_upper_bound (s_draw s m k) 65535 ltac:(lia)).
  set (x := (s_draw s m j mod 65535)%N) in *. set (y := (s_draw s m k mod 65535)%N) in *. unfold u16. lia.
Qed.

Lemma idle_same s name Old due N m os : (N <= 900)%nat -> (m < N)%nat -> (forall i, (i < N)%nat -> i <> m -> due m < due i) ->
  Forall idle os -> forall w w', calm name Old due N w -> f_clock w + passed os <= due m -> fsteps s N os w = Ok w' ->
  f_node w' m = f_node w m /\ exists evs, calls_of (name m) (f_log w') = calls_of (name m) (f_log w) ++ evs /\ outs evs = [].
Proof.
  intros Sm Hm First F. induction F as [|o os Ho F IH]; intros w w' C B E.
  - cbn in E. injection E as <-. split; [reflexivity|]. exists []. rewrite app_nil_r. split; reflexivity.
  - assert (P0 : 0 <= passed os).
    { clear - F. induction F as [|o os Ho F IH]; [cbn; lia|]. unfold passed in *. destruct o; cbn [fold_right idle] in *; try contradiction; lia. }
    destruct o; try contradiction; cbn [fsteps fstep obind] in E; cbn [passed fold_right] in *; cbn in Ho.
    + fold (passed os) in *. exact (IH _ w' (calm_advance name Old due N Sm w d Ho C) ltac:(cbn; lia) E).
    + fold (passed os) in *. destruct (FakeTick s N w) as [w1| |] eqn:E1; try discriminate. cbn [obind] in E.
      destruct (calm_tick s name Old due N Sm w w1 C) as [C1 Ck1]; [|exact E1|].
      { intros i Hi. destruct (Nat.eq_dec i m) as [->|Ne]; [lia|]. specialize (First i Hi Ne). lia. }
      destruct (calm_same s name Old due N m Sm Hm w w1 C ltac:(lia) E1) as (Nd & evs & Ee & Oe).
      destruct (IH w1 w' C1 ltac:(lia) E) as (Nd' & evs' & Ee' & Oe'). split; [congruence|].
      exists (evs ++ evs'). split; [rewrite Ee', Ee, app_assoc; reflexivity|]. rewrite outs_app, Oe, Oe'. reflexivity.
Qed.

Theorem C118_varied_draws_give_distinct_ids : forall s N m os k w,
  simulated s N (os ++ runTicks k) w ->
  (m < N)%nat -> (N <= 900)%nat ->
  (forall i, (i < N)%nat -> i <> m -> waits_until s m < waits_until s i) ->
  Forall idle os -> Z.of_nat N + passed os <= waits_until s m ->
  Z.of_nat N + passed os + Z.of_nat k < 4294967296 - 70000 ->
  varied (s_draw s m) ->
  distinct_ids (all_ids (calls_of m (f_log w))).
Proof.
  intros s N m os k w (J & B & _ & E) Hm Sm First Idle B1 B2 V.
  assert (First' : forall i, (i < N)%nat -> i <> m -> wait s m < wait s i) by (intros i Hi Ne; rewrite <- !waits_wait; auto).
  rewrite waits_wait in *. unfold frun in E. destruct (FakeNetwork s N) as [w0| |] eqn:E0; try discriminate. cbn [obind] in E.
  destruct (calm_start s N w0 J B E0) as [C0 Ck0]. rewrite fsteps_app in E.
  destruct (FakeNetwork_ok s N J B) as (w' & E' & _ & _ & _ & _ & _ & _ & _ & Nd & _). rewrite E0 in E'. injection E' as <-.
  destruct (fsteps s N os w0) as [w1| |] eqn:E1; try discriminate. cbn [obind] in E.
  destruct (idle_calm s _ _ _ N m os Sm Hm First' Idle w0 w1 C0 ltac:(lia) E1) as [C1 Ck1].
  destruct (idle_same s _ _ _ N m os Sm Hm First' Idle w0 w1 C0 ltac:(lia) E1) as [Nd1 _].
  assert (Q : f_node w0 m = powered s m (Z.of_nat m + 1)) by apply (Nd m Hm).
  destruct (varied_ids s m V) as [V1 V0].
  apply (drawing_ticks s (wait s) N m Sm Hm ltac:(unfold wait; lia) First' 1 V1 V0 k w1 w); [|lia|exact E].
  left. split; [exact C1|]. split; [lia|]. rewrite Nd1, Q. unfold powered, bare. destruct (s_junk s m) as [[[ty1 ty2] d1] d2]. reflexivity.
Qed.
Print Assumptions C118_varied_draws_give_distinct_ids.

(** ** Everybody shows the same *)
(** The effect, hold time and palette a node shows (its LED manager reads them
    from this packet). *)
Definition effect_bytes (n : node) : list Z := payload 3 (GetSetEffect n).

(** A call in which a node chose a new effect itself and announced it. *)
Definition chooses (ev : event) : Prop := exists x, In (Own ByChange x) (sent ev).

(** How long it takes at most in a network of [N] nodes. *)
Definition spread_time (N : nat) : Z := 3 * Z.of_nat N + 2004.

Lemma power_up_course : forall s N m os k w,
  simulated s N (os ++ runTicks k) w ->
  (m < N)%nat -> (N <= 499)%nat ->
  (forall i, (i < N)%nat -> i <> m -> waits_until s m < waits_until s i) ->
  Forall idle os -> Z.of_nat N + passed os <= waits_until s m ->
  Z.of_nat N + passed os + Z.of_nat k < 4294967296 - 70000 ->
  distinct_ids (all_ids (calls_of m (f_log w))) ->
  waits_until s m < Z.of_nat N + passed os + Z.of_nat k ->
  f_clock w = Z.of_nat N + passed os + Z.of_nat k /\
  exists n0, effect_index n0 = 0 /\ shown n0 = [1; 0; 0] /\ seen_at n0 = 0 /\
  exists fly y yk sk c st, agree N m w fly y yk sk c st /\ origin (waits_until s) m n0 w (calls_of m (f_log w)) c /\
    forall i, (i < N)%nat -> wf_packet (GetSetEffect (f_node w i)).
Proof.
  intros s N m os k w (J & B & _ & E) Hm Sm First Idle B1 B2 Sp Hk.
  assert (First' : forall i, (i < N)%nat -> i <> m -> wait s m < wait s i) by (intros i Hi Ne; rewrite <- !waits_wait; auto).
  unfold origin. rewrite waits_wait in *. unfold frun in E. destruct (FakeNetwork s N) as [w0| |] eqn:E0; try discriminate. cbn [obind] in E.
  destruct (calm_start s N w0 J B E0) as [C0 Ck0]. rewrite fsteps_app in E.
  destruct (FakeNetwork_ok s N J B) as (w' & E' & _ & _ & _ & _ & _ & _ & _ & Nd & Qu). rewrite E0 in E'. injection E' as <-.
  destruct (fsteps s N os w0) as [w1| |] eqn:E1; try discriminate. cbn [obind] in E.
  destruct (idle_calm s _ _ _ N m os ltac:(lia) Hm First' Idle w0 w1 C0 ltac:(lia) E1) as [C1 Ck1].
  destruct (idle_same s _ _ _ N m os ltac:(lia) Hm First' Idle w0 w1 C0 ltac:(lia) E1) as (Nd1 & evs & Ee & Oe). cbv beta in Ee.
  destruct (ticks_log s N k w1 w (c_ok _ _ _ _ _ C1) E) as (_ & Ck & _).
  assert (Q : f_node w0 m = powered s m (Z.of_nat m + 1)) by apply (Nd m Hm).
  assert (H : course (fun i => i) (fun _ => []) (wait s) N m [] (f_node w0 m) w).
  { apply (course_ticks s (fun i => i) (fun _ => []) (wait s) N m ltac:(lia) Hm ltac:(unfold wait; lia) First' [] (f_node w0 m) Sm k w1 w); [|lia|exact E|].
    - exists (calls_of m (f_log w1)). split; [reflexivity|]. left. split; [exact C1|]. split; [lia|]. split; [exact Nd1|]. 
      rewrite Ee, outs_app, Oe, app_nil_r. clear - Qu. unfold calls_of.
      induction Qu as [|[i x] log H F IH]; [reflexivity|]. cbn [filter fst]. destruct (i =? m)%nat; [|exact IH].
      cbn [map snd]. unfold outs. cbn [map concat]. cbn in H. rewrite H. exact IH.
    - intros own Eo. apply unused_start. cbn [app] in Eo. rewrite <- Eo. exact Sp. }
  split; [lia|]. exists (f_node w0 m). split; [|split; [|split]].
  1-3: rewrite Q; unfold powered, bare; specialize (J m); destruct (s_junk s m) as [[[ty1 ty2] d1] d2]; try reflexivity.
  { destruct J as [_ (_ & _ & _ & L & _)]. cbn in L. unfold shown, payload. cbn [set_effect_packet with_num_palettes with_num_effects].
    destruct d2 as [|b0 [|b1 [|b2 d2]]]; try discriminate L. reflexivity. }
  destruct H as (new & En & [(C & Hc & _)|(Hc & D & T & U & fly & j & s1 & h & g & a & kills & y & yk & sk & c & st & R & A & O)]); [lia|].
  exists fly, y, yk, sk, c, st. split; [exact A|]. split; [cbn [app] in En; rewrite En; exact O|].
  intros i Hi. apply (k_nodes _ _ (r_ok _ _ _ _ _ _ _ _ _ _ _ _ _ _ _ R) i Hi).
Qed.

(** Whatever numbers the nodes draw: when the master took over and last chose
    an effect more than 3N + 2003 ms ago, everybody shows what it shows. *)
Theorem C121_everybody_shows_the_masters_effect : forall s N m os k w,
  simulated s N (os ++ runTicks k) w ->
  (m < N)%nat -> (N <= 499)%nat ->
  (forall i, (i < N)%nat -> i <> m -> waits_until s m < waits_until s i) ->
  Forall idle os -> Z.of_nat N + passed os <= waits_until s m ->
  Z.of_nat N + passed os + Z.of_nat k < 4294967296 - 70000 ->
  distinct_ids (all_ids (calls_of m (f_log w))) ->
  waits_until s m + spread_time N < Z.of_nat N + passed os + Z.of_nat k ->
  (forall ev, In ev (calls_of m (f_log w)) -> chooses ev -> at_ ev + spread_time N <= Z.of_nat N + passed os + Z.of_nat k) ->
  forall i, (i < N)%nat -> effect_bytes (f_node w i) = effect_bytes (f_node w m).
Proof.
  intros s N m os k w Sm Hm HN First Idle B1 B2 Sp Hk Old i Hi. unfold spread_time in *.
  destruct (power_up_course s N m os k w Sm Hm HN First Idle B1 B2 Sp ltac:(lia)) as (Ck & n0 & _ & _ & _ & fly & y & yk & sk & c & st & A & O & _).
  destruct (Nat.eq_dec i m) as [->|Ne]; [reflexivity|].
  apply (agree_late _ _ _ _ _ _ _ _ _ A); auto. destruct O as [(_ & -> & _)|((ev & I & <- & Cv) & _)]; [lia|]. specialize (Old ev I Cv). lia.
Qed.
Print Assumptions C121_everybody_shows_the_masters_effect.

(** The number GetEffectIndex reports is then the same everywhere too, once the
    master has chosen an effect. *)
Theorem C121_everybody_reports_the_masters_effect : forall s N m os k w ev0,
  simulated s N (os ++ runTicks k) w ->
  (m < N)%nat -> (N <= 499)%nat ->
  (forall i, (i < N)%nat -> i <> m -> waits_until s m < waits_until s i) ->
  Forall idle os -> Z.of_nat N + passed os <= waits_until s m ->
  Z.of_nat N + passed os + Z.of_nat k < 4294967296 - 70000 ->
  distinct_ids (all_ids (calls_of m (f_log w))) ->
  In ev0 (calls_of m (f_log w)) -> chooses ev0 ->
  waits_until s m + spread_time N < Z.of_nat N + passed os + Z.of_nat k ->
  (forall ev, In ev (calls_of m (f_log w)) -> chooses ev -> at_ ev + spread_time N <= Z.of_nat N + passed os + Z.of_nat k) ->
  forall i, (i < N)%nat ->
    GetEffectIndex (f_node w i) = GetEffectIndex (f_node w m) /\
    nth_error (pdata (GetSetEffect (f_node w i))) 0 = Some (GetEffectIndex (f_node w m)).
Proof.
  intros s N m os k w ev0 Sm Hm HN First Idle B1 B2 Sp I0 Ch0 Hk Old i Hi. unfold spread_time in *.
  destruct (power_up_course s N m os k w Sm Hm HN First Idle B1 B2 Sp ltac:(lia)) as (Ck & n0 & _ & _ & _ & fly & y & yk & sk & c & st & A & O & Wf).
  destruct O as [(Nc & _)|((ev & I & <- & Cv) & Ei & _)].
  { exfalso. apply Nc. destruct Ch0 as [x X]. exists x. unfold outs. apply in_concat. exists (sent ev0). split; [apply in_map; exact I0|exact X]. }
  assert (L : forall j, (j < N)%nat -> shown (f_node w j) = shown (f_node w m) /\ effect_index (f_node w j) = i8 (byte_at (shown (f_node w m)) 0)).
  { intros j Hj. destruct (Nat.eq_dec j m) as [->|Ne]; [auto|]. apply (agree_late _ _ _ _ _ _ _ _ _ A); auto. specialize (Old ev I Cv). lia. }
  destruct (L i Hi) as [L1 L2]. unfold GetEffectIndex. rewrite L2, Ei. split; [reflexivity|].
  specialize (Wf i Hi). destruct Wf as (_ & _ & _ & Le & Fa). unfold GetSetEffect in *. change (shown (f_node w i)) with (firstn 3 (pdata (set_effect_packet (f_node w i)))) in L1.
  destruct (pdata (set_effect_packet (f_node w i))) as [|b d]; [discriminate Le|]. inversion Fa as [|b' d' Hb Fd]; subst. cbn [nth_error].
  rewrite <- L1. cbn [firstn]. unfold byte_at. cbn [nth]. f_equal. red in Hb. rewrite u8_i8. symmetry. apply u8_id. exact Hb.
Qed.
Print Assumptions C121_everybody_reports_the_masters_effect.

(** Before that, in the first minute, everybody shows effect 1, the others
    report 1, and the master itself reports 0. *)
Theorem C121_the_master_reports_another_number_at_first : forall s N m os k w,
  simulated s N (os ++ runTicks k) w ->
  (m < N)%nat -> (N <= 499)%nat ->
  (forall i, (i < N)%nat -> i <> m -> waits_until s m < waits_until s i) ->
  Forall idle os -> Z.of_nat N + passed os <= waits_until s m ->
  distinct_ids (all_ids (calls_of m (f_log w))) ->
  waits_until s m + spread_time N < Z.of_nat N + passed os + Z.of_nat k <= 60000 ->
  GetEffectIndex (f_node w m) = 0 /\ effect_bytes (f_node w m) = [1; 0; 0] /\
  forall i, (i < N)%nat -> i <> m -> GetEffectIndex (f_node w i) = 1 /\ effect_bytes (f_node w i) = [1; 0; 0].
Proof.
  intros s N m os k w Sm Hm HN First Idle B1 Sp Hk. unfold spread_time in *.
  assert (Wm : 5001 <= waits_until s m <= Z.of_nat m + 7000) by (unfold waits_until; lia).
  destruct (power_up_course s N m os k w Sm Hm HN First Idle B1 ltac:(lia) Sp ltac:(lia)) as (Ck & n0 & I0 & S0 & Se & fly & y & yk & sk & c & st & A & O & _).
  assert (Ce : ce_takeover (waits_until s m + 1) n0 = 60000).
  { unfold ce_takeover. rewrite Se, Z.sub_0_r, (u32_id (waits_until s m + 1)) by lia.
    destruct (Z.ltb_spec 60000 (waits_until s m + 1)); [lia|]. destruct (Z.eqb_spec (waits_until s m + 1) 60000); [lia|]. rewrite u32_id by lia. lia. }
  destruct O as [(_ & -> & Ei & Es & _)|(_ & _ & _ & L)]; [|rewrite Ce in L; lia].
  unfold GetEffectIndex. rewrite Ei, I0. split; [reflexivity|]. rewrite S0 in Es. split; [exact Es|].
  intros i Hi Ne. destruct (agree_late _ _ _ _ _ _ _ _ _ A ltac:(lia) i Hi Ne) as [L1 L2]. rewrite L2. unfold effect_bytes, GetSetEffect. fold (shown (f_node w i)). rewrite L1, Es. split; reflexivity.
Qed.
Print Assumptions C121_the_master_reports_another_number_at_first.

(** ** When the master chooses *)
(** The master of a simulated network chooses a new effect exactly at 60001 ms,
    120002 ms, 180003 ms and so on (the timer of 60000 ms fires in the first
    millisecond after it). *)
Theorem C122_when_the_master_chooses : forall s N m os k w,
  simulated s N (os ++ runTicks k) w ->
  (m < N)%nat -> (N <= 900)%nat ->
  (forall i, (i < N)%nat -> i <> m -> waits_until s m < waits_until s i) ->
  Forall idle os -> Z.of_nat N + passed os <= waits_until s m ->
  Z.of_nat N + passed os + Z.of_nat k < 4294967296 - 70000 ->
  distinct_ids (all_ids (calls_of m (f_log w))) ->
  choice_times (calls_of m (f_log w)) =
    map (fun j => 60001 * Z.of_nat j) (seq 1 (Z.to_nat ((Z.of_nat N + passed os + Z.of_nat k) / 60001))).
Proof.
  intros s N m os k w (J & B & _ & E) Hm Sm First Idle B1 B2 Sp.
  assert (First' : forall i, (i < N)%nat -> i <> m -> wait s m < wait s i) by (intros i Hi Ne; rewrite <- !waits_wait; auto).
  assert (Wm : 5001 <= wait s m <= Z.of_nat m + 7000) by (rewrite <- waits_wait; unfold waits_until; lia).
  rewrite waits_wait in *. unfold frun in E. destruct (FakeNetwork s N) as [w0| |] eqn:E0; try discriminate. cbn [obind] in E.
  destruct (calm_start s N w0 J B E0) as [C0 Ck0]. rewrite fsteps_app in E.
  destruct (FakeNetwork_ok s N J B) as (w' & E' & _ & _ & _ & _ & _ & _ & _ & Nd & Qu). rewrite E0 in E'. injection E' as <-.
  destruct (fsteps s N os w0) as [w1| |] eqn:E1; try discriminate. cbn [obind] in E.
  destruct (idle_calm s _ _ _ N m os ltac:(lia) Hm First' Idle w0 w1 C0 ltac:(lia) E1) as [C1 Ck1].
  destruct (idle_same s _ _ _ N m os ltac:(lia) Hm First' Idle w0 w1 C0 ltac:(lia) E1) as (Nd1 & evs & Ee & Oe). cbv beta in Ee.
  destruct (ticks_log s N k w1 w (c_ok _ _ _ _ _ C1) E) as (_ & Ck & _).
  assert (Q : f_node w0 m = powered s m (Z.of_nat m + 1)) by apply (Nd m Hm).
  assert (Se : seen_at (f_node w0 m) = 0) by (rewrite Q; unfold powered, bare; destruct (s_junk s m) as [[[ty1 ty2] d1] d2]; reflexivity).
  assert (Ce : ce_takeover (wait s m + 1) (f_node w0 m) = 60000).
  { unfold ce_takeover. rewrite Se, Z.sub_0_r, (u32_id (wait s m + 1)) by lia.
    destruct (Z.ltb_spec 60000 (wait s m + 1)); [lia|]. destruct (Z.eqb_spec (wait s m + 1) 60000); [lia|]. rewrite u32_id by lia. lia. }
  assert (H : paced (fun i => i) (fun _ => []) (wait s) N m [] (f_node w0 m) w).
  { apply (paced_ticks s (fun i => i) (fun _ => []) (wait s) N m ltac:(lia) Hm ltac:(lia) First' [] (f_node w0 m) ltac:(lia) k w1 w); [|lia|exact E|].
    - exists (calls_of m (f_log w1)). split; [reflexivity|]. left. split; [exact C1|]. split; [lia|]. split; [exact Nd1|].
      rewrite Ee, outs_app, Oe, app_nil_r. clear - Qu. unfold calls_of.
      induction Qu as [|[i x] log H F IH]; [reflexivity|]. cbn [filter fst]. destruct (i =? m)%nat; [|exact IH].
      cbn [map snd]. unfold outs. cbn [map concat]. cbn in H. rewrite H. exact IH.
    - intros own Eo. apply unused_start. cbn [app] in Eo. rewrite <- Eo. exact Sp. }
  replace (Z.of_nat N + passed os + Z.of_nat k) with (f_clock w) by lia.
  destruct H as (new & En & [(C & Hc & _ & On)|(Hc & D & T & U & fly & j & s1 & h & g & a & kills & q & R & Tc & Le & Lq & Ti)]); cbn [app] in En.
  - rewrite En, (choice_times_quiet new On). replace (f_clock w / 60001) with 0; [reflexivity|]. pose proof (k_clock _ _ (c_ok _ _ _ _ _ C)). lia.
  - rewrite Ce in *. replace (f_clock w / 60001) with (Z.of_nat q).
    2: { pose proof (k_clock _ _ (r_ok _ _ _ _ _ _ _ _ _ _ _ _ _ _ _ R)). apply (Z.div_unique _ _ _ (f_clock w - 60001 * Z.of_nat q)); [left|lia]. rewrite Tc in *. destruct q; [lia|]. specialize (Lq ltac:(discriminate)). lia. }
    rewrite Nat2Z.id, En, Ti. rewrite <- (seq_shift q 0), map_map. apply map_ext. intros x. lia.
Qed.
Print Assumptions C122_when_the_master_chooses.

Lemma choice_times_in evs t : In t (choice_times evs) <-> exists ev, In ev evs /\ chooses ev /\ at_ ev = t.
Proof.
  assert (B : forall ev, choosing ev = true <-> chooses ev).
  { intros ev. unfold choosing, chooses. rewrite existsb_exists. split.
    - intros (x & I & H); destruct x as [p|[] p]; try discriminate H. eexists. exact I.
    - intros [x I]. exists (Own ByChange x). split; [exact I|reflexivity]. }
  unfold choice_times. rewrite in_map_iff. split.
  - intros (ev & <- & I). apply filter_In in I as [I H]. exists ev. split; [exact I|]. split; [apply B; exact H|reflexivity].
  - intros (ev & I & H & <-). exists ev. split; [reflexivity|]. apply filter_In. split; [exact I|]. apply B. exact H.
Qed.

(** So, with random numbers as described, the nodes agree all the time except in
    the first 3N + 2003 ms after the master took over or chose an effect. *)
Theorem C122_the_nodes_agree_most_of_the_time : forall s N m os k w,
  simulated s N (os ++ runTicks k) w ->
  (m < N)%nat -> (N <= 499)%nat ->
  (forall i, (i < N)%nat -> i <> m -> waits_until s m < waits_until s i) ->
  Forall idle os -> Z.of_nat N + passed os <= waits_until s m ->
  varied (s_draw s m) ->
  let now := Z.of_nat N + passed os + Z.of_nat k in
  now < 4294967296 - 70000 ->
  waits_until s m + spread_time N < now -> spread_time N <= now mod 60001 \/ now < 60001 ->
  forall i, (i < N)%nat ->
    effect_bytes (f_node w i) = effect_bytes (f_node w m) /\
    (60001 <= now -> GetEffectIndex (f_node w i) = GetEffectIndex (f_node w m)).
Proof.
  intros s N m os k w Sm Hm HN First Idle B1 V now B2 Hk Ag i Hi. subst now.
  pose proof (C118_varied_draws_give_distinct_ids s N m os k w Sm Hm ltac:(lia) First Idle B1 B2 V) as Sp.
  pose proof (C122_when_the_master_chooses s N m os k w Sm Hm ltac:(lia) First Idle B1 B2 Sp) as Ti.
  set (now := Z.of_nat N + passed os + Z.of_nat k) in *.
  assert (Old : forall ev, In ev (calls_of m (f_log w)) -> chooses ev -> at_ ev + spread_time N <= now).
  { intros ev I C. assert (It : In (at_ ev) (choice_times (calls_of m (f_log w)))) by (apply choice_times_in; eauto).
    rewrite Ti in It. apply in_map_iff in It as (j & <- & I'). apply in_seq in I'. lia. }
  split; [exact (C121_everybody_shows_the_masters_effect s N m os k w Sm Hm HN First Idle B1 B2 Sp Hk Old i Hi)|].
  intros Late. assert (It : In 60001 (choice_times (calls_of m (f_log w)))).
  { rewrite Ti. apply in_map_iff. exists 1%nat. split; [lia|]. apply in_seq. lia. }
  apply choice_times_in in It as (ev & I & C & _).
  apply (C121_everybody_reports_the_masters_effect s N m os k w ev Sm Hm HN First Idle B1 B2 Sp I C Hk Old i Hi).
Qed.
Print Assumptions C122_the_nodes_agree_most_of_the_time.

(** A run of ten minutes with five nodes to which all of this applies. *)
Definition lively : source :=
  mkSource (fun k r => match r with O => if Nat.eqb k 3 then 0%N else 1500%N | _ => (N.of_nat r mod 1000)%N end) (fun r => N.of_nat r)
           (fun _ => mkOffsets 0 0 0) (fun _ => (0, 0, repeat 0 58, repeat 0 58)).

Lemma lively_varied : varied (s_draw lively 3).
Proof.
  split; [intros j k H1 H2|intros j H1]; cbn [s_draw lively]; repeat match goal with |- context [match ?x with O => _ | _ => _ end] => destruct x; [lia|] end.
  - rewrite !(N.mod_small (_ mod 1000)) by (pose proof (N.mod_upper_bound (N.of_nat (S j)) 1000); pose proof (N.mod_upper_bound (N.of_nat (S k)) 1000); lia).
    intros Q. pose proof (N.div_mod (N.of_nat (S j)) 1000 ltac:(discriminate)). pose proof (N.div_mod (N.of_nat (S k)) 1000 ltac:(discriminate)). lia.
  - pose proof (N.mod_upper_bound (N.of_nat (S j)) 1000 ltac:(discriminate)). rewrite N.mod_small by lia. lia.
Qed.

Example C122_inhabited : exists w,
  let os := [FTick; FAdvance 4000] in let k := Z.to_nat 600000 in
  simulated lively 5 (os ++ runTicks k) w /\
  (forall i, (i < 5)%nat -> i <> 3%nat -> waits_until lively 3 < waits_until lively i) /\
  Forall idle os /\ 5 + passed os <= waits_until lively 3 /\ varied (s_draw lively 3) /\
  distinct_ids (all_ids (calls_of 3 (f_log w))) /\
  choice_times (calls_of 3 (f_log w)) = [60001; 120002; 180003; 240004; 300005; 360006; 420007; 480008; 540009; 600010] /\
  (forall i, (i < 5)%nat -> effect_bytes (f_node w i) = effect_bytes (f_node w 3) /\ GetEffectIndex (f_node w i) = GetEffectIndex (f_node w 3)).
Proof.
  set (os := [FTick; FAdvance 4000]). set (k := Z.to_nat 600000).
  assert (Id : Forall idle os) by (repeat constructor; cbn; lia).
  assert (Wf : forall i, (i < 5)%nat -> i <> 3%nat -> waits_until lively 3 < waits_until lively i).
  { intros i Hi Ne. unfold waits_until. cbn [lively s_draw]. destruct (Nat.eqb_spec i 3); [contradiction|]. cbn. lia. }
  assert (P : passed os = 4000) by reflexivity.
  assert (W : waits_until lively 3 = 5004) by reflexivity.
  assert (Hk : Z.of_nat k = 600000) by (subst k; rewrite Z2Nat.id; lia).
  clearbody k. destruct (simulated_exists lively 5 (os ++ runTicks k)) as [w Sm].
  { intros i. cbn -[wf_packet]. split; apply wf_packetb_ok; vm_compute; reflexivity. } { lia. }
  { apply Forall_app. split; [repeat constructor; cbn; lia|apply runTicks_ok]. }
  exists w. cbv zeta. split; [exact Sm|]. split; [exact Wf|]. split; [exact Id|]. split; [lia|]. split; [exact lively_varied|].
  pose proof (C118_varied_draws_give_distinct_ids lively 5 3 os k w Sm ltac:(lia) ltac:(lia) Wf Id ltac:(lia) ltac:(lia) lively_varied) as Sp.
  split; [exact Sp|].
  pose proof (C122_when_the_master_chooses lively 5 3 os k w Sm ltac:(lia) ltac:(lia) Wf Id ltac:(lia) ltac:(lia) Sp) as Ti.
  rewrite P, Hk in Ti. split; [exact Ti|].
  intros i Hi. destruct (C122_the_nodes_agree_most_of_the_time lively 5 3 os k w Sm ltac:(lia) ltac:(lia) Wf Id ltac:(lia) lively_varied ltac:(lia) ltac:(rewrite W; unfold spread_time; lia)) with (i := i) as [A B]; auto.
  { left. rewrite P, Hk. unfold spread_time. cbn. lia. } { split; [exact A|]. apply B. lia. }
Qed.

(** In the first minute of the same run: the nodes show the same effect but report
    different numbers. *)
Example C121_inhabited : exists w,
  simulated lively 5 ([FTick; FAdvance 4000] ++ runTicks (Z.to_nat 40000)) w /\
  distinct_ids (all_ids (calls_of 3 (f_log w))) /\
  (forall ev, In ev (calls_of 3 (f_log w)) -> ~ chooses ev) /\
  GetEffectIndex (f_node w 3) = 0 /\ GetEffectIndex (f_node w 1) = 1 /\
  effect_bytes (f_node w 3) = [1; 0; 0] /\ effect_bytes (f_node w 1) = [1; 0; 0].
Proof.
  set (os := [FTick; FAdvance 4000]). set (k := Z.to_nat 40000).
  assert (Id : Forall idle os) by (repeat constructor; cbn; lia).
  assert (Wf : forall i, (i < 5)%nat -> i <> 3%nat -> waits_until lively 3 < waits_until lively i).
  { intros i Hi Ne. unfold waits_until. cbn [lively s_draw]. destruct (Nat.eqb_spec i 3); [contradiction|]. cbn. lia. }
  assert (P : passed os = 4000) by reflexivity.
  assert (W : waits_until lively 3 = 5004) by reflexivity.
  assert (Hk : Z.of_nat k = 40000) by (subst k; rewrite Z2Nat.id; lia).
  clearbody k. destruct (simulated_exists lively 5 (os ++ runTicks k)) as [w Sm].
  { intros i. cbn -[wf_packet]. split; apply wf_packetb_ok; vm_compute; reflexivity. } { lia. }
  { apply Forall_app. split; [repeat constructor; cbn; lia|apply runTicks_ok]. }
  exists w. split; [exact Sm|].
  pose proof (C118_varied_draws_give_distinct_ids lively 5 3 os k w Sm ltac:(lia) ltac:(lia) Wf Id ltac:(lia) ltac:(lia) lively_varied) as Sp.
  split; [exact Sp|].
  pose proof (C122_when_the_master_chooses lively 5 3 os k w Sm ltac:(lia) ltac:(lia) Wf Id ltac:(lia) ltac:(lia) Sp) as Ti.
  rewrite P, Hk in Ti. split.
  { intros ev I C. assert (It : In (at_ ev) (choice_times (calls_of 3 (f_log w)))) by (apply choice_times_in; eauto). rewrite Ti in It. destruct It. }
  destruct (C121_the_master_reports_another_number_at_first lively 5 3 os k w Sm ltac:(lia) ltac:(lia) Wf Id ltac:(lia) Sp ltac:(rewrite W; unfold spread_time; lia)) as (A & B & C).
  destruct (C 1%nat ltac:(lia) ltac:(lia)) as [C1 C2]. auto.
Qed.

(** ** After any silence *)
(** The same when a node takes over after a silence at any time, as in C120. *)
Theorem C121_everybody_follows_a_new_master : forall s N os w1,
  simulated s N (os ++ [FTick]) w1 -> silent N w1 -> f_loss w1 = 0 -> (N <= 499)%nat -> f_clock w1 < wrap - 80000 ->
  exists moment : nat -> Z,
  (forall i, (i < N)%nat -> patient_until s w1 i (moment i) /\ moment i <= f_clock w1 + 6999) /\
  forall m os2 k w,
    fsteps s N (os2 ++ runTicks k) w1 = Ok w ->
    (m < N)%nat -> (forall i, (i < N)%nat -> i <> m -> moment m < moment i) ->
    Forall idle os2 -> f_clock w1 + passed os2 <= moment m ->
    f_clock w1 + passed os2 + Z.of_nat k < wrap - 70000 ->
    new_to_all N m w1 w ->
    moment m + spread_time N < f_clock w ->
    (forall ev, In ev (skipn (length (calls_of (f_name w1 m) (f_log w1))) (calls_of (f_name w1 m) (f_log w))) -> chooses ev ->
       at_ ev + spread_time N <= f_clock w) ->
    forall i, (i < N)%nat -> effect_bytes (f_node w i) = effect_bytes (f_node w m).
Proof.
  intros s N os w1 Sim (Air0 & Qt) Ls Sm Ck. unfold wrap in Ck.
  destruct (simulated_ok _ _ _ _ Sim) as [K T].
  assert (Tk : forall i, (i < N)%nat -> f_ticked w1 i = true).
  { destruct Sim as (J & B & F & E). unfold frun in E. destruct (FakeNetwork s N) as [w0| |] eqn:E0; try discriminate. cbn [obind] in E.
    rewrite fsteps_app in E. destruct (fsteps s N os w0) as [wa| |] eqn:E1; try discriminate. cbn [obind fsteps fstep] in E.
    destruct (FakeTick s N wa) as [wb| |] eqn:E2; try discriminate. cbn [obind] in E. injection E as ->.
    destruct (frun_ok s N os J B (proj1 (proj1 (Forall_app _ _ _) F))) as (wa' & Ea & Ka & _).
    unfold frun in Ea. rewrite E0 in Ea. cbn [obind] in Ea. rewrite E1 in Ea. injection Ea as <-.
    destruct (FakeTick_ok s N wa Ka) as (evs & w' & E' & _ & Tm & _). rewrite E2 in E'. injection E' as <-. intros i Hi. apply (Tm i Hi). }
  pose proof (calm_silence s N w1 K T Ls Tk Air0 (fun i Hi => proj1 (Qt i Hi)) (fun i Hi => proj2 (Qt i Hi))) as C.
  assert (Tb : forall i, (i < N)%nat -> 5000 <= t_hb (f_node w1 i) <= f_clock w1 + 6999).
  { intros i Hi. destruct (t_hist _ _ _ T (f_name w1 i) (t_names _ _ _ T i Hi)) as (t0 & n & B0 & _ & H & U).
    rewrite (U i Hi eq_refl) in H.
    assert (AB : forall ev, In ev (calls_of (f_name w1 i) (f_log w1)) -> at_ ev <= f_clock w1).
    { intros ev I. apply calls_of_in in I. apply (t_late _ _ _ T _ I). }
    assert (AB' : all_before (wrap - 7000) t0 (calls_of (f_name w1 i) (f_log w1))).
    { unfold wrap. split; [lia|]. intros ev I. specialize (AB ev I). lia. }
    pose proof (timer_inv _ _ _ _ H AB') as TI. destruct (Qt i Hi) as [_ S]. unfold GetCurrentState in S. rewrite S in TI.
    destruct TI as (c & (A1 & A2 & _) & Bc).
    assert (c <= f_clock w1); [|lia]. destruct A1 as [->|(ev & I & <- & _)]; [lia|apply AB; exact I]. }
  exists (fun i => t_hb (f_node w1 i)). split.
  - intros i Hi. specialize (Tb i Hi). split; [|lia]. split; [unfold wrap; lia|].
    apply (patience_is_timer (env_of s (f_name w1 i)) _ (t_hb (f_node w1 i)) eq_refl (k_nodes _ _ K i Hi)); try lia; [apply Qt; exact Hi|unfold wrap; lia].
  - intros m os2 k w E Hm First Idle B1 B2 [Sp Sp2] Hk Old i Hi. unfold wrap in B2. unfold spread_time in *. rewrite fsteps_app in E.
    destruct (fsteps s N os2 w1) as [w2| |] eqn:E2; try discriminate. cbn [obind] in E.
    destruct (idle_calm s _ _ _ N m os2 ltac:(lia) Hm First Idle w1 w2 C B1 E2) as [C2 Ck2].
    destruct (idle_same s _ _ _ N m os2 ltac:(lia) Hm First Idle w1 w2 C B1 E2) as (Nd2 & evs & Ee & Oe).
    destruct (ticks_log s N k w2 w (c_ok _ _ _ _ _ C2) E) as (_ & Ckw & _).
    set (L0 := calls_of (f_name w1 m) (f_log w1)) in *.
    assert (H : course (f_name w1) (fun i => all_ids (calls_of (f_name w1 i) (f_log w1))) (fun i => t_hb (f_node w1 i)) N m L0 (f_node w1 m) w).
    { pose proof (Tb m Hm) as Tbm.
      apply (course_ticks s (f_name w1) (fun i => all_ids (calls_of (f_name w1 i) (f_log w1))) (fun i => t_hb (f_node w1 i)) N m ltac:(lia) Hm ltac:(lia) First L0 (f_node w1 m) Sm k w2 w); [|lia|exact E|].
      - exists evs. split; [exact Ee|]. left. split; [exact C2|]. split; [lia|]. split; [exact Nd2|exact Oe].
      - intros own Eo. unfold ids_of_node in Sp, Sp2. rewrite Eo in Sp, Sp2.
        rewrite skipn_app, skipn_all, Nat.sub_diag in Sp, Sp2. cbn [app skipn] in Sp, Sp2.
        split; [exact Sp|]. intros j x Hj Ne I J. apply last5_lastn in J as [->|J].
        + assert (I' : In 0 own) by (rewrite <- (firstn_skipn 24 own); apply in_or_app; left; exact I).
          apply in_split in I' as (a & b & Eab). destruct (Sp a 0 b Eab) as [Z _]. congruence.
        + exact (Sp2 j x Hj Ne I J). }
    destruct H as (new & En & [(C' & Hc & _)|(Hc & D & T' & U & fly & j & s1 & h & g & a & kills & y & yk & sk & c & st & R & A & O)]); [lia|].
    destruct (Nat.eq_dec i m) as [->|Ne]; [reflexivity|].
    apply (agree_late _ _ _ _ _ _ _ _ _ A); auto. destruct O as [(_ & -> & _)|((ev & I & <- & Cv) & _)]; [lia|].
    enough (at_ ev + (3 * Z.of_nat N + 2004) <= f_clock w) by lia. apply Old; [|exact Cv]. rewrite En, skipn_app, skipn_all, Nat.sub_diag. exact I.
Qed.
Print Assumptions C121_everybody_follows_a_new_master.

Lemma patient_unique s w i t t' : patient_until s w i t -> patient_until s w i t' -> t = t'.
Proof.
  intros [R H] [R' H']. unfold wrap in *.
  assert (L : forall a b, 0 <= a < 4294967296 - 1 -> 0 <= b < 4294967296 - 1 -> 
    (forall u, 0 <= u < 4294967296 -> (a < u <-> b < u)) -> a <= b) by (intros a b Ra Rb Q; destruct (Z.le_gt_cases a b) as [|G]; [assumption|]; specialize (Q a ltac:(lia)); lia).
  assert (Q : forall u, 0 <= u < 4294967296 -> (t < u <-> t' < u)).
  { intros u Hu. destruct (H u Hu) as (n1 & o1 & E1 & Q1). destruct (H' u Hu) as (n2 & o2 & E2 & Q2). rewrite E1 in E2. injection E2 as <- <-. tauto. }
  apply Z.le_antisymm; apply L; auto. intros u Hu. specialize (Q u Hu). tauto.
Qed.

Lemma run_in_parts s N os1 os2 w1 w : simulated s N os1 w1 -> simulated s N (os1 ++ os2) w -> fsteps s N os2 w1 = Ok w.
Proof.
  intros (_ & _ & _ & E1) (_ & _ & _ & E). unfold frun in *. destruct (FakeNetwork s N) as [w0| |]; try discriminate. cbn [obind] in *.
  rewrite fsteps_app, E1 in E. exact E.
Qed.
Lemma run_clock s N d k w1 w : ok N w1 /\ traced s N w1 -> 0 <= d -> fsteps s N ([FAdvance d] ++ runTicks k) w1 = Ok w -> f_clock w = f_clock w1 + d + Z.of_nat k.
Proof.
  intros [K _] Hd E. cbn [app fsteps fstep obind] in E.
  assert (K' : ok N (advanceMillis d w1)) by (destruct K as [[? ? ? ?] ? ?]; constructor; [constructor|..]; auto; cbn; lia).
  destruct (ticks_log s N k _ w K' E) as (_ & Ck & _). rewrite Ck. reflexivity.
Qed.

(** The first silence is the one after power-up. *)
Lemma follow_example k : Z.of_nat k = 50000 -> exists w1 w moment,
  simulated lively 5 ([] ++ [FTick]) w1 /\ silent 5 w1 /\ f_loss w1 = 0 /\ f_clock w1 = 5 /\
  (forall i, (i < 5)%nat -> patient_until lively w1 i (moment i)) /\
  moment 3%nat = 5004 /\ (forall i, (i < 5)%nat -> i <> 3%nat -> moment 3%nat < moment i) /\
  fsteps lively 5 ([FAdvance 4000] ++ runTicks k) w1 = Ok w /\ new_to_all 5 3 w1 w /\ f_clock w = 54005 /\
  choice_times (calls_of 3 (f_log w)) = [].
Proof.
  intros Hk.
  set (os := [FTick; FAdvance 4000]).
  assert (Id : Forall idle os) by (repeat constructor; cbn; lia).
  assert (Wf : forall i, (i < 5)%nat -> i <> 3%nat -> waits_until lively 3 < waits_until lively i).
  { intros i Hi Ne. unfold waits_until. cbn [lively s_draw]. destruct (Nat.eqb_spec i 3); [contradiction|]. cbn. lia. }
  assert (P : passed os = 4000) by reflexivity.
  assert (W : waits_until lively 3 = 5004) by reflexivity.
  assert (J : junk_ok lively) by (intros i; cbn -[wf_packet]; split; apply wf_packetb_ok; vm_compute; reflexivity).
  destruct (simulated_exists lively 5 (os ++ runTicks k) J) as [w Sm]; [lia| |].
  { apply Forall_app. split; [repeat constructor; cbn; lia|apply runTicks_ok]. }
  destruct (simulated_exists lively 5 ([] ++ [FTick]) J) as [w1 Sm1]; [lia|repeat constructor; cbn; lia|].
  pose proof (C118_varied_draws_give_distinct_ids lively 5 3 os k w Sm ltac:(lia) ltac:(lia) Wf Id ltac:(lia) ltac:(lia) lively_varied) as Sp.
  pose proof (C122_when_the_master_chooses lively 5 3 os k w Sm ltac:(lia) ltac:(lia) Wf Id ltac:(lia) ltac:(lia) Sp) as Ti. rewrite P, Hk in Ti.
  assert (T : (quiet 5 w1 && forallb (fun i => (match GetCurrentState (f_node w1 i) with Slave => true | _ => false end) && (Nat.eqb (f_name w1 i) i) && (t_hb (f_node w1 i) =? waits_until lively i) &&
      (match ids_of_node w1 i with [] => true | _ => false end)) (seq 0 5) && (f_loss w1 =? 0) && (f_clock w1 =? 5))%bool = true).
  { apply (ends_true _ _ _ (fun w1 => (quiet 5 w1 && forallb (fun i => (match GetCurrentState (f_node w1 i) with Slave => true | _ => false end) && (Nat.eqb (f_name w1 i) i) && (t_hb (f_node w1 i) =? waits_until lively i) &&
      (match ids_of_node w1 i with [] => true | _ => false end)) (seq 0 5) && (f_loss w1 =? 0) && (f_clock w1 =? 5))%bool) _ Sm1). vm_compute. reflexivity. }
  apply andb_true_iff in T as [T T4]. apply andb_true_iff in T as [T T3]. apply andb_true_iff in T as [T1 T2].
  destruct (quiet_ok _ _ T1) as [Q1 Q2]. rewrite forallb_forall in T2.
  assert (Each : forall i, (i < 5)%nat -> GetCurrentState (f_node w1 i) = Slave /\ f_name w1 i = i /\ t_hb (f_node w1 i) = waits_until lively i /\ ids_of_node w1 i = []).
  { intros i Hi. specialize (T2 i ltac:(apply in_seq; lia)). apply andb_true_iff in T2 as [T2 U4]. apply andb_true_iff in T2 as [T2 U3]. apply andb_true_iff in T2 as [U1 U2].
    split; [destruct (GetCurrentState (f_node w1 i)); [reflexivity|discriminate]|]. split; [apply Nat.eqb_eq; exact U2|]. split; [apply Z.eqb_eq; exact U3|]. destruct (ids_of_node w1 i); [reflexivity|discriminate]. }
  exists w1, w, (waits_until lively). split; [exact Sm1|]. split; [split; [exact Q1|intros i Hi; split; [apply Q2; exact Hi|apply Each; exact Hi]]|].
  split; [apply Z.eqb_eq; exact T3|]. split; [apply Z.eqb_eq; exact T4|].
  assert (E : fsteps lively 5 ([FAdvance 4000] ++ runTicks k) w1 = Ok w).
  { exact (run_in_parts lively 5 ([] ++ [FTick]) ([FAdvance 4000] ++ runTicks k) w1 w Sm1 Sm). }
  split; [|split; [exact W|split; [exact Wf|split; [exact E|]]]].
  - intros i Hi. destruct (Each i Hi) as (St & _ & Hb & _).
    assert (Wr : 0 < waits_until lively i < 100000) by (unfold waits_until; lia).
    split; [unfold wrap; lia|]. destruct (simulated_ok _ _ _ _ Sm1) as [K _].
    apply (patience_is_timer (env_of lively (f_name w1 i)) _ (waits_until lively i) eq_refl (k_nodes _ _ K i Hi)); try lia; try exact St; try (unfold wrap; lia).
  - split; [split|split].
    + destruct (Each 3%nat ltac:(lia)) as (_ & Nm & _ & Ids). rewrite Ids, Nm. exact Sp.
    + intros i x Hi Ne _. destruct (Each i Hi) as (_ & _ & _ & Ids). cbv zeta. rewrite Ids. intros [].
    + rewrite (run_clock lively 5 4000 k w1 w (simulated_ok _ _ _ _ Sm1) ltac:(lia) E). apply Z.eqb_eq in T4. lia.
    + exact Ti.
Qed.
Example C121_follow_inhabited : exists w1 w moment,
  simulated lively 5 ([] ++ [FTick]) w1 /\ silent 5 w1 /\ f_loss w1 = 0 /\ f_clock w1 = 5 /\
  (forall i, (i < 5)%nat -> patient_until lively w1 i (moment i)) /\
  moment 3%nat = 5004 /\ (forall i, (i < 5)%nat -> i <> 3%nat -> moment 3%nat < moment i) /\
  fsteps lively 5 ([FAdvance 4000] ++ runTicks (Z.to_nat 50000)) w1 = Ok w /\ new_to_all 5 3 w1 w /\ f_clock w = 54005 /\
  choice_times (calls_of 3 (f_log w)) = [].
Proof. apply follow_example. rewrite Z2Nat.id; lia. Qed.
