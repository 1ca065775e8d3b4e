(** C133: what a node does with packets does not depend on how its clock moves
    while a call runs. *)
From Coq Require Import ZArith Lia List Bool.
From Coq Require Import ZifyBool.
From Verif Require Import CInt CIntFacts Packet SpecPacket PacketFacts NetMgr NetHist SpecNet NetFacts Rsm RsmStep RsmEval RsmHist SpecRsm RsmFacts RsmTime RoleFacts EffectFacts RsmRun PropHeartbeat PropEffect PropHold BeginMasterRace RsmClock ClockFacts SpecClock ClockRun PropClock.
Import ListNotations.
Open Scope Z_scope.
Ltac Zify.zify_post_hook ::= Z.div_mod_to_equations.

Ltac accepted_tick S Ac ::=
  let inc := fresh "inc" in let C := fresh "C" in let Hh := fresh "Hh" in let T := fresh "T" in
  pose proof (proj1 (cstep_accepted _ _ _ _ S) Ac) as (inc & C & Hh);
  pose proof (ctick_of _ _ _ _ C S) as T.

Theorem C133_election e t0 h x p :
  chistory e t0 (h ++ [x]) -> accepted (what x) p -> ptype p = 0 -> role_before (what x) = Master ->
  let number := election_draw (plat e) (draw e (rng (before (what x)))) in
  (pid p < number ->
     role_after (what x) = Master /\
     exists q, sent (what x) = [Forwarded p; Own ByElection q] /\ ptype q = 1 /\ dlen q = 0) /\
  (number <= pid p -> role_after (what x) = Slave /\ sent (what x) = [Forwarded p]).
Proof.
  intros [n H] Ac P R. apply chist_last in H as (H & -> & F0 & At & L1 & L2 & G & O & S).
  pose proof (proj1 (cstep_accepted e _ (what x) p S) Ac) as (inc & C & Hh).
  pose proof (ctick_of _ _ _ _ C S) as T.
  destruct x as [c [t o m m' out]]; cbn [reading what] in *; proj. cbv zeta.
  assert (EN : election_number e m = election_draw (plat e) (draw e (rng m))).
  { unfold election_number, election_draw. destruct (plat e); cbn [random2 Z.eqb Z.leb].
    - rewrite u16_id; [reflexivity|]. pose proof (Z.mod_pos_bound (Z.of_N (draw e (rng m))) 65535 ltac:(lia)). lia.
    - reflexivity. }
  rewrite <- EN.
  unfold GetCurrentState in R.
  destruct T; proj; try congruence; assert (Ep : p0 = p) by congruence; subst p0;
    try (unfold HEARTBEAT, CLAIM_MASTER, SET_EFFECT, SET_CONTROL in *; congruence).
  - split; intros K; [|lia]. split; [exact R|]. eexists. split; [reflexivity|split; reflexivity].
  - split; intros K; [lia|]. split; reflexivity.
Qed.
Print Assumptions C133_election.

Theorem C133_role_changes e t0 h x : chistory e t0 (h ++ [x]) ->
  (took_over (what x) -> packet_free (what x)) /\
  (stepped_down (what x) -> exists p, accepted (what x) p /\
      (ptype p = 1 \/
       ptype p = 0 /\ election_draw (plat e) (draw e (rng (before (what x)))) <= pid p)) /\
  (forall p, accepted (what x) p -> ptype p = 1 -> role_after (what x) = Slave) /\
  ((forall inc, call (what x) <> OTick inc) -> role_after (what x) = role_before (what x)).
Proof.
  intros HH. pose proof HH as [n H]. apply chist_last in H as (H & -> & F0 & At & L1 & L2 & G & O & S).
  split; [|split; [|split]].
  - intros [R1 R2]. apply (cstep_packet_free e _ (what x) S).
    destruct x as [c [t o m m' out]]; cbn [reading what] in *; proj. destruct S as [inc out m' T|q R|v|v]; proj; try congruence.
    destruct T; proj; try congruence; eauto.
  - intros [R1 R2]. pose proof S as S0.
    assert (K : exists p, accepted (what x) p /\ (ptype p = 0 \/ ptype p = 1)).
    { destruct x as [c [t o m m' out]]; cbn [reading what] in *; proj. destruct S as [inc out m' T|q R|v|v]; proj; try congruence.
      destruct T; proj; try congruence;
      exists p; (split; [eapply cstep_accepted; [exact S0|]; proj; eauto|]);
      unfold HEARTBEAT, CLAIM_MASTER in *; lia. }
    destruct K as (p & A & [P|P]); exists p; (split; [exact A|]); [|auto]. right. split; [exact P|].
    destruct (C133_election e t0 h x p HH A P R1) as [W _].
    destruct (Z_lt_ge_dec (pid p) (election_draw (plat e) (draw e (rng (before (what x)))))) as [Hl|]; [|lia].
    apply W in Hl as [X _]. congruence.
  - intros p A P. pose proof (proj1 (cstep_accepted e _ (what x) p S) A) as (inc & C & Hh).
    pose proof (ctick_of _ _ _ _ C S) as T.
    destruct x as [c [t o m m' out]]; cbn [reading what] in *; proj.
    destruct T; proj; try congruence; assert (Ep : p0 = p) by congruence; subst p0;
    unfold HEARTBEAT, CLAIM_MASTER, SET_EFFECT, SET_CONTROL in *; congruence.
  - intros N. destruct x as [c [t o m m' out]]; cbn [reading what] in *; proj.
    destruct S as [inc out m' T|q R|v|v]; proj; try reflexivity. exfalso; eapply N; eauto.
Qed.
Print Assumptions C133_role_changes.

Theorem C133_unknown_types_inert e t0 h x p : chistory e t0 (h ++ [x]) ->
  accepted (what x) p -> ptype p <> 0 -> ptype p <> 1 -> ptype p <> 2 -> ptype p <> 3 ->
  sent (what x) = [Forwarded p] /\
  (* nothing but the memory of ids differs *)
  with_nm (nm (before (what x))) (after (what x)) = before (what x) /\
  GetCurrentState (after (what x)) = GetCurrentState (before (what x)) /\
  (forall now, GetNetworkMillis now (after (what x)) = GetNetworkMillis now (before (what x))) /\
  GetEffectIndex (after (what x)) = GetEffectIndex (before (what x)) /\
  GetSetEffect (after (what x)) = GetSetEffect (before (what x)).
Proof.
  intros [n H] Ac N0 N1 N2 N3. apply chist_last in H as (H & -> & F0 & At & L1 & L2 & G & O & S).
  pose proof (proj1 (cstep_accepted e _ (what x) p S) Ac) as (inc & C & Hh).
  pose proof (ctick_of _ _ _ _ C S) as T.
  destruct x as [c [t o m m' out]]; cbn [reading what] in *; proj.
  destruct T; proj; try congruence; assert (Ep : p0 = p) by congruence; subst p0;
    try (unfold HEARTBEAT, CLAIM_MASTER, SET_EFFECT, SET_CONTROL in *; congruence).
  split; [reflexivity|]. split; [|repeat split; reflexivity]. destruct m; reflexivity.
Qed.
Print Assumptions C133_unknown_types_inert.

Theorem C133_slaves_are_quiet e t0 h x : chistory e t0 (h ++ [x]) -> role_before (what x) = Slave ->
  match call (what x) with
  | OTick _ =>
      (sent (what x) = [] /\ role_after (what x) = Slave) \/
      (exists p, sent (what x) = [Forwarded p] /\ accepted (what x) p /\ role_after (what x) = Slave) \/
      (exists p, sent (what x) = [Own ByHeartbeat p] /\ ptype p = 0 /\ role_after (what x) = Master)
  | OSetEffect q => exists p, sent (what x) = [Own ByApi p] /\ same_content p q /\ role_after (what x) = Slave
  | _ => sent (what x) = [] /\ role_after (what x) = Slave
  end.
Proof.
  intros [n H] R. apply chist_last in H as (H & -> & F0 & At & L1 & L2 & G & O & S).
  pose proof S as S0. destruct x as [c [t o m m' out]]; cbn [reading what] in *; proj. unfold GetCurrentState in R.
  destruct S as [inc out m' T|q Rd|v|v]; proj; auto.
  - pose proof T as T0. destruct T; proj; try congruence; auto;
    try (right; right; eexists; split; [reflexivity|split; [reflexivity|assumption || reflexivity]]; fail);
    right; left; exists p; (split; [reflexivity|]);
    (split; [eapply cstep_accepted; [exact S0|]; proj; eauto | auto]).
  - eexists. split; [reflexivity|]. split; [repeat split|exact R].
Qed.
Print Assumptions C133_slaves_are_quiet.

Theorem C133_set_effect_adopted e t0 h x p : chistory e t0 (h ++ [x]) ->
  accepted (what x) p -> ptype p = 2 ->
  GetSetEffect (after (what x)) = p /\ GetEffectIndex (after (what x)) = nth 0 (pdata p) 0.
Proof.
  intros HH Ac P. destruct HH as [n H]; apply chist_last in H as (H & -> & F0 & At & L1 & L2 & G & O & S). accepted_tick S Ac.
  assert (W : wf_packet p) by (destruct Ac as [Ca _]; rewrite Ca in O; exact O).
  assert (I8 : u8 (i8 (byte_at (pdata p) 0)) = nth 0 (pdata p) 0).
  { rewrite u8_i8. apply u8_id. apply wf_byte; auto. }
  destruct x as [c [t o m m' out]]; cbn [reading what] in *; proj. unfold GetSetEffect, GetEffectIndex.
  cases_heard T p; auto.
Qed.
Print Assumptions C133_set_effect_adopted.

Theorem C133_control_adopted e t0 h x p : chistory e t0 (h ++ [x]) ->
  accepted (what x) p -> ptype p = 3 ->
  GetSetEffect (after (what x)) = p /\ GetEffectIndex (after (what x)) = GetEffectIndex (before (what x)).
Proof.
  intros HH Ac P. destruct HH as [n H]; apply chist_last in H as (H & -> & F0 & At & L1 & L2 & G & O & S). accepted_tick S Ac.
  destruct x as [c [t o m m' out]]; cbn [reading what] in *; proj. unfold GetSetEffect, GetEffectIndex.
  cases_heard T p; auto.
Qed.
Print Assumptions C133_control_adopted.

Theorem C133_nothing_else_changes_the_effect e t0 h x : chistory e t0 (h ++ [x]) ->
  (forall p, accepted (what x) p -> ptype p <> 2 /\ ptype p <> 3) ->
  (forall p, call (what x) <> OSetEffect p) -> ~ own_change (what x) ->
  same_content (GetSetEffect (after (what x))) (GetSetEffect (before (what x))) /\
  GetEffectIndex (after (what x)) = GetEffectIndex (before (what x)).
Proof.
  intros HH Q N NC. destruct HH as [n H]; apply chist_last in H as (H & -> & F0 & At & L1 & L2 & G & O & S). pose proof S as S0.
  assert (Q' : forall inc p, call (what x) = OTick inc -> heard (before (what x)) inc = Some p -> ptype p <> 2 /\ ptype p <> 3).
  { intros inc p C Hp. apply Q. apply (cstep_accepted _ _ _ _ S0). eauto. }
  destruct x as [c [t o m m' out]]; cbn [reading what] in *; proj. unfold GetSetEffect, GetEffectIndex, same_content.
  destruct S as [inc out m' T|p R|v|v]; proj; try (repeat split; reflexivity); [|exfalso; eapply N; reflexivity].
  destruct T; proj; try (repeat split; reflexivity);
    try (exfalso; destruct (Q' inc p eq_refl ltac:(assumption)); types; congruence).
  exfalso. apply NC. eexists; left; reflexivity.
Qed.
Print Assumptions C133_nothing_else_changes_the_effect.

Theorem C133_rebroadcast_is_current e t0 h x p : chistory e t0 (h ++ [x]) ->
  In (Own ByRebroadcast p) (sent (what x)) ->
  same_content p (GetSetEffect (before (what x))) /\ GetSetEffect (after (what x)) = p /\ sent (what x) = [Own ByRebroadcast p] /\
  GetEffectIndex (after (what x)) = GetEffectIndex (before (what x)) /\
  role_before (what x) = Master /\ role_after (what x) = Master /\ packet_free (what x).
Proof.
  intros HH I. destruct HH as [n H]; apply chist_last in H as (H & -> & F0 & At & L1 & L2 & G & O & S).
  assert (F : role_before (what x) = Master /\ role_after (what x) = Master /\ packet_free (what x)).
  { pose proof S as S0. rewrite (cstep_packet_free e _ (what x) S0). destruct x as [c [t o m m' out]]; cbn [reading what] in *; proj.
    destruct S as [inc out m' T|q R|v|v]; proj; own_in I. destruct T; own_in I. eauto. }
  destruct x as [c [t o m m' out]]; cbn [reading what] in *; proj. unfold GetEffectIndex, GetSetEffect, same_content.
  destruct S as [inc out m' T|q R|v|v]; proj; own_in I. destruct T; own_in I. proj.
  split; [repeat split|]. split; [reflexivity|]. split; [reflexivity|]. split; [reflexivity|]. exact F.
Qed.
Print Assumptions C133_rebroadcast_is_current.

(** C10: which packets are accepted. *)
Lemma cstep_nm e m n o out n' s : nm_inv (nm n) s -> cstepR e m n o out n' ->
  nm_inv (nm n') (s ++ map untag out).
Proof.
  intros N T. assert (K : forall t, nm_inv (nm_push (nm n) (pid (tx_packet t))) (s ++ [t])).
  { intros t. apply nm_push_inv; auto. }
  destruct T as [? ? ? T|p R| |]; [|apply (K (Orig (set_id p (fresh e n))))|cbn; now rewrite app_nil_r..].
  destruct T; cbn [map untag]; try (rewrite app_nil_r; exact N);
  try match goal with |- nm_inv _ (_ ++ [?t]) => exact (K t) end.
  change [Relay p; Orig (claim_packet e n)] with ([Relay p] ++ [Orig (claim_packet e n)]).
  rewrite app_assoc. apply (nm_push_inv _ _ (Orig (claim_packet e n))). apply (K (Relay p)).
Qed.

Lemma chist_nm e t0 h n : chist e t0 h n -> nm_inv (nm n) (map untag (concat (map sent (map what h)))).
Proof.
  intros H. pattern h, n. revert h n H. apply (chist_ind2 e t0); auto.
  - intros. cbn. apply nm_inv_init.
  - intros h x H IH (F & At & L1 & L2 & G & O & S). rewrite !map_app, concat_app, map_app. cbn. rewrite app_nil_r. eapply cstep_nm; eauto.
Qed.

Theorem C133_node_accepts_iff_not_recent e t0 h x p :
  chistory e t0 (h ++ [x]) -> call (what x) = OTick (Some p) ->
  accepted (what x) p <-> ~ In (pid p) (last5 (all_ids (map what h))).
Proof.
  intros [n H] C. apply chist_last in H as (H & -> & F & At & L1 & L2 & G & O & S).
  rewrite (cstep_accepted _ _ _ _ S).
  apply chist_nm in H as [W V]. rewrite <- all_ids_eq, <- V.
  pose proof (existsb_window (nm (before (what x))) (pid p) W) as E. split.
  - intros (inc & C' & Hh) I. rewrite C in C'. inversion C'; subst. cbn in Hh. apply E in I. rewrite I in Hh. discriminate.
  - intros N. exists (Some p). split; [exact C|]. cbn. destruct (existsb _ _); [|reflexivity]. exfalso. apply N, E. reflexivity.
Qed.
Print Assumptions C133_node_accepts_iff_not_recent.

(** C32: the re-broadcasts of a master. *)
Definition cbc_inv (h : list timed) (n : node) : Prop :=
  exists b r, In b h /\ (took_over (what b) \/ by_site ByRebroadcast (what b)) /\ started b <= r <= ended b /\ t_bc n = r + 2000 /\
    forall y, In y h -> took_over (what y) \/ by_site ByRebroadcast (what y) -> started y <= r.

Lemma cbc_timer_inv e t0 h n : chist e t0 h n -> ends_before (wrap - 2000) t0 h ->
  state n = Master -> cbc_inv h n.
Proof.
  intros H. pattern h, n. revert h n H. apply (chist_ind2 e t0).
  - intros; discriminate.
  - intros h x H IH (F & At & L1 & L2 & G & O & S) B M. apply ends_before_last in B as [B Bt].
    specialize (IH B). pose proof (chist_t0 _ _ _ _ H) as P0. pose proof (chist_ordered _ _ _ _ H) as Ord.
    assert (New : forall i, (i <= 10)%nat -> took_over (what x) \/ by_site ByRebroadcast (what x) ->
              t_bc (after (what x)) = u32 (u32 (reading x i) + 2000) -> cbc_inv (h ++ [x]) (after (what x))).
    { intros i Hi X E. pose proof (forward_between _ i F Hi) as Bi. exists x, (reading x i). split; [apply in_or_app; right; left; auto|].
      split; [auto|]. split; [exact Bi|]. split.
      - rewrite E. unfold started, ended in *. apply (u32_small (reading x i) 2000 (wrap - 2000)); unfold wrap in *; lia.
      - intros y I _. apply in_app_or in I as [I|[<-|[]]]; [|apply Bi].
        specialize (L2 y I). specialize (Ord y I). unfold started, ended in *. lia. }
    assert (Keep : state (before (what x)) = Master -> ~ by_site ByRebroadcast (what x) -> t_bc (after (what x)) = t_bc (before (what x)) ->
                   cbc_inv (h ++ [x]) (after (what x))).
    { intros M0 NR E. destruct (IH M0) as (b & r & Ib & Xb & Rb & Tb & Ub). exists b, r.
      split; [apply in_or_app; auto|]. split; [auto|]. split; [auto|]. split; [congruence|].
      intros y I Y. apply in_app_or in I as [I|[<-|[]]]; [auto|]. exfalso.
      destruct Y as [[Y _]|Y]; [|tauto]. unfold role_before, GetCurrentState in Y. congruence. }
    destruct x as [c [t o n n' out]]; cbn [reading what] in *; proj.
    destruct S as [inc out n' T|p R|v|v]; proj; [|apply Keep; auto; intros (? & I); own_in I..].
    destruct T; proj; try congruence;
      try (apply Keep; auto; intros (? & I); own_in I).
    + apply (New 7%nat); [lia| |reflexivity]. left. split; proj; auto.
    + apply (New 3%nat); [lia| |reflexivity]. right. eexists; left; reflexivity.
Qed.

Theorem C133_rebroadcasts_apart e t0 h1 x1 h2 x2 :
  chistory e t0 (h1 ++ x1 :: h2 ++ [x2]) ->
  ends_before (wrap - 2000) t0 (h1 ++ x1 :: h2 ++ [x2]) ->
  rebroadcast (what x1) \/ took_over (what x1) -> rebroadcast (what x2) -> started x1 + 2000 < ended x2.
Proof.
  intros HH B R1 (p & I). destruct HH as [n H].
  replace (h1 ++ x1 :: h2 ++ [x2]) with ((h1 ++ x1 :: h2) ++ [x2]) in *
    by (rewrite <- app_assoc; reflexivity).
  apply chist_last in H as (H & -> & F & At & L1 & L2 & G & O & S).
  apply ends_before_last in B as [B Bt]. pose proof (chist_t0 _ _ _ _ H) as P0.
  pose proof (cbc_timer_inv _ _ _ _ H B) as K.
  assert (X : state (before (what x2)) = Master /\ timer_due (u32 (reading x2 2%nat)) (t_bc (before (what x2))) = true).
  { destruct x2 as [c [t o m m' out]]; cbn [reading what] in *; proj. destruct S as [inc out m' T|q R|v|v]; proj; own_in I.
    destruct T; own_in I. auto. }
  pose proof (forward_between _ 2 F ltac:(lia)) as B2.
  destruct X as [M X]. apply timer_due_iff in X; [|apply G]. unfold started, ended in *. rewrite u32_id in X by (unfold wrap in *; lia).
  destruct (K M) as (b & r & Ib & Xb & Rb & Tb & Ub). specialize (Ub x1).
  assert (J : In x1 (h1 ++ x1 :: h2)) by (apply in_or_app; right; left; reflexivity).
  specialize (Ub J ltac:(destruct R1; auto)). unfold started in *. lia.
Qed.
Print Assumptions C133_rebroadcasts_apart.

Theorem C133_rebroadcast_due_is_sent e t0 h x :
  chistory e t0 (h ++ [x]) -> ends_before (wrap - 2000) t0 (h ++ [x]) ->
  role_before (what x) = Master -> packet_free (what x) ->
  (forall y, In y h -> rebroadcast (what y) \/ took_over (what y) -> ended y + 2000 < started x) ->
  rebroadcast (what x) \/ by_site ByHeartbeat (what x) \/ own_change (what x).
Proof.
  intros HH B R Pf Q. destruct HH as [n H].
  apply chist_last in H as (H & -> & F & At & L1 & L2 & G & O & S).
  apply ends_before_last in B as [B Bt]. pose proof (chist_t0 _ _ _ _ H) as P0.
  destruct (cbc_timer_inv _ _ _ _ H B R) as (b & r & Ib & Xb & Rb & Tb & Ub).
  pose proof (forward_between _ 2 F ltac:(lia)) as B2.
  assert (K : timer_due (u32 (reading x 2%nat)) (t_bc (before (what x))) = true).
  { apply timer_due_iff; [apply G|]. pose proof (chist_ordered _ _ _ _ H b Ib) as Ob. unfold started, ended in *.
    rewrite u32_id by (unfold wrap in *; lia).
    specialize (Q b Ib ltac:(unfold rebroadcast; tauto)). lia. }
  apply (cstep_packet_free e _ _ S) in Pf as (inc & C & Hh). pose proof (ctick_of _ _ _ _ C S) as T.
  unfold rebroadcast, own_change, by_site. destruct x as [c [t o m m' out]]; cbn [reading what] in *; proj.
  destruct T; proj; try congruence.
  - intuition congruence.
  - right; left. eexists; left; reflexivity.
  - right; right. eexists; left; reflexivity.
  - left. eexists; left; reflexivity.
Qed.
Print Assumptions C133_rebroadcast_due_is_sent.

(** C29: own changes stay in the configured range. *)
Lemma cconfigured_eq e t0 h n : chist e t0 h n ->
  num_effects n = configured_effects (map what h) /\ num_palettes n = configured_palettes (map what h).
Proof.
  intros H. pattern h, n. revert h n H. apply (chist_ind2 e t0).
  - intros; split; reflexivity.
  - intros h x H [I1 I2] (F & At & L1 & L2 & G & O & S). unfold configured_effects, configured_palettes in *.
    rewrite map_app, !fold_left_app. cbn [fold_left map]. rewrite <- I1, <- I2.
    destruct x as [c [t o m m' out]]; cbn [reading what] in *; proj. destruct S as [inc out m' T|p R|v|v]; proj; auto.
    destruct T; proj; auto.
Qed.

Theorem C133_own_changes_in_range e t0 h x p : chistory e t0 (h ++ [x]) ->
  In (Own ByChange p) (sent (what x)) ->
  0 < configured_effects (map what h) -> 0 < configured_palettes (map what h) ->
  ptype p = 2 /\ dlen p = 3 /\
  0 <= nth 0 (pdata p) 0 < configured_effects (map what h) /\
  nth 1 (pdata p) 0 = 0 /\
  0 <= nth 2 (pdata p) 0 < configured_palettes (map what h) /\
  GetEffectIndex (after (what x)) = nth 0 (pdata p) 0 /\
  same_content (GetSetEffect (after (what x))) p /\
  role_before (what x) = Master /\ packet_free (what x).
Proof.
  intros [n H] I P1 P2. apply chist_last in H as (H & -> & F0 & At & L1 & L2 & G & O & S). destruct (cconfigured_eq _ _ _ _ H) as [E1 E2].
  rewrite <- E1, <- E2 in *.
  assert (F : role_before (what x) = Master /\ packet_free (what x)).
  { pose proof S as S0. rewrite (cstep_packet_free e _ _ S0). destruct x as [c [t o m m' out]]; cbn [reading what] in *; proj.
    destruct S as [inc out m' T|q R|v|v]; proj; own_in I. destruct T; own_in I. eauto. }
  destruct x as [c [t o m m' out]]; cbn [reading what] in *; proj. unfold GetEffectIndex, GetSetEffect.
  destruct S as [inc out m' T|q R|v|v]; proj; own_in I. destruct T; own_in I. proj.
  destruct (pick_packet_bytes e m G) as (Y0 & Y1 & Y2).
  pose proof (g_ne _ G) as R1. pose proof (g_np _ G) as R2.
  pose proof (picked_range (plat e) (num_effects m) (draw e (rng m)) ltac:(lia)) as B1.
  pose proof (picked_range (plat e) (num_palettes m) (draw e (Datatypes.S (rng m))) ltac:(lia)) as B2.
  fold (pick_effect e m) in B1. fold (pick_palette e m) in B2.
  rewrite (u8_id (pick_effect e m)) in Y0 by lia. rewrite (u8_id (pick_palette e m)) in Y2 by lia.
  unfold set_id; proj. rewrite Y0, Y1, Y2, u8_i8, (u8_id (pick_effect e m)) by lia.
  unfold same_content; proj. destruct F. repeat match goal with |- _ /\ _ => split end; first [lia|reflexivity|assumption].
Qed.
Print Assumptions C133_own_changes_in_range.

(** One history that meets the hypotheses of all of them: a slave hears an effect,
    takes over while the clock jumps, wins an election, changes the effect,
    repeats it, and gives way to a claim. *)
Example C133_example : exists a b c d f g k l n,
  chist (env0 Arduino) 0 [a; b; c; d; f; g; k; l] n /\ ends_before (wrap - 2000) 0 [a; b; c; d; f; g; k; l] /\
  role_before (what a) = Slave /\ accepted (what a) (effect_pkt 50 3 4 2) /\
  took_over (what b) /\ accepted (what c) (heartbeat_pkt 1 5) /\ role_before (what c) = Master /\ role_after (what c) = Master /\
  accepted (what d) (mkPacket 9 200 17 zero58) /\ accepted (what f) (control_pkt 51 60 1 2 3) /\
  by_site ByHeartbeat (what g) /\ rebroadcast (what k) /\ stepped_down (what l).
Proof.
  crun_as H (env0 Arduino) 0
    [(7, 2, 3%nat, OTick (Some (effect_pkt 50 3 4 2))); (7000, 1, 5%nat, OTick None);
     (7100, 1, 5%nat, OTick (Some (heartbeat_pkt 1 5)));
     (7200, 0, 0%nat, OTick (Some (mkPacket 9 200 17 zero58)));
     (7300, 4, 1%nat, OTick (Some (control_pkt 51 60 1 2 3)));
     (9100, 4, 1%nat, OTick None); (9105, 1, 1%nat, OTick None); (9200, 0, 0%nat, OTick (Some (claim_pkt 30000)))].
  match type of H with chist _ _ [?a; ?b; ?c; ?d; ?f; ?g; ?k; ?l] ?n => exists a, b, c, d, f, g, k, l, n end.
  split; [exact H|]. split; [split; [reflexivity|all_calls; reflexivity]|].
  split; [reflexivity|]. split; [split; [reflexivity|left; reflexivity]|]. split; [split; reflexivity|].
  split; [split; [reflexivity|left; reflexivity]|]. split; [reflexivity|]. split; [reflexivity|].
  split; [split; [reflexivity|left; reflexivity]|]. split; [split; [reflexivity|left; reflexivity]|].
  split; [eexists; left; reflexivity|]. split; [eexists; left; reflexivity|]. split; reflexivity.
Qed.

(** Four own effects and three palettes, changed on its own accord. *)
Example C133_own_change_example : exists h x p, chistory (env0 Host) 0 (h ++ [x]) /\
  In (Own ByChange p) (sent (what x)) /\ configured_effects (map what h) = 4 /\ configured_palettes (map what h) = 3.
Proof.
  crun_as H (env0 Host) 0 [(1, 0, 0%nat, OSetNumEffects 4); (2, 0, 0%nat, OSetNumPalettes 3); (61000, 1, 7%nat, OTick None); (61004, 1, 1%nat, OTick None)].
  match type of H with chist _ _ [?a; ?b; ?c; ?d] _ => exists [a; b; c], d end.
  eexists. split; [eexists; exact H|]. split; [left; reflexivity|]. split; reflexivity.
Qed.
