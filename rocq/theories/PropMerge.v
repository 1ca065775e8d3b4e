(** When two networks meet: C110. *)
From Coq Require Import ZArith Lia List Bool.
From Coq Require Import ZifyBool.
From Verif Require Import CInt CIntFacts Packet SpecPacket PacketFacts NetMgr NetHist SpecNet NetFacts Fastled Palette Device LedMgr SpecLed Effects SpecEffect Show ShowFacts PropShow Rsm RsmStep RsmEval RsmHist SpecRsm RsmFacts RsmTime RoleFacts RsmRun EffectFacts PropRole PropHeartbeat PropEffect PropHold PropPair PropNetTime PropNetwork PropOneMaster PropCatchUp PropInStep.
Import ListNotations.
Open Scope Z_scope.
Ltac Zify.zify_post_hook ::= Z.div_mod_to_equations.

(** A node that stays master sends a heartbeat in every 1000 + P ms. *)
Lemma heartbeat_within e t0 h1 m0 h2 u P : history e t0 (h1 ++ m0 :: h2) -> api_ok (h1 ++ m0 :: h2) ->
  all_before (wrap - 7000) t0 (h1 ++ m0 :: h2) -> own_heartbeat m0 ->
  (forall x, In x h2 -> role_after x = Master) -> at_ m0 <= u ->
  (exists y, In y h2 /\ packet_free y /\ u + 1000 < at_ y <= u + 1000 + P) ->
  exists z, In z h2 /\ own_heartbeat z /\ u < at_ z <= u + 1000 + P.
Proof.
  intros [nm Hm] Am [Bm0 Bm1] HB0 Q Lu (y & Iy & Fy & Ly).
  assert (R1 : role_after m0 = Master).
  { assert (Hp : exists m, hist e t0 (h1 ++ [m0]) m).
    { rewrite cons_snoc in Hm. eapply hist_prefix; exact Hm. }
    apply (heartbeat_call e t0 h1 m0 Hp); [|exact HB0]. rewrite cons_snoc in Am. eapply api_ok_app; eauto. }
  apply in_split in Iy as (k1 & k2 & Ek).
  assert (Hy : exists m, hist e t0 ((h1 ++ m0 :: k1) ++ [y]) m).
  { apply (hist_prefix e t0 _ k2 nm). rewrite Ek in Hm. rewrite <- !app_assoc. cbn. exact Hm. }
  assert (Sub : forall z, In z ((h1 ++ m0 :: k1) ++ [y]) -> In z (h1 ++ m0 :: h2)).
  { intros z I. rewrite Ek. apply in_app_or in I as [I|[<-|[]]].
    - apply in_app_or in I as [I|[<-|I]]; apply in_or_app; [left; auto|right; left; auto|right; right; apply in_or_app; left; auto].
    - apply in_or_app; right; right; apply in_or_app; right; left; auto. }
  assert (Ry : role_before y = Master) by (eapply role_chain; [exact Hm|exact R1|exact Q|exact Ek]).
  destruct Hy as [ny Hy].
  destruct (window_dec (h1 ++ m0 :: k1) u) as [(z & Iz & Bz & Lz)|Nw].
  - assert (Lzy : at_ z <= at_ y).
    { pose proof Hy as Hy'. apply hist_last in Hy' as (_ & _ & _ & _ & _ & L2 & _). apply L2; exact Iz. }
    exists z. assert (Iz2 : In z k1).
    { apply in_app_or in Iz as [Iz|[<-|Iz]]; [exfalso|lia|exact Iz].
      assert (Hord : at_ z <= at_ m0).
      { assert (Hp : exists m, hist e t0 (h1 ++ [m0]) m).
        { rewrite cons_snoc in Hm. eapply hist_prefix; exact Hm. }
        destruct Hp as [m Hp]. apply hist_last in Hp as (_ & _ & _ & _ & _ & L2 & _). apply L2; exact Iz. }
      lia. }
    split; [rewrite Ek; apply in_or_app; left; exact Iz2|]. split; [|lia].
    eapply heartbeat_site_in; [exact Hm|exact Am| |exact Bz].
    apply in_or_app; right; right. rewrite Ek. apply in_or_app; left; exact Iz2.
  - exists y. split; [rewrite Ek; apply in_or_app; right; left; reflexivity|]. split; [|lia].
    apply (C20_heartbeat_due_is_sent e t0 (h1 ++ m0 :: k1) y); auto.
    + eexists; exact Hy.
    + intros z q I. apply Am. apply Sub; exact I.
    + split; [exact Bm0|]. intros z I. apply Bm1. apply Sub; exact I.
    + intros z I Oz.
      assert (Bz : by_site ByHeartbeat z).
      { eapply heartbeat_site_in; [exact Hm|exact Am| |exact Oz]. apply Sub. apply in_or_app; left; exact I. }
      specialize (Nw z I Bz). lia.
Qed.

Section Merge.
Variables (w : network) (N m : nat) (m0 : event) (rest : run) (g stop P D : Z).
Let tr : run := (m, m0) :: rest.
Hypothesis IT : in_touch w N m tr g stop P D.
Hypothesis Eg : g = global w m m0.
Hypothesis TO : own_heartbeat m0.
Hypothesis RM : forall y, In (m, y) tr -> role_after y = Master.
Hypothesis P0 : 0 <= P.
Hypothesis D0 : 0 <= D.
Hypothesis PD : 1000 + P + D <= 5000.

Lemma mg_first pre post : tr = pre ++ post -> pre <> [] -> exists r, pre = (m, m0) :: r /\
  calls_at m pre = m0 :: calls_at m r.
Proof using.
  intros E Np. destruct pre as [|z r]; [congruence|]. unfold tr in E. cbn in E. injection E as <- _.
  exists r. split; [reflexivity|]. change ((m, m0) :: r) with ([(m, m0)] ++ r). rewrite calls_at_app, calls_at_one. reflexivity.
Qed.

(** While m is master nobody else becomes master. *)
Lemma mg_no_takeover i ev : In (i, ev) tr -> i <> m -> g + D < global w i ev -> ~ took_over ev.
Proof using All.
  intros Ii Ne L TOs. destruct IT as [R O Bd Past W Fr Arr Prompt].
  pose proof Ii as Is. apply in_split in Is as (pre & post & E).
  assert (Rp : is_run w (pre ++ (i, ev) :: post)) by (rewrite <- E; exact R).
  destruct (run_split _ _ _ _ _ Rp) as (n & H & Ap).
  assert (Np : pre <> []) by (intros ->; unfold tr in E; cbn in E; inversion E; congruence).
  destruct (mg_first _ _ E Np) as (r & Er & CM).
  assert (Hm : is_run w pre) by (eapply run_prefix; exact Rp).
  assert (Sub : forall k z, In z (calls_at k pre) -> In z (calls_at k tr)).
  { intros k z I. apply in_calls_at. apply in_calls_at in I. rewrite E. apply in_or_app; left; exact I. }
  destruct (Bd i ev Ii) as [Ni Ti].
  assert (Nm : (m < N)%nat) by (apply (Bd m m0); left; reflexivity).
  enough (global w i ev <= g + D) by lia.
  rewrite Eg. unfold global.
  apply (C40_bounded_network_keeps_its_master (n_env w m) (n_start w m) (n_past w m) m0 (calls_at m r)
           (n_env w i) (n_start w i) (n_past w i ++ calls_at i pre) ev (n_off w m) (n_off w i) P D); auto.
  - rewrite <- CM. apply Hm.
  - rewrite <- CM. apply Hm.
  - rewrite <- CM. destruct (W m Nm) as [W1 W2]. split; [exact W1|]. intros z I. apply W2.
    apply in_app_or in I as [I|I]; apply in_or_app; auto.
  - eexists; exact H.
  - destruct (W i Ni) as [W1 W2]. split; [exact W1|]. intros z I. apply W2.
    apply in_app_or in I as [I|[<-|[]]].
    + apply in_app_or in I as [I|I]; apply in_or_app; auto.
    + apply in_or_app; right. apply in_calls_at. exact Ii.
  - intros z I. apply in_calls_at in I. apply RM. rewrite E. apply in_or_app; left. rewrite Er. right; exact I.
  - intros x Lx Ux. fold (global w i ev) in Ux. fold (global w m m0) in Lx.
    destruct (Fr x ltac:(lia) ltac:(lia)) as (y & Iy & Fy & Ly).
    exists y. split; [|split; [exact Fy|exact Ly]].
    assert (Ip : In (m, y) pre) by (eapply ordered_before; [rewrite <- E; exact O|rewrite <- E; exact Iy|lia]).
    rewrite Er in Ip. destruct Ip as [Ip|Ip]; [|apply in_calls_at; exact Ip].
    inversion Ip; subst. lia.
  - intros y Iy (p & Oy & Tp) Ty. fold (global w m y) in Ty. fold (global w i ev) in Ty.
    assert (Iy' : In (m, y) tr).
    { rewrite E. apply in_or_app; left. rewrite Er. destruct Iy as [<-|Iy]; [left; reflexivity|right; apply in_calls_at; exact Iy]. }
    destruct (Arr y p i Iy' Oy (or_introl Tp) Ni Ne ltac:(lia)) as (c & q & Ic & Ac & Sq & Lc).
    exists c. split; [|split; [exists q; split; [exact Ac|left; destruct Sq; congruence]|exact Lc]].
    apply in_or_app; right. apply in_calls_at.
    eapply ordered_before; [rewrite <- E; exact O|rewrite <- E; exact Ic|lia].
Qed.

Lemma mg_hist a i ev b : tr = a ++ (i, ev) :: b ->
  hist (n_env w i) (n_start w i) (n_past w i ++ calls_at i a) (before ev) /\ good (before ev) /\
  stepR (n_env w i) (u32 (at_ ev)) (before ev) (call ev) (sent ev) (after ev).
Proof using IT.
  intros E. pose proof (it_run _ _ _ _ _ _ _ _ IT) as R. rewrite E in R.
  destruct (run_split _ _ _ _ _ R) as (n & H & _). apply hist_last in H as (H & _ & G & _ & _ & _ & S). auto.
Qed.

Lemma mg_before y : In (m, y) rest -> role_before y = Master.
Proof using All.
  intros I. pose proof (it_run _ _ _ _ _ _ _ _ IT m) as [[n H] Ap].
  assert (CM : calls_at m tr = m0 :: calls_at m rest).
  { unfold tr. change ((m, m0) :: rest) with ([(m, m0)] ++ rest). rewrite calls_at_app, calls_at_one. reflexivity. }
  rewrite CM in H. apply in_calls_at in I. apply in_split in I as (k1 & k2 & Ek).
  eapply role_chain; [exact H|apply RM; left; reflexivity| |exact Ek].
  intros x Ix. apply RM. right. apply in_calls_at. exact Ix.
Qed.

(** The others are slaves at time x0. *)
Variables (x0 : Z) (pre0 post0 : run).
Hypothesis E0 : tr = pre0 ++ post0.
Hypothesis Xg : g + D <= x0.
Hypothesis Bef0 : forall i ev, In (i, ev) pre0 -> global w i ev <= x0.
Hypothesis Aft0 : forall i ev, In (i, ev) post0 -> x0 < global w i ev.
Hypothesis Sl0 : forall i n, (i < N)%nat -> i <> m ->
  hist (n_env w i) (n_start w i) (n_past w i ++ calls_at i pre0) n -> GetCurrentState n = Slave.

Lemma mg_slave a b i n : post0 = a ++ b -> (i < N)%nat -> i <> m ->
  hist (n_env w i) (n_start w i) (n_past w i ++ calls_at i (pre0 ++ a)) n -> GetCurrentState n = Slave.
Proof using All.
  intros E Ni Nm. revert b n E. induction a as [|[j ev] a IH] using rev_ind; intros b n E H.
  - rewrite app_nil_r in H. eauto.
  - rewrite <- app_assoc in E. cbn [app] in E. rewrite app_assoc, calls_at_app in H.
    destruct (PeanoNat.Nat.eq_dec j i) as [->|Nj].
    + rewrite calls_at_one, app_assoc in H. apply hist_last in H as (H & -> & _).
      pose proof (IH _ _ E H) as Rb.
      change (GetCurrentState (before ev)) with (role_before ev) in Rb.
      change (GetCurrentState (after ev)) with (role_after ev). destruct (role_after ev) eqn:Ra; [reflexivity|exfalso].
      assert (I : In (i, ev) post0) by (rewrite E; apply in_or_app; right; left; reflexivity).
      apply (mg_no_takeover i ev); [rewrite E0; apply in_or_app; right; exact I|exact Nm| |split; assumption].
      specialize (Aft0 i ev I). lia.
    + rewrite (calls_at_other j i ev), app_nil_r in H by auto. eauto.
Qed.

Lemma mg_roles i ev : In (i, ev) post0 -> role_after ev = (if Nat.eqb i m then Master else Slave) /\
  role_before ev = (if Nat.eqb i m then Master else Slave).
Proof using All.
  intros I. assert (It : In (i, ev) tr) by (rewrite E0; apply in_or_app; auto).
  pose proof (it_times _ _ _ _ _ _ _ _ IT i ev It) as [Ni _].
  destruct (PeanoNat.Nat.eqb_spec i m) as [->|Ne].
  - split; [apply RM; exact It|]. destruct It as [It|It]; [|apply mg_before; exact It].
    exfalso. inversion It; subst. specialize (Aft0 m ev I). unfold tr in *. lia.
  - apply in_split in I as (a & b & E). pose proof E0 as E1. rewrite E, app_assoc in E1.
    pose proof (it_run _ _ _ _ _ _ _ _ IT) as R. rewrite E1 in R. destruct (run_split _ _ _ _ _ R) as (n & H & _).
    split.
    + apply (mg_slave (a ++ [(i, ev)]) b i (after ev)); auto.
      * rewrite <- app_assoc. exact E.
      * rewrite app_assoc, calls_at_app, calls_at_one, app_assoc. pose proof H as H'. apply hist_last in H' as (_ & <- & _). exact H.
    + apply hist_last in H as (H & _). apply (mg_slave a ((i, ev) :: b) i (before ev)); auto.
Qed.

Lemma mg_late i ev : In (i, ev) tr -> x0 < global w i ev -> In (i, ev) post0.
Proof using All.
  intros I L. rewrite E0 in I. apply in_app_or in I as [I|I]; [|exact I]. specialize (Bef0 i ev I). lia.
Qed.

Lemma mg_rest y : In (m, y) post0 -> In (m, y) rest.
Proof using All.
  intros I. assert (It : In (m, y) tr) by (rewrite E0; apply in_or_app; auto).
  destruct It as [It|It]; [|exact It]. inversion It; subst. specialize (Aft0 m y I). unfold global in *. lia.
Qed.

(** What is accepted later than D ms after that comes from m, or somebody ordered it. *)
Lemma mg_origin a i ev b p : tr = a ++ (i, ev) :: b -> x0 + D < global w i ev -> accepted ev p -> life_sign p \/ about_effects p ->
  exists k y q, k <> i /\ In (k, y) post0 /\ In (k, y) a /\ originated y q /\ says p q /\ global w k y <= global w i ev <= global w k y + D /\
    (k = m \/ exists r, call y = OSetEffect r /\ same_content q r /\ about_effects r).
Proof using All.
  intros E L Ac Lp. destruct (it_prompt _ _ _ _ _ _ _ _ IT _ _ _ _ p E Ac Lp) as (k & y & q & Nk & Iy & Oy & Sy & Ly).
  assert (I : In (k, y) tr) by (rewrite E; apply in_or_app; left; exact Iy).
  assert (Ip : In (k, y) post0) by (apply mg_late; [exact I|lia]).
  exists k, y, q. repeat (split; [assumption|]). destruct (PeanoNat.Nat.eq_dec k m) as [->|Nm]; [left; reflexivity|right].
  destruct (mg_roles k y Ip) as [A1 A2].
  destruct (PeanoNat.Nat.eqb_spec k m); [contradiction|].
  apply in_split in I as (a1 & a2 & Ea). pose proof (it_run _ _ _ _ _ _ _ _ IT) as R. rewrite Ea in R.
  destruct (run_split _ _ _ _ _ R) as (n' & Hy & Apy).
  destruct (slave_origin _ _ _ _ q (ex_intro _ _ Hy) A2 A1 Oy) as (r & Cr & Sr & _).
  exists r. split; [exact Cr|]. split; [exact Sr|].
  apply (Apy y r); [apply in_or_app; right; left; reflexivity|exact Cr].
Qed.

Lemma mg_beat a i ev b p : tr = a ++ (i, ev) :: b -> i <> m -> x0 + D < global w i ev -> accepted ev p -> ptype p = 0 ->
  exists y q, In (m, y) a /\ originated y q /\ says p q /\ global w m y <= global w i ev <= global w m y + D.
Proof using All.
  intros E Nm L Ac Tp. destruct (mg_origin _ _ _ _ p E L Ac) as (k & y & q & Nk & _ & Iy & Oy & Sy & Ly & Q); [left; left; exact Tp|].
  destruct Q as [->|(r & _ & (Q1 & _) & Q2)]; [eauto 10|]. exfalso. unfold about_effects in Q2. destruct Sy as [Sy _]. lia.
Qed.

(** The clock of m does not move against global time. *)
Lemma mg_master_clock pre post n : tr = pre ++ post -> pre <> [] ->
  hist (n_env w m) (n_start w m) (n_past w m ++ calls_at m pre) n -> millis_offset n = millis_offset (after m0).
Proof using All.
  revert post n. induction pre as [|[i ev] pre IH] using rev_ind; intros post n E Np H; [congruence|].
  rewrite <- app_assoc in E. cbn [app] in E. rewrite calls_at_app in H.
  destruct pre as [|z pre'].
  - unfold tr in E. cbn in E. inversion E; subst. cbn in H. rewrite PeanoNat.Nat.eqb_refl in H. cbn in H.
    apply hist_last in H as (_ & -> & _). reflexivity.
  - destruct (PeanoNat.Nat.eq_dec i m) as [->|Ne].
    + rewrite calls_at_one, app_assoc in H. apply hist_last in H as (H & -> & G & O & L1 & L2 & S).
      destruct (offset_step _ _ S) as [K|(K & _)].
      * rewrite K. eapply IH; [exact E|discriminate|exact H].
      * exfalso. unfold tr in E. cbn in E. injection E as _ E. rewrite mg_before in K; [discriminate K|].
        rewrite E. apply in_or_app; right; left; reflexivity.
    + rewrite (calls_at_other i m ev), app_nil_r in H by auto. eapply IH; [exact E|discriminate|exact H].
Qed.

Let c0 : Z := millis_offset (after m0) + n_off w m.

Lemma mg_master_shows pre post n : tr = pre ++ post -> pre <> [] ->
  hist (n_env w m) (n_start w m) (n_past w m ++ calls_at m pre) n ->
  forall T, GetNetworkMillis (u32 (T + n_off w m)) n = u32 (T + c0).
Proof using All.
  intros E Np H T. unfold GetNetworkMillis, c0. rewrite (mg_master_clock pre post n E Np H). unfold u32. lia.
Qed.

Lemma mg_heartbeat_value a y b q : tr = a ++ (m, y) :: b -> originated y q -> ptype q = 0 ->
  big_endian (payload 4 q) = u32 (global w m y + c0).
Proof using All.
  intros E O T. pose proof (it_run _ _ _ _ _ _ _ _ IT) as R. rewrite E in R.
  destruct (run_split _ _ _ _ _ R) as (n & H & Ap).
  destruct (C20_heartbeats_carry_network_time _ _ _ _ q (ex_intro _ _ H) Ap O T) as (_ & E1 & E2).
  rewrite E1, <- E2. pose proof H as H'. apply hist_last in H' as (_ & -> & _).
  replace (at_ y) with (global w m y + n_off w m) by (unfold global; lia).
  apply (mg_master_shows (a ++ [(m, y)]) b); [rewrite <- app_assoc; exact E|destruct a; discriminate|].
  rewrite calls_at_app, calls_at_one, app_assoc. exact H.
Qed.

(** The clock of a slave that has heard a heartbeat since. *)
Lemma mg_slave_clock i : (i < N)%nat -> i <> m -> forall pre post n, tr = pre ++ post ->
  hist (n_env w i) (n_start w i) (n_past w i ++ calls_at i pre) n ->
  (forall ev p, In ev (calls_at i pre) -> x0 + D < global w i ev -> accepted ev p -> ptype p <> 0) \/
  exists L, 0 <= L <= D /\ forall T, GetNetworkMillis (u32 (T + n_off w i)) n = u32 (T + c0 - L).
Proof using All.
  intros Ni Nm pre. induction pre as [|[j ev] pre IH] using rev_ind; intros post n E H.
  - left. intros ? ? [].
  - rewrite <- app_assoc in E. cbn [app] in E. rewrite calls_at_app in H |- *.
    destruct (PeanoNat.Nat.eq_dec j i) as [->|Ne]; [|rewrite (calls_at_other j i ev), app_nil_r in H |- * by auto; apply (IH _ _ E H)].
    rewrite calls_at_one in H |- *. rewrite app_assoc in H. pose proof H as HH.
    apply hist_last in H as (H & -> & G & O & L1 & L2 & S).
    destruct (Z_le_gt_dec (global w i ev) (x0 + D)) as [Early|Late].
    { left. intros z q I Lz. apply in_app_or in I as [I|[<-|[]]]; [|lia].
      specialize (L2 z ltac:(apply in_or_app; right; exact I)). unfold global in *. lia. }
    assert (Rb : role_before ev = Slave).
    { destruct (mg_roles i ev) as [_ Q]; [apply mg_late; [rewrite E; apply in_or_app; right; left; reflexivity|lia]|].
      destruct (PeanoNat.Nat.eqb_spec i m); [contradiction|exact Q]. }
    assert (Beat : forall p, accepted ev p -> ptype p = 0 -> exists L, 0 <= L <= D /\ forall T, GetNetworkMillis (u32 (T + n_off w i)) (after ev) = u32 (T + c0 - L)).
    { intros p Ac Tp.
      destruct (mg_beat pre i ev post p E Nm ltac:(lia) Ac Tp) as (y & q & Iy & Oy & Sq & Ly).
      exists (global w i ev - global w m y). split; [lia|]. intros T.
      change [ev] with (ev :: []) in HH.
      rewrite (C25_network_time_follows_heartbeat _ _ _ _ p [] _ HH Rb Ac Tp) by (intros ? ? []).
      destruct Sq as [Sq1 Sq2]. rewrite Tp in Sq1. symmetry in Sq1. rewrite Sq1 in Sq2. cbn [Z.eqb] in Sq2.
      change (0 =? 2) with false in Sq2. cbv iota in Sq2. rewrite Sq2.
      apply in_split in Iy as (a1 & a2 & ->). rewrite <- app_assoc in E. cbn [app] in E.
      rewrite (mg_heartbeat_value _ _ _ q E Oy Sq1). unfold global, u32. lia. }
    destruct (accepts_dec _ _ S) as [(p & Ac)|No].
    + destruct (Z.eq_dec (ptype p) 0) as [Tp|Tp]; [right; eauto|].
      destruct (offset_step _ _ S) as [K|(_ & p' & Ac' & Tp' & _)]; [|right; eauto].
      destruct (IH _ _ E H) as [Q|(L & Lb & Q)]; [left|right; exists L; split; [exact Lb|]; intros T; rewrite <- Q; unfold GetNetworkMillis; rewrite K; reflexivity].
      intros z q I Lz Aq. apply in_app_or in I as [I|[<-|[]]]; [eauto|].
      destruct Ac as [C1 _], Aq as [C2 _]. assert (q = p) by congruence. subst. exact Tp.
    + destruct (offset_step _ _ S) as [K|(_ & p' & Ac' & Tp' & _)]; [|right; eauto].
      destruct (IH _ _ E H) as [Q|(L & Lb & Q)]; [left|right; exists L; split; [exact Lb|]; intros T; rewrite <- Q; unfold GetNetworkMillis; rewrite K; reflexivity].
      intros z q I Lz Aq. apply in_app_or in I as [I|[<-|[]]]; [eauto|]. exfalso. eapply No. exact Aq.
Qed.

Lemma mg_beat_arrives i : (i < N)%nat -> i <> m -> x0 + 1000 + P + 2 * D < stop ->
  exists c q, In (i, c) tr /\ x0 + D < global w i c /\ accepted c q /\ ptype q = 0.
Proof using All.
  intros Ni Nm U. pose proof IT as [R O Bd Past W Fr Arr Prompt].
  assert (NmN : (m < N)%nat) by (apply (Bd m m0); left; reflexivity).
  assert (CM : calls_at m tr = m0 :: calls_at m rest).
  { unfold tr. change ((m, m0) :: rest) with ([(m, m0)] ++ rest). rewrite calls_at_app, calls_at_one. reflexivity. }
  destruct (R m) as [Hm Am]. pose proof (W m NmN) as Wm. rewrite CM in Hm, Am, Wm.
  destruct (heartbeat_within _ _ _ _ _ (x0 + D + n_off w m) P Hm Am Wm TO) as (z & Iz & (p & Oz & Tp) & Lz).
  - intros x Ix. apply RM. right. apply in_calls_at. exact Ix.
  - unfold global in Eg. lia.
  - destruct (Fr (x0 + D + 1000) ltac:(lia) ltac:(lia)) as (y & Iy & Fy & Ly).
    exists y. unfold global in Ly. split; [|split; [exact Fy|lia]].
    apply in_calls_at. destruct Iy as [Iy|Iy]; [|exact Iy]. inversion Iy; subst. unfold global in *. lia.
  - assert (It : In (m, z) tr) by (right; apply in_calls_at; exact Iz).
    destruct (Arr z p i It Oz (or_introl Tp) Ni Nm) as (c & q & Ic & Ac & Sq & Lc); [unfold global; lia|].
    exists c, q. split; [exact Ic|]. split; [unfold global in *; lia|]. split; [exact Ac|]. destruct Sq; congruence.
Qed.

Lemma mg_one_animation x K : 
  P <= 1000 -> about_effects K -> x0 <= x -> x + 2000 + 2 * P + 2 * D < stop ->
  (forall y, In (m, y) tr -> x < global w m y -> says (GetSetEffect (after y)) K) ->
  (forall i ev q, In (i, ev) tr -> i <> m -> x < global w i ev -> call ev = OSetEffect q -> says q K) ->
  forall i n nm, (i < N)%nat -> i <> m ->
    hist (n_env w i) (n_start w i) (n_past w i ++ calls_at i tr) n ->
    hist (n_env w m) (n_start w m) (n_past w m ++ calls_at m tr) nm ->
    says (GetSetEffect nm) K /\ says (GetSetEffect n) K /\
    exists L, 0 <= L <= D /\
      forall T, GetNetworkMillis (u32 (T + n_off w i)) n = u32 (GetNetworkMillis (u32 (T + n_off w m)) nm - L).
Proof using All.
  intros P1 AK Gx Ux Kx NoSet i n nm Ni Nm Hn Hm.
  assert (Hend : tr = tr ++ []) by (symmetry; apply app_nil_r).
  split; [|split].
  - (* the master shows K *)
    destruct (split_at _ _ _ _ (x + n_off w m) Hm) as (h1 & h2 & E & A & B).
    destruct (it_free _ _ _ _ _ _ _ _ IT x ltac:(lia) ltac:(lia)) as (y & Iy & _ & Ly).
    destruct h2 as [|z h2 _] using rev_ind.
    + exfalso. rewrite app_nil_r in E. assert (I : In y h1) by (rewrite <- E; apply in_or_app; right; apply in_calls_at; exact Iy).
      specialize (A y I). unfold global in Ly. lia.
    + pose proof Hm as Hz. rewrite E, app_assoc in Hz. apply hist_last in Hz as (_ & -> & _).
      assert (Bz : x + n_off w m < at_ z) by (apply B; apply in_or_app; right; left; reflexivity).
      assert (Iz : In z (n_past w m ++ calls_at m tr)) by (rewrite E; apply in_or_app; right; apply in_or_app; right; left; reflexivity).
      apply in_app_or in Iz as [Iz|Iz].
      * pose proof (it_past _ _ _ _ _ _ _ _ IT m z Iz) as Q. unfold global in Q. lia.
      * apply Kx; [apply in_calls_at; exact Iz|]. unfold global. lia.
  - (* so do the others *)
    destruct (split_at _ _ _ _ (x + D + n_off w m) Hm) as (h1 & h2 & E & A & B).
    assert (In2 : forall y, In (m, y) tr -> x + D < global w m y -> In y h2).
    { intros y I L. assert (J : In y (h1 ++ h2)) by (rewrite <- E; apply in_or_app; right; apply in_calls_at; exact I).
      apply in_app_or in J as [J|J]; [|exact J]. specialize (A y J). unfold global in L. lia. }
    assert (Of2 : forall y, In y h2 -> In (m, y) tr /\ x + D < global w m y).
    { intros y I. specialize (B y I). assert (J : In y (n_past w m ++ calls_at m tr)) by (rewrite E; apply in_or_app; right; exact I).
      apply in_app_or in J as [J|J].
      - pose proof (it_past _ _ _ _ _ _ _ _ IT m y J) as Q. unfold global in Q. lia.
      - split; [apply in_calls_at; exact J|unfold global; lia]. }
    assert (NmN : (m < N)%nat) by (apply (it_times _ _ _ _ _ _ _ _ IT m m0); left; reflexivity).
    destruct (it_run _ _ _ _ _ _ _ _ IT m) as [Hist Api].
    apply (C93_newcomer_catches_up (n_env w m) (n_start w m) h1 h2 (n_env w i) (n_start w i)
             (n_past w i ++ calls_at i tr) n (n_off w m) (n_off w i) (x + D) (x + 2000 + 2 * P + 2 * D) P D K).
    + rewrite <- E. exact Hist.
    + rewrite <- E. exact Api.
    + rewrite <- E. apply (it_wrap _ _ _ _ _ _ _ _ IT m NmN).
    + exact Hn.
    + intros y I. specialize (A y I). lia.
    + intros y I. destruct (Of2 y I) as [J L]. split; [unfold global in L; lia|]. split; [|apply Kx; [exact J|lia]].
      apply mg_before. apply mg_rest. apply mg_late; [exact J|lia].
    + intros c I L.
      assert (J : In (i, c) tr).
      { apply in_app_or in I as [I|I]; [|apply in_calls_at; exact I].
        pose proof (it_past _ _ _ _ _ _ _ _ IT i c I) as Q. unfold global in Q. lia. }
      split.
      { destruct (mg_roles i c) as [_ Q]; [apply mg_late; [exact J|unfold global; lia]|].
        destruct (PeanoNat.Nat.eqb_spec i m); [contradiction|exact Q]. }
      split; [intros q Q; apply (NoSet i c q J Nm); [unfold global; lia|exact Q]|].
      intros q Ac Aq. pose proof J as J0. apply in_split in J0 as (a & b & Etr).
      destruct (mg_origin a i c b q Etr ltac:(unfold global; lia) Ac (or_intror Aq))
        as (k & y & q' & Nk & Ip & Iy & (s & Oy) & Sq & Ly & Qk).
      assert (Iy' : In (k, y) tr) by (rewrite Etr; apply in_or_app; left; exact Iy).
      destruct (PeanoNat.Nat.eq_dec k m) as [->|Nkm]; [clear Qk|destruct Qk as [Qk|(r & Qk & Sr & _)]; [contradiction|];
        eapply says_trans; [exact Sq|]; eapply says_trans; [apply says_content; exact Sr|];
        apply (NoSet k y r Iy' Nkm); [unfold global in *; lia|exact Qk]].
      eapply says_trans; [exact Sq|]. eapply says_trans; [|apply (Kx y Iy'); unfold global in *; lia].
      pose proof Iy' as J1. apply in_split in J1 as (a1 & b1 & E1).
      destruct (mg_hist _ _ _ _ E1) as (_ & _ & St).
      destruct (own_is_shown _ _ _ _ St Oy) as (W1 & W2 & W3).
      { unfold about_effects in *. destruct Sq as [Sq _]. rewrite <- Sq. exact Aq. }
      split; [symmetry; exact W1|]. unfold payload. rewrite W3. reflexivity.
    + exact AK.
    + lia.
    + exact D0.
    + lia.
    + intros u U. destruct (it_free _ _ _ _ _ _ _ _ IT u ltac:(lia) ltac:(lia)) as (y & Iy & Fy & Ly).
      exists y. split; [apply In2; [exact Iy|lia]|]. split; [exact Fy|unfold global in Ly; lia].
    + intros y p I An L. destruct (Of2 y I) as [J _].
      assert (O : originated y p) by (destruct An as [An|An]; eexists; exact An).
      assert (Q : about_effects p).
      { pose proof J as J1. apply in_split in J1 as (a1 & b1 & E1). pose proof (it_run _ _ _ _ _ _ _ _ IT) as R.
        rewrite E1 in R. destruct (run_split _ _ _ _ _ R) as (n' & H' & _).
        pose proof (announced_is_shown _ _ _ _ _ (ex_intro _ _ H') An) as (Q1 & _).
        assert (KS : says (GetSetEffect (after y)) K) by (apply Kx; [exact J|destruct (Of2 y I); lia]).
        destruct KS as [KS _]. unfold about_effects in *. rewrite <- Q1, KS. exact AK. }
      destruct (it_arrive _ _ _ _ _ _ _ _ IT y p i J O (or_intror Q) Ni Nm ltac:(unfold global; lia)) as (c & q & Ic & Ac & Sq & Lc).
      exists c, q. split; [apply in_or_app; right; apply in_calls_at; exact Ic|]. split; [exact Ac|]. split; [exact Sq|exact Lc].
  - (* and the clocks agree *)
    destruct (mg_slave_clock i Ni Nm tr [] n Hend Hn) as [Q|(L & Lb & Q)].
    + exfalso. destruct (mg_beat_arrives i Ni Nm ltac:(lia)) as (c & q & Ic & Lc & Ac & Tq).
      apply (Q c q); [apply in_calls_at; exact Ic|exact Lc|exact Ac|exact Tq].
    + exists L. split; [exact Lb|]. intros T. rewrite Q.
      rewrite (mg_master_shows tr [] nm Hend ltac:(discriminate) Hm).
      unfold u32. lia.
Qed.
End Merge.

(** ** C110: two networks that meet become one *)

(** m sends a heartbeat with call m0 and stays master; other nodes may be masters,
    too.  m can be heard by everybody.  From D ms after that heartbeat on nobody
    becomes master: there can only be fewer masters. *)
Theorem C110_masters_only_lose w N m m0 rest g stop P D :
  let tr := (m, m0) :: rest in
  in_touch w N m tr g stop P D -> g = global w m m0 -> own_heartbeat m0 ->
  (forall y, In (m, y) tr -> role_after y = Master) ->
  0 <= P -> 0 <= D -> 1000 + P + D <= 5000 ->
  forall i ev, In (i, ev) tr -> i <> m -> g + D < global w i ev -> ~ took_over ev.
Proof. intros tr IT Eg TO RM P0 D0 PD i ev. apply (mg_no_takeover w N m m0 rest g stop P D IT Eg TO RM P0 D0 PD). Qed.
Print Assumptions C110_masters_only_lose.

(** A node j that stays master beside m has to win an election against m in every
    interval of 1000 + P + D ms: it draws a number larger than the id of a
    heartbeat. *)
Theorem C110_rival_has_to_win_every_time w N m m0 rest g stop P D j :
  let tr := (m, m0) :: rest in
  in_touch w N m tr g stop P D -> g = global w m m0 -> own_heartbeat m0 ->
  (forall y, In (m, y) tr -> role_after y = Master) ->
  0 <= P -> 0 <= D -> 1000 + P + D <= 5000 ->
  (j < N)%nat -> j <> m ->
  (forall c, In (j, c) tr -> role_before c = Master /\ role_after c = Master) ->
  forall u, g <= u -> u + 1000 + P + D < stop ->
  exists c q, In (j, c) tr /\ u < global w j c <= u + 1000 + P + D /\ accepted c q /\ ptype q = 0 /\
    pid q < election_draw (plat (n_env w j)) (draw (n_env w j) (rng (before c))).
Proof.
  intros tr IT Eg TO RM P0 D0 PD Nj Ne RJ u Lu Uu. pose proof IT as [R O Bd Past W Fr Arr Prompt].
  assert (NmN : (m < N)%nat) by (apply (Bd m m0); left; reflexivity).
  assert (CM : calls_at m tr = m0 :: calls_at m rest).
  { unfold tr. change ((m, m0) :: rest) with ([(m, m0)] ++ rest). rewrite calls_at_app, calls_at_one. reflexivity. }
  destruct (R m) as [Hm Am]. pose proof (W m NmN) as Wm. fold tr in Hm, Am. rewrite CM in Hm, Am, Wm.
  destruct (heartbeat_within _ _ _ _ _ (u + n_off w m) P Hm Am Wm TO) as (z & Iz & (p & Oz & Tp) & Lz).
  - intros x Ix. apply RM. right. apply in_calls_at. exact Ix.
  - unfold global in Eg. lia.
  - destruct (Fr (u + 1000) ltac:(lia) ltac:(lia)) as (y & Iy & Fy & Ly).
    exists y. unfold global in Ly. split; [|split; [exact Fy|lia]].
    apply in_calls_at. destruct Iy as [Iy|Iy]; [|exact Iy]. inversion Iy; subst. unfold global in *. lia.
  - assert (It : In (m, z) tr) by (right; apply in_calls_at; exact Iz).
    destruct (Arr z p j It Oz (or_introl Tp) Nj Ne) as (c & q & Ic & Ac & Sq & Lc); [unfold global; lia|].
    assert (Tq : ptype q = 0) by (destruct Sq; congruence).
    exists c, q. split; [exact Ic|]. split; [unfold global in *; lia|]. split; [exact Ac|]. split; [exact Tq|].
    destruct (RJ c Ic) as [R1 R2].
    apply in_split in Ic as (a & b & E). fold tr in R. rewrite E in R. destruct (run_split _ _ _ _ _ R) as (n & H & _).
    destruct (C22_election _ _ _ _ _ (ex_intro _ _ H) Ac Tq R1) as [_ Lose].
    destruct (Z_lt_ge_dec (pid q) (election_draw (plat (n_env w j)) (draw (n_env w j) (rng (before c))))) as [|Ge]; [assumption|].
    destruct (Lose ltac:(lia)) as [Q _]. congruence.
Qed.
Print Assumptions C110_rival_has_to_win_every_time.

(** Once all the others have lost (they are slaves at time x0), m is the only
    master from then on; and when m has shown K for 2000 + 2 P + 2 D ms, everybody
    draws the animation of m, at most D ms late. *)
Theorem C110_merged_network_is_one w N m m0 rest g stop P D x0 pre0 post0 :
  let tr := (m, m0) :: rest in
  in_touch w N m tr g stop P D -> g = global w m m0 -> own_heartbeat m0 ->
  (forall y, In (m, y) tr -> role_after y = Master) ->
  0 <= P <= 1000 -> 0 <= D -> 1000 + P + D <= 5000 ->
  tr = pre0 ++ post0 -> g + D <= x0 ->
  (forall i ev, In (i, ev) pre0 -> global w i ev <= x0) -> (forall i ev, In (i, ev) post0 -> x0 < global w i ev) ->
  (forall i n, (i < N)%nat -> i <> m ->
     hist (n_env w i) (n_start w i) (n_past w i ++ calls_at i pre0) n -> GetCurrentState n = Slave) ->
  (forall i ev, In (i, ev) post0 -> role_after ev = if Nat.eqb i m then Master else Slave) /\
  forall x K, about_effects K -> x0 <= x -> x + 2000 + 2 * P + 2 * D < stop ->
  (forall y, In (m, y) tr -> x < global w m y -> says (GetSetEffect (after y)) K) ->
  (forall i ev q, In (i, ev) tr -> i <> m -> x < global w i ev -> call ev = OSetEffect q -> says q K) ->
  forall i n nm, (i < N)%nat -> i <> m ->
    hist (n_env w i) (n_start w i) (n_past w i ++ calls_at i tr) n ->
    hist (n_env w m) (n_start w m) (n_past w m ++ calls_at m tr) nm ->
    says (GetSetEffect nm) K /\ says (GetSetEffect n) K /\
    exists L, 0 <= L <= D /\
      (forall T, GetNetworkMillis (u32 (T + n_off w i)) n = u32 (GetNetworkMillis (u32 (T + n_off w m)) nm - L)) /\
      forall fl md d o o' T delta buf,
      o = o' \/ (ptype K = 2 -> ~ per_node (nth 0 (pdata K) 0 mod 35)) ->
      Show Arduino fl md d o (GetSetEffect n) (fun r => GetNetworkMillis (u32 (T + L + delta r + n_off w i)) n) buf =
      Show Arduino fl md d o' (GetSetEffect nm) (fun r => GetNetworkMillis (u32 (T + delta r + n_off w m)) nm) buf.
Proof.
  intros tr IT Eg TO RM [P0 P1] D0 PD E0 Xg B0 A0 Sl0. split.
  { intros i ev I. apply (mg_roles w N m m0 rest g stop P D IT Eg TO RM P0 D0 PD x0 pre0 post0 E0 Xg B0 A0 Sl0 i ev I). }
  intros x K AK Gx Ux Kx NoSet i n nm Ni Nm Hn Hm.
  destruct (mg_one_animation w N m m0 rest g stop P D IT Eg TO RM P0 D0 PD x0 pre0 post0 E0 Xg B0 A0 Sl0 x K P1 AK Gx Ux Kx NoSet i n nm Ni Nm Hn Hm)
    as (Sm & Sn & L & Lb & Q).
  split; [exact Sm|]. split; [exact Sn|]. exists L. split; [exact Lb|]. split; [exact Q|]. intros fl md d o o' T delta buf Off.
  apply C59_same_picture.
  - apply (says_same_request _ _ K); auto; [apply (hist_good _ _ _ _ Hn)|apply (hist_good _ _ _ _ Hm)].
  - intros r. replace (T + L + delta r + n_off w i) with ((T + delta r + L) + n_off w i) by lia. rewrite Q.
    unfold GetNetworkMillis, u32. lia.
  - destruct Off as [Off|Off]; [left; exact Off|right]. intros a b (_ & A1 & _ & A2 & _).
    destruct Sn as [S1 S2]. unfold SET_EFFECT in A1. assert (K2 : ptype K = 2) by congruence. specialize (Off K2).
    replace a with (nth 0 (pdata K) 0); [exact Off|]. rewrite <- A2. rewrite K2 in S2. change (2 =? 2) with true in S2. cbv iota in S2.
    unfold payload in S2. destruct (pdata (GetSetEffect n)), (pdata K); cbn in S2; try discriminate; try reflexivity. inversion S2. reflexivity.
Qed.
Print Assumptions C110_merged_network_is_one.

(** Non-vacuous: node 1 has been master since 5900 when node 0 becomes master, too,
    at 7000.  They hear each other; node 0 draws 40 against 2 and stays master,
    node 1 draws 1 against 24 and steps down. *)
Example C110_example : exists w m0 rest pre0 post0 K n nm,
  let tr := (0%nat, m0) :: rest in
  in_touch w 2 0 tr 7000 11400 1000 100 /\ 7000 = global w 0 m0 /\ own_heartbeat m0 /\
  (forall y, In (0%nat, y) tr -> role_after y = Master) /\
  (forall n, hist (n_env w 1%nat) (n_start w 1%nat) (n_past w 1%nat) n -> GetCurrentState n = Master) /\
  tr = pre0 ++ post0 /\
  (forall i ev, In (i, ev) pre0 -> global w i ev <= 7100) /\ (forall i ev, In (i, ev) post0 -> 7100 < global w i ev) /\
  (forall i n, (i < 2)%nat -> i <> 0%nat ->
     hist (n_env w i) (n_start w i) (n_past w i ++ calls_at i pre0) n -> GetCurrentState n = Slave) /\
  about_effects K /\ 7100 + 2000 + 2 * 1000 + 2 * 100 < 11400 /\
  (forall y, In (0%nat, y) tr -> 7100 < global w 0 y -> says (GetSetEffect (after y)) K) /\
  (forall i ev q, In (i, ev) tr -> i <> 0%nat -> 7100 < global w i ev -> call ev = OSetEffect q -> says q K) /\
  hist (n_env w 1%nat) (n_start w 1%nat) (n_past w 1%nat ++ calls_at 1 tr) n /\
  hist (n_env w 0%nat) (n_start w 0%nat) (n_past w 0%nat ++ calls_at 0 tr) nm /\
  n_off w 1%nat = 500 /\ GetEffectIndex n = 9 /\ GetNetworkMillis 11850 n = 11300 /\ GetNetworkMillis 11300 nm = 11300.
Proof.
  run_as H0 (env0 Arduino) 0 [(7, OTick (Some (effect_pkt 50 9 3 2))); (7000, OTick None); (7040, OTick (Some (heartbeat_pkt 2 7510)));
    (7900, OTick None); (8100, OTick None); (9050, OTick None); (9200, OTick None); (10100, OTick None); (10300, OTick None);
    (11100, OTick None); (11290, OTick None)].
  run_as H1 (env_const Arduino 0%N) 0 [(6400, OTick None); (7510, OTick None);
    (7550, OTick (Some (heartbeat_pkt 24 7000))); (8650, OTick (Some (heartbeat_pkt 75 8100)));
    (9600, OTick (Some (effect_pkt 92 9 3 2))); (9750, OTick (Some (heartbeat_pkt 109 9200)));
    (10850, OTick (Some (heartbeat_pkt 126 10300))); (11650, OTick (Some (effect_pkt 143 9 3 2)))].
  run_as H2 (env0 Arduino) 0 (@nil (Z * op)).
  match type of H0 with hist _ _ [?z; ?a; ?b; ?c; ?d; ?f; ?g; ?h; ?i; ?j; ?k] ?nm =>
  match type of H1 with hist _ _ [?p; ?o; ?q; ?r; ?s; ?t; ?u; ?v] ?n =>
    set (Z0 := z) in *; set (A := a) in *; set (B := b) in *; set (C := c) in *; set (D := d) in *; set (F := f) in *; set (G := g) in *;
    set (HH := h) in *; set (II := i) in *; set (JJ := j) in *; set (KK := k) in *;
    set (PP := p) in *; set (OO := o) in *; set (Q := q) in *; set (R := r) in *; set (S := s) in *; set (T := t) in *; set (U := u) in *; set (V := v) in *;
    set (w := mkNetwork (fun w0 => match w0 with 1%nat => env_const Arduino 0%N | _ => env0 Arduino end) (fun _ => 0)
      (fun w0 => match w0 with 1%nat => 500 | _ => 0 end) (fun w0 => match w0 with 0%nat => [Z0] | 1%nat => [PP] | _ => [] end));
    set (rest := [(1%nat, OO); (0%nat, B); (1%nat, Q); (0%nat, C); (0%nat, D); (1%nat, R); (0%nat, F); (1%nat, S); (0%nat, G); (1%nat, T);
          (0%nat, HH); (0%nat, II); (1%nat, U); (0%nat, JJ); (1%nat, V); (0%nat, KK)]);
    exists w, A, rest, [(0%nat, A); (1%nat, OO); (0%nat, B); (1%nat, Q)],
      [(0%nat, C); (0%nat, D); (1%nat, R); (0%nat, F); (1%nat, S); (0%nat, G); (1%nat, T);
       (0%nat, HH); (0%nat, II); (1%nat, U); (0%nat, JJ); (1%nat, V); (0%nat, KK)], (effect_pkt 0 9 3 2), n, nm
  end end.
  cbv zeta.
  assert (E0 : [Z0; A; B; C; D; F; G; HH; II; JJ; KK] = n_past w 0%nat ++ calls_at 0 ((0%nat, A) :: rest)) by (vm_compute; reflexivity).
  assert (E1 : [PP; OO; Q; R; S; T; U; V] = n_past w 1%nat ++ calls_at 1 ((0%nat, A) :: rest)) by (vm_compute; reflexivity).
  rewrite E0 in H0. rewrite E1 in H1. subst rest.
  split; [constructor|].
  { intros [|[|i]].
    - split; [eexists; exact H0|]. rewrite <- E0. intros x p I K. repeat (destruct I as [<-|I]; [discriminate K|]). destruct I.
    - split; [eexists; exact H1|]. rewrite <- E1. intros x p I K. repeat (destruct I as [<-|I]; [discriminate K|]). destruct I.
    - split; [eexists; exact H2|]. intros x p []. }
  { intros a i u b j v c E.
    repeat (destruct a as [|? a]; [injection E as <- <- E;
       repeat (destruct b as [|? b]; [injection E as <- <- E; vm_compute; congruence|injection E as _ E]);
       try (destruct b; discriminate E)|injection E as _ E]); destruct a; discriminate E. }
  { intros i ev I. repeat (destruct I as [I|I]; [injection I as <- <-; split; [lia|vm_compute; congruence]|]). destruct I. }
  { intros [|[|i]] ev I; [destruct I as [<-|[]]; vm_compute; congruence|destruct I as [<-|[]]; vm_compute; congruence|destruct I]. }
  { intros [|[|i]] L; [rewrite <- E0|rewrite <- E1|lia]; (split; [reflexivity|]); intros x I; repeat (destruct I as [<-|I]; [reflexivity|]); destruct I. }
  { intros x L L2.
    assert (X : x < 7900 \/ 7900 <= x < 8100 \/ 8100 <= x < 9050 \/ 9050 <= x < 9200 \/ 9200 <= x < 10100 \/ 10100 <= x < 10300 \/ 10300 <= x) by lia.
    destruct X as [X|[X|[X|[X|[X|[X|X]]]]]]; [exists C|exists D|exists F|exists G|exists HH|exists II|exists JJ]; (split; [cbn [In]; auto 40|]);
      (split; [split; [eexists; reflexivity|intros p I; cbn in I; intuition discriminate]|]); unfold global; cbn; lia. }
  { intros y p i I O Ty Ni Nm Ut. destruct i as [|[|i]]; [congruence| |lia].
    destruct O as (s & Ip).
    repeat (destruct I as [I|I]; [first [discriminate I|injection I as <-];
      cbn in Ip; first [exfalso; intuition discriminate
                       |destruct Ip as [Ip|[]]; injection Ip as <- <-
                       |exfalso; destruct Ip as [Ip|[Ip|[]]]; [discriminate Ip|injection Ip as <- <-]; cbn in Ty; unfold about_effects in Ty; cbn in Ty; lia];
      let go X := (eexists X, _; split; [cbn [In]; auto 40|]; split; [split; [reflexivity|left; reflexivity]|]; split; [split; reflexivity|vm_compute; split; congruence]) in
      first [go Q|go R|go S|go T|go U|go V]|]).
    destruct I. }
  { intros a i ev b p E [Ca Fw] Tp.
    repeat (destruct a as [|? a]; [injection E as <- <- E; first [discriminate Ca|injection Ca as <-; cbn in Fw;
       first [exfalso; intuition discriminate|idtac]];
       let go k X := (eexists k, X, _; split; [discriminate|]; split; [cbn [In]; auto 40|]; split; [eexists; left; reflexivity|]; split; [split; reflexivity|vm_compute; split; congruence]) in
       first [go 1%nat OO|go 0%nat A|go 0%nat D|go 0%nat F|go 0%nat G|go 0%nat II|go 0%nat JJ]
       |injection E as ? E; subst]); destruct a; discriminate E. }
  split; [reflexivity|]. split; [eexists; split; [eexists; left; reflexivity|reflexivity]|].
  split.
  { intros y I. repeat (destruct I as [I|I]; [first [discriminate I|injection I as <-]; reflexivity|]). destruct I. }
  split.
  { intros n H. cbn in H. change [PP] with ([] ++ [PP]) in H. apply hist_last in H as (_ & -> & _). reflexivity. }
  split; [reflexivity|].
  split.
  { intros i ev I. repeat (destruct I as [I|I]; [injection I as <- <-; vm_compute; congruence|]). destruct I. }
  split.
  { intros i ev I. repeat (destruct I as [I|I]; [injection I as <- <-; vm_compute; congruence|]). destruct I. }
  split.
  { intros [|[|i]] n L N H; [congruence| |lia]. 
    change (hist (env_const Arduino 0%N) 0 ([PP; OO] ++ [Q]) n) in H. apply hist_last in H as (_ & -> & _). reflexivity. }
  split; [left; reflexivity|]. split; [lia|].
  split.
  { intros y I L. repeat (destruct I as [I|I]; [first [discriminate I|injection I as <-]; split; reflexivity|]). destruct I. }
  split.
  { intros i ev q I N L C0. repeat (destruct I as [I|I]; [injection I as <- <-; discriminate C0|]). destruct I. }
  split; [exact H1|]. split; [exact H0|]. repeat split.
Qed.
