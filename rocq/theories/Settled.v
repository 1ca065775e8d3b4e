(** A network with a settled master: what follows once it is known that nobody else takes
    over.  The theorems C141, C142 and C144 are consequences. *)
From Coq Require Import ZArith Lia List Bool.
From Coq Require Import ZifyBool.
From Verif Require Import CInt CIntFacts Packet SpecPacket PacketFacts NetMgr NetHist SpecNet NetFacts Fastled Palette Device LedMgr SpecLed Effects SpecEffect Show ShowFacts PropShow Rsm RsmStep RsmEval RsmHist SpecRsm RsmFacts RsmTime RoleFacts RsmRun EffectFacts PropRole PropHeartbeat PropEffect PropHold PropPair PropNetTime PropNetwork PropOneMaster PropCatchUp PropInStep PropDrift PropApi PropOrder.
Import ListNotations.
Open Scope Z_scope.
Ltac Zify.zify_post_hook ::= Z.div_mod_to_equations.

(** Another node originated what [i] accepts at time [x], at most D ms ago. *)
Definition sent_before (a : timed) (i : nat) (x : Z) (p : packet) (D : Z) : Prop :=
  exists k y c q, k <> i /\ In (k, (y, c)) a /\ originated c q /\ says p q /\ y <= x <= y + D.

(** A run of N nodes on the air.  Nothing is said about what arrives; but the heartbeats and
    claims a node accepts are at most D ms old. *)
Record aired (w : network) (clk : nat -> Z -> Z) (N : nat) (tr : timed) (stop D : Z) : Prop := mkAired {
  ai_run : is_run w (untimed tr);
  ai_ordered : forall a i x u b j y v c, tr = a ++ (i, (x, u)) :: b ++ (j, (y, v)) :: c -> x <= y;
  ai_times : forall i x ev, In (i, (x, ev)) tr -> (i < N)%nat /\ at_ ev = clk i x /\ x <= stop;
  ai_wrap : forall i, (i < N)%nat -> all_before (wrap - 7000) (n_start w i) (n_past w i ++ calls_at i (untimed tr));
  ai_prompt : forall a i x ev b p, tr = a ++ (i, (x, ev)) :: b -> accepted ev p -> life_sign p -> sent_before a i x p D
}.

(** The same for what is said about effects, from a time on. *)
Definition news_prompt (tr : timed) (from D : Z) : Prop :=
  forall a i x ev b p, tr = a ++ (i, (x, ev)) :: b -> from < x -> accepted ev p -> about_effects p -> sent_before a i x p D.

Lemma ai_wrap1 w clk N tr stop D : aired w clk N tr stop D -> forall i a x ev b, (i < N)%nat -> tr = a ++ (i, (x, ev)) :: b ->
  all_before (wrap - 7000) (n_start w i) ((n_past w i ++ calls_at i (untimed a)) ++ [ev]).
Proof.
  intros AI i a x ev b Ni E. destruct (ai_wrap _ _ _ _ _ _ AI i Ni) as [W1 W2]. split; [exact W1|]. intros z I. apply W2.
  rewrite E, untimed_app, untimed_cons, calls_at_app.
  replace (calls_at i ((i, ev) :: untimed b)) with (ev :: calls_at i (untimed b)) by (unfold calls_at; cbn; rewrite PeanoNat.Nat.eqb_refl; reflexivity).
  apply in_app_or in I as [I|[<-|[]]]; [|apply in_or_app; right; apply in_or_app; right; left; reflexivity].
  apply in_app_or in I as [I|I]; apply in_or_app; [left; exact I|right; apply in_or_app; left; exact I].
Qed.

(** Who has heard a life sign does not take over within five seconds by its clock; nor does
    a node that has just been switched on. *)
Lemma late_takeover w clk N tr stop D : aired w clk N tr stop D ->
  forall i x ev u c, In (i, (x, ev)) tr -> took_over ev -> In (i, (u, c)) tr -> u < x -> contact c -> clk i x <= clk i u + 5000 -> False.
Proof.
  intros AI i x ev u c Ii TO Ic Lu Cc Five.
  destruct (ai_times _ _ _ _ _ _ AI i x ev Ii) as (Ni & At & _). destruct (ai_times _ _ _ _ _ _ AI i u c Ic) as (_ & Au & _).
  apply in_split in Ii as (a & b & E).
  assert (Ic' : In (i, (u, c)) a).
  { rewrite E in Ic. apply in_app_or in Ic as [Ic|[Ic|Ic]]; [exact Ic|inversion Ic; subst; lia|].
    apply in_split in Ic as (b1 & b2 & ->). pose proof (ai_ordered _ _ _ _ _ _ AI _ _ _ _ _ _ _ _ _ E). lia. }
  pose proof (ai_run _ _ _ _ _ _ AI) as R. rewrite E, untimed_app, untimed_cons in R.
  destruct (run_split _ _ _ _ _ R) as (n & H & _).
  pose proof (ai_wrap1 _ _ _ _ _ _ AI i a x ev b Ni E) as W.
  destruct (C17_takeover_only_after_silence _ _ _ _ (ex_intro _ _ H) W TO) as [_ Sil].
  specialize (Sil c ltac:(apply in_or_app; right; apply in_calls; eauto) (or_introl Cc)). lia.
Qed.

Lemma early_takeover w clk N tr stop D : aired w clk N tr stop D ->
  forall i x ev, In (i, (x, ev)) tr -> took_over ev -> n_start w i + 5000 < clk i x.
Proof.
  intros AI i x ev Ii TO. destruct (ai_times _ _ _ _ _ _ AI i x ev Ii) as (Ni & At & _).
  apply in_split in Ii as (a & b & E).
  pose proof (ai_run _ _ _ _ _ _ AI) as R. rewrite E, untimed_app, untimed_cons in R.
  destruct (run_split _ _ _ _ _ R) as (n & H & _).
  pose proof (ai_wrap1 _ _ _ _ _ _ AI i a x ev b Ni E) as W.
  destruct (C17_takeover_only_after_silence _ _ _ _ (ex_intro _ _ H) W TO) as [Early _]. lia.
Qed.

Section Settled.
Variables (w : network) (clk : nat -> Z -> Z) (N m : nat) (m0 : event) (rest : timed) (g stop D : Z).
Let tr : timed := (m, (g, m0)) :: rest.
Hypothesis IR : aired w clk N tr stop D.
Hypothesis TO : own_heartbeat m0.
Hypothesis Sl : forall i n, (i < N)%nat -> i <> m -> hist (n_env w i) (n_start w i) (n_past w i) n -> GetCurrentState n = Slave.
Hypothesis NoT : forall i x ev, In (i, (x, ev)) tr -> i <> m -> ~ took_over ev.

Lemma es_m : (m < N)%nat.
Proof. apply (ai_times _ _ _ _ _ _ IR m g m0). left; reflexivity. Qed.
Lemma es_hist a i x ev b : tr = a ++ (i, (x, ev)) :: b ->
  exists n, hist (n_env w i) (n_start w i) ((n_past w i ++ calls_at i (untimed a)) ++ [ev]) n /\
    api_ok ((n_past w i ++ calls_at i (untimed a)) ++ [ev]).
Proof.
  intros E. pose proof (ai_run _ _ _ _ _ _ IR) as R. rewrite E, untimed_app, untimed_cons in R.
  apply (run_split _ _ _ _ _ R).
Qed.

(** The state of [m] after calls that leave it master. *)
Lemma es_master pre post n : tr = pre ++ post -> pre <> [] ->
  (forall x y, In (m, (x, y)) pre -> role_after y = Master) ->
  hist (n_env w m) (n_start w m) (n_past w m ++ calls_at m (untimed pre)) n -> GetCurrentState n = Master.
Proof.
  intros E Np Q H. destruct (calls_at m (untimed pre)) as [|z l _] eqn:C using rev_ind.
  - exfalso. destruct pre as [|z pre]; [congruence|]. unfold tr in E. inversion E; subst.
    unfold calls_at in C. cbn in C. rewrite PeanoNat.Nat.eqb_refl in C. discriminate C.
  - rewrite app_assoc in H. apply hist_last in H as (_ & -> & _).
    assert (I : In z (calls_at m (untimed pre))) by (rewrite C; apply in_or_app; right; left; reflexivity).
    apply in_calls in I as (x & I). exact (Q x z I).
Qed.

Lemma es_order a b i x ev j y v : tr = a ++ b -> In (i, (x, ev)) a -> In (j, (y, v)) b -> x <= y.
Proof.
  intros E I J. apply in_split in I as (a1 & a2 & ->). apply in_split in J as (b1 & b2 & ->).
  apply (ai_ordered _ _ _ _ _ _ IR a1 i x ev (a2 ++ b1) j y v b2). rewrite E, <- !app_assoc. cbn. rewrite <- ?app_assoc. reflexivity.
Qed.

Lemma es_all : forall pre post, tr = pre ++ post ->
  (forall i x ev, In (i, (x, ev)) pre -> role_after ev = (if Nat.eqb i m then Master else Slave) /\ (i <> m -> role_before ev = Slave)) /\
  (forall i n, (i < N)%nat -> i <> m -> hist (n_env w i) (n_start w i) (n_past w i ++ calls_at i (untimed pre)) n -> GetCurrentState n = Slave).
Proof.
  pose proof es_m as M.
  intros pre. induction pre as [|[i [x ev]] pre IH] using rev_ind; intros post E.
  - split; [intros ? ? ? []|]. intros i n I1 I2 H; cbn in H; rewrite app_nil_r in H; eauto.
  - rewrite <- app_assoc in E. cbn [app] in E. destruct (IH _ E) as (Q & Qs). clear IH.
    destruct (es_hist _ _ _ _ _ E) as (n & H & Ap). pose proof H as H'.
    apply hist_last in H as (H & En & G & Oo & L1 & L2 & S).
    assert (Ii : In (i, (x, ev)) tr) by (rewrite E; apply in_or_app; right; left; reflexivity).
    destruct (ai_times _ _ _ _ _ _ IR i x ev Ii) as (Ni & At & Ti).
    assert (Qm : forall y v, In (m, (y, v)) pre -> role_after v = Master).
    { intros y v I. destruct (Q m y v I) as [K _]. rewrite PeanoNat.Nat.eqb_refl in K. exact K. }
    destruct (PeanoNat.Nat.eq_dec i m) as [->|Ne].
    + assert (Ra : role_after ev = Master).
      { destruct pre as [|z pre'].
        - unfold tr in E. cbn in E. inversion E; subst. apply (heartbeat_call _ _ _ _ (ex_intro _ _ H') Ap TO).
        - apply (no_contact_keeps_master _ _ _ _ (ex_intro _ _ H')).
          + unfold role_before. apply (es_master _ _ _ E ltac:(discriminate) Qm H).
          + intros p Ac Lp.
            destruct (ai_prompt _ _ _ _ _ _ IR _ _ _ _ _ p E Ac Lp) as (k & y & c & q & Nk & Iy & Oy & Sy & _).
            destruct (Q k y c Iy) as [A1 A2]. specialize (A2 Nk).
            destruct (PeanoNat.Nat.eqb_spec k m); [contradiction|].
            apply in_split in Iy as (a1 & a2 & Ea).
            assert (E1 : tr = a1 ++ (k, (y, c)) :: (a2 ++ (m, (x, ev)) :: post)) by (rewrite E, Ea, <- app_assoc; reflexivity).
            destruct (es_hist _ _ _ _ _ E1) as (n' & Hy & Apy).
            destruct (slave_origin _ _ _ _ q (ex_intro _ _ Hy) A2 A1 Oy) as (q' & Cq & Sq & _).
            assert (ptype q' = 2 \/ ptype q' = 3) by (apply (Apy c q'); [apply in_or_app; right; left; reflexivity|exact Cq]).
            unfold life_sign in Lp. destruct Sy as [Sy _]. destruct Sq as [Sq _]. lia. }
      split.
      * intros j y u I. apply in_app_or in I as [I|[I|[]]]; [eauto|]. inversion I; subst. rewrite PeanoNat.Nat.eqb_refl. split; [exact Ra|congruence].
      * intros j n' Nj Nm Hj. rewrite untimed_app, calls_at_app in Hj. cbn [untimed map fst snd] in Hj.
        rewrite (calls_at_other _ _ _ Nm), app_nil_r in Hj. eauto.
    + assert (Rb : role_before ev = Slave) by (apply (Qs i (before ev)); auto).
      assert (Ra : role_after ev = Slave).
      { destruct (role_after ev) eqn:Era; [reflexivity|exfalso].
        exact (NoT i x ev Ii Ne (conj Rb Era)). }
      split.
      * intros j y u I. apply in_app_or in I as [I|[I|[]]]; [eauto|]. inversion I; subst.
        destruct (PeanoNat.Nat.eqb_spec j m); [contradiction|split; [exact Ra|auto]].
      * intros j n' Nj Nm Hj. rewrite untimed_app, calls_at_app in Hj. cbn [untimed map fst snd] in Hj.
        destruct (PeanoNat.Nat.eq_dec j i) as [->|Nji].
        -- rewrite calls_at_one, app_assoc in Hj. apply hist_last in Hj as (_ & -> & _). exact Ra.
        -- rewrite (calls_at_other _ _ _ Nji), app_nil_r in Hj. eauto.
Qed.

Lemma es_roles i x ev : In (i, (x, ev)) tr -> role_after ev = if Nat.eqb i m then Master else Slave.
Proof. intros I. apply (proj1 (es_all tr [] (eq_sym (app_nil_r tr))) i x ev I). Qed.
Lemma es_slave i x ev : In (i, (x, ev)) tr -> i <> m -> role_before ev = Slave.
Proof. intros I. apply (proj1 (es_all tr [] (eq_sym (app_nil_r tr))) i x ev I). Qed.
Lemma es_reign a x ev b : tr = a ++ (m, (x, ev)) :: b -> a <> [] -> role_before ev = Master.
Proof.
  intros E Na. destruct (es_hist _ _ _ _ _ E) as (n & H & _). apply hist_last in H as (H & _).
  apply (es_master a _ _ E Na); [|exact H].
  intros y v I. pose proof (es_roles m y v ltac:(rewrite E; apply in_or_app; left; exact I)) as K. rewrite PeanoNat.Nat.eqb_refl in K. exact K.
Qed.

(** The offset of the master does not change. *)
Lemma es_offset pre post n : tr = pre ++ post -> pre <> [] ->
  hist (n_env w m) (n_start w m) (n_past w m ++ calls_at m (untimed pre)) n -> millis_offset n = millis_offset (after m0).
Proof.
  revert post n. induction pre as [|[i [x ev]] pre IH] using rev_ind; intros post n E Np H; [congruence|].
  rewrite <- app_assoc in E. cbn [app] in E. rewrite untimed_app, calls_at_app in H. cbn [untimed map fst snd] in H.
  destruct pre as [|z pre'].
  - unfold tr in E. cbn in E. inversion E; subst. cbn in H. rewrite PeanoNat.Nat.eqb_refl in H. cbn in H.
    apply hist_last in H as (_ & -> & _). reflexivity.
  - destruct (PeanoNat.Nat.eq_dec i m) as [->|Ne].
    + rewrite calls_at_one, app_assoc in H. apply hist_last in H as (H & -> & G & O & L1 & L2 & S).
      destruct (offset_step _ _ S) as [K|(K & _)].
      * rewrite K. eapply IH; [exact E|discriminate|exact H].
      * pose proof (es_reign _ _ _ _ E ltac:(discriminate)) as Q. congruence.
    + rewrite (calls_at_other i m ev), app_nil_r in H by auto. eapply IH; [exact E|discriminate|exact H].
Qed.

Let c0 : Z := millis_offset (after m0).

(** Every heartbeat of m carries the time it shows. *)
Lemma es_value a x y b q : tr = a ++ (m, (x, y)) :: b -> originated y q -> ptype q = 0 ->
  big_endian (payload 4 q) = u32 (clk m x + c0).
Proof.
  intros E O T. destruct (es_hist _ _ _ _ _ E) as (n & H & Ap).
  destruct (C20_heartbeats_carry_network_time _ _ _ _ q (ex_intro _ _ H) Ap O T) as (_ & E1 & E2).
  rewrite E1, <- E2. pose proof H as Hl. apply hist_last in Hl as (_ & -> & _).
  assert (H2 : hist (n_env w m) (n_start w m) (n_past w m ++ calls_at m (untimed (a ++ [(m, (x, y))]))) (after y)).
  { rewrite untimed_app, calls_at_app. cbn [untimed map fst snd]. rewrite calls_at_one, app_assoc. exact H. }
  destruct (ai_times _ _ _ _ _ _ IR m x y ltac:(rewrite E; apply in_or_app; right; left; reflexivity)) as (_ & At & _).
  unfold GetNetworkMillis. rewrite (es_offset (a ++ [(m, (x, y))]) b _ ltac:(rewrite E, <- app_assoc; reflexivity) ltac:(destruct a; discriminate) H2).
  fold c0. rewrite At. unfold u32. lia.
Qed.

(** What is accepted comes from m, or somebody ordered it. *)
Lemma es_origin a i x ev b p : tr = a ++ (i, (x, ev)) :: b -> sent_before a i x p D ->
  exists k y c q, k <> i /\ In (k, (y, c)) a /\ originated c q /\ says p q /\ y <= x <= y + D /\
    (k = m \/ exists r, call c = OSetEffect r /\ same_content q r /\ about_effects r).
Proof.
  intros E (k & y & c & q & Nk & Iy & Oy & Sy & Ly).
  exists k, y, c, q. repeat (split; [assumption|]). destruct (PeanoNat.Nat.eq_dec k m) as [->|Nm]; [left; reflexivity|right].
  assert (I : In (k, (y, c)) tr) by (rewrite E; apply in_or_app; left; exact Iy).
  pose proof (es_slave _ _ _ I Nm) as A2. pose proof (es_roles _ _ _ I) as A1.
  destruct (PeanoNat.Nat.eqb_spec k m); [contradiction|].
  apply in_split in I as (a1 & a2 & Ea). destruct (es_hist _ _ _ _ _ Ea) as (n' & Hy & Apy).
  destruct (slave_origin _ _ _ _ q (ex_intro _ _ Hy) A2 A1 Oy) as (r & Cr & Sr & _).
  exists r. split; [exact Cr|]. split; [exact Sr|].
  apply (Apy c r); [apply in_or_app; right; left; reflexivity|exact Cr].
Qed.

Lemma es_beat a i x ev b p : tr = a ++ (i, (x, ev)) :: b -> i <> m -> accepted ev p -> ptype p = 0 ->
  exists y, y <= x <= y + D /\ big_endian (payload 4 p) = u32 (clk m y + c0).
Proof.
  intros E Nm Ac Tp. destruct (es_origin _ _ _ _ _ p E) as (k & y & c & q & Nk & Iy & Oy & Sy & Ly & Q);
    [apply (ai_prompt _ _ _ _ _ _ IR _ _ _ _ _ p E Ac); left; exact Tp|].
  destruct Q as [->|(r & _ & (Q1 & _) & Q2)]; [|exfalso; unfold about_effects in Q2; destruct Sy as [Sy _]; lia].
  exists y. split; [exact Ly|]. destruct Sy as [Sq1 Sq2]. rewrite Tp in Sq1. symmetry in Sq1. rewrite Sq1 in Sq2.
  change (0 =? 2) with false in Sq2. cbv iota in Sq2. rewrite Sq2.
  apply in_split in Iy as (a1 & a2 & ->). rewrite <- app_assoc in E. cbn [app] in E.
  apply (es_value _ _ _ _ q E Oy Sq1).
Qed.

(** The time of a slave comes from the last heartbeat it accepted. *)
Lemma es_slave_clock i : (i < N)%nat -> i <> m -> forall pre post n, tr = pre ++ post ->
  hist (n_env w i) (n_start w i) (n_past w i ++ calls_at i (untimed pre)) n ->
  (forall x ev p, In (i, (x, ev)) pre -> accepted ev p -> ptype p <> 0) \/
  exists y x, y <= x <= y + D /\ x <= stop /\ (forall x' ev p, In (i, (x', ev)) pre -> accepted ev p -> ptype p = 0 -> x' <= x) /\
    forall t, GetNetworkMillis (u32 t) n = u32 (clk m y + c0 + (t - clk i x)).
Proof.
  intros Ni Nm pre. induction pre as [|[j [x ev]] pre IH] using rev_ind; intros post n E H.
  - left. intros ? ? ? [].
  - rewrite <- app_assoc in E. cbn [app] in E. rewrite untimed_app, calls_at_app in H. cbn [untimed map fst snd] in H.
    destruct (PeanoNat.Nat.eq_dec j i) as [->|Ne].
    + rewrite calls_at_one, app_assoc in H. pose proof H as HH.
      apply hist_last in H as (H & -> & G & O & L1 & L2 & S).
      assert (Ii : In (i, (x, ev)) tr) by (rewrite E; apply in_or_app; right; left; reflexivity).
      pose proof (es_slave _ _ _ Ii Nm) as Rb.
      destruct (ai_times _ _ _ _ _ _ IR i x ev Ii) as (_ & At & Tx).
      destruct (accepts_dec _ _ S) as [(p & Ac)|No].
      * destruct (Z.eq_dec (ptype p) 0) as [Tp|Tp].
        -- right. destruct (es_beat _ _ _ _ _ p E Nm Ac Tp) as (y & Ly & V). exists y, x. split; [exact Ly|]. split; [exact Tx|]. split.
           ++ intros x' ev' p' I' _ _. apply in_app_or in I' as [I'|[I'|[]]]; [|inversion I'; subst; lia].
              apply (es_order _ _ i x' ev' i x ev E I'). left; reflexivity.
           ++ intros t. rewrite (C25_network_time_follows_heartbeat _ _ _ _ p [] _ HH Rb Ac Tp) by (intros ? ? []).
              rewrite V, At. unfold u32. lia.
        -- assert (Same : forall t, GetNetworkMillis (u32 t) (after ev) = GetNetworkMillis (u32 t) (before ev)).
           { intros t. destruct (offset_step _ _ S) as [K|(_ & q & Aq & Tq & _)]; [unfold GetNetworkMillis; rewrite K; reflexivity|].
             destruct Ac as [C1 _], Aq as [C2 _]. assert (q = p) by congruence. subst. contradiction. }
           assert (Th : forall q, accepted ev q -> ptype q <> 0).
           { intros q Aq. destruct Ac as [C1 _], Aq as [C2 _]. assert (q = p) by congruence. subst. exact Tp. }
           destruct (IH _ _ E H) as [Q|(y & x0 & Ly & Tx0 & Q1 & Q2)].
           ++ left. intros x' ev' q I Aq. apply in_app_or in I as [I|[I|[]]]; [eauto|]. inversion I; subst. auto.
           ++ right. exists y, x0. split; [exact Ly|]. split; [exact Tx0|]. split; [|intros t; rewrite Same; apply Q2].
              intros x' ev' q I Aq Tq. apply in_app_or in I as [I|[I|[]]]; [eauto|]. inversion I; subst. exfalso; eapply Th; eauto.
      * assert (Same : forall t, GetNetworkMillis (u32 t) (after ev) = GetNetworkMillis (u32 t) (before ev)).
        { intros t. destruct (offset_step _ _ S) as [K|(_ & q & Aq & Tq & _)]; [unfold GetNetworkMillis; rewrite K; reflexivity|].
          exfalso. eapply No. exact Aq. }
        destruct (IH _ _ E H) as [Q|(y & x0 & Ly & Tx0 & Q1 & Q2)].
        -- left. intros x' ev' q I Aq. apply in_app_or in I as [I|[I|[]]]; [eauto|]. inversion I; subst. exfalso; eapply No; eauto.
        -- right. exists y, x0. split; [exact Ly|]. split; [exact Tx0|]. split; [|intros t; rewrite Same; apply Q2].
           intros x' ev' q I Aq Tq. apply in_app_or in I as [I|[I|[]]]; [eauto|]. inversion I; subst. exfalso; eapply No; eauto.
    + rewrite (calls_at_other j i ev), app_nil_r in H by auto.
      destruct (IH _ _ E H) as [Q|(y & x0 & Ly & Tx0 & Q1 & Q2)].
      * left. intros x' ev' q I Aq. apply in_app_or in I as [I|[I|[]]]; [eauto|]. inversion I; subst. congruence.
      * right. exists y, x0. split; [exact Ly|]. split; [exact Tx0|]. split; [|exact Q2].
        intros x' ev' q I Aq Tq. apply in_app_or in I as [I|[I|[]]]; [eauto|]. inversion I; subst. congruence.
Qed.
End Settled.


(** The network time of a node that has heard a heartbeat in the last Gap ms. *)
Lemma settled_times w clk N m m0 rest g stop D Gap E :
  let tr := (m, (g, m0)) :: rest in
  aired w clk N tr stop D -> own_heartbeat m0 ->
  (forall i n, (i < N)%nat -> i <> m -> hist (n_env w i) (n_start w i) (n_past w i) n -> GetCurrentState n = Slave) ->
  (forall i x ev, In (i, (x, ev)) tr -> i <> m -> ~ took_over ev) ->
  accurate clk N (Gap + D) E ->
  forall i n nm, (i < N)%nat -> i <> m ->
    (exists y c q, In (i, (y, c)) tr /\ accepted c q /\ ptype q = 0 /\ stop - Gap <= y) ->
    hist (n_env w i) (n_start w i) (n_past w i ++ calls_at i (untimed tr)) n ->
    hist (n_env w m) (n_start w m) (n_past w m ++ calls_at m (untimed tr)) nm ->
    exists L, - (2 * E) <= L <= D + 2 * E /\
      GetNetworkMillis (u32 (clk i stop)) n = u32 (GetNetworkMillis (u32 (clk m stop)) nm - L).
Proof.
  intros tr IR TO Sl NoT Acc i n nm Ni Nm (y & c & q & Ic & Ac & Tq & Lc) Hn Hm.
  assert (M : (m < N)%nat) by exact (es_m w clk N m m0 rest g stop D IR).
  assert (Hend : tr = tr ++ []) by (symmetry; apply app_nil_r).
  destruct (es_slave_clock w clk N m m0 rest g stop D IR TO Sl NoT i Ni Nm tr [] n Hend Hn) as [Q|(y1 & x1 & Ly & X1 & Q1 & Q2)].
  { exfalso. exact (Q y c q Ic Ac Tq). }
  pose proof (Q1 y c q Ic Ac Tq) as Last.
  rewrite Q2. unfold GetNetworkMillis at 1.
  rewrite (es_offset w clk N m m0 rest g stop D IR TO Sl NoT tr [] nm Hend ltac:(discriminate) Hm).
  set (c0 := millis_offset (after m0)).
  exists ((clk m stop - clk m y1) - (clk i stop - clk i x1)). split.
  - pose proof (Acc m y1 stop M ltac:(lia)). pose proof (Acc i x1 stop Ni ltac:(lia)). lia.
  - unfold u32. lia.
Qed.

(** A node that has been told once shows it. *)
Lemma settled_told_once w clk N m m0 rest g stop D x T K i n :
  let tr := (m, (g, m0)) :: rest in
  aired w clk N tr stop D -> own_heartbeat m0 ->
  (forall i n, (i < N)%nat -> i <> m -> hist (n_env w i) (n_start w i) (n_past w i) n -> GetCurrentState n = Slave) ->
  (forall i x ev, In (i, (x, ev)) tr -> i <> m -> ~ took_over ev) ->
  about_effects K -> news_prompt tr (x + D) D ->
  (forall y ev, In (m, (y, ev)) tr -> x < y -> says (GetSetEffect (after ev)) K) ->
  (forall j y ev q, In (j, (y, ev)) tr -> j <> m -> x < y -> call ev = OSetEffect q -> says q K) ->
  (i < N)%nat -> i <> m ->
  (exists y c q, In (i, (y, c)) tr /\ accepted c q /\ about_effects q /\ x + D < y <= x + D + T) ->
  hist (n_env w i) (n_start w i) (n_past w i ++ calls_at i (untimed tr)) n -> says (GetSetEffect n) K.
Proof.
  intros tr IR TO Sl NoT AK NP Kx NoSet Ni Nm (u & c & q & Ic & Ac & Tq & Lc) Hn.
  assert (Split : forall y j c, In (j, (y, c)) tr -> exists a b, tr = a ++ (j, (y, c)) :: b) by (intros y j c0 I; apply in_split in I; exact I).
  pose proof (es_hist w clk N m m0 rest g stop D) as DS. feed DS. fold tr in DS.
  pose proof (es_origin w clk N m m0 rest g stop D) as DO. feed DO. fold tr in DO.
  pose proof (es_slave w clk N m m0 rest g stop D) as DL. feed DL. fold tr in DL.
  pose proof (ai_ordered _ _ _ _ _ _ IR) as Or. fold tr in Or.
  assert (Own : forall y c p, In (m, (y, c)) tr -> x < y -> originated c p -> about_effects p -> says p K).
  { intros y c0 p I L (s & O) Ap. destruct (Split _ _ _ I) as (a & b & E). destruct (DS _ _ _ _ _ E) as (n' & H & _).
    apply hist_last in H as (_ & _ & _ & _ & _ & _ & S).
    destruct (own_is_shown _ _ _ _ S O Ap) as (W1 & W2 & W3).
    eapply says_trans; [|apply (Kx y c0 I L)]. split; [symmetry; exact W1|]. unfold payload. rewrite W3. reflexivity. }
  assert (Heard : forall v z r, In (i, (v, z)) tr -> x + D < v -> accepted z r -> about_effects r -> says r K).
  { intros v z r Iv Lv Ar Er. destruct (Split _ _ _ Iv) as (a1 & b1 & E1).
    destruct (DO _ _ _ _ _ r E1 (NP _ _ _ _ _ r E1 Lv Ar Er)) as (k & y1 & c1 & q1 & Nk & Ik & Ok & Sk & Lk & Qk).
    assert (Ik' : In (k, (y1, c1)) tr) by (rewrite E1; apply in_or_app; left; exact Ik).
    assert (Eq1 : about_effects q1) by (unfold about_effects in *; destruct Sk as [Sk _]; rewrite <- Sk; exact Er).
    eapply says_trans; [exact Sk|].
    destruct (PeanoNat.Nat.eq_dec k m) as [->|Nkm]; [apply (Own y1 c1 q1 Ik'); auto; lia|].
    destruct Qk as [Qk|(r' & Qk & Sr & _)]; [contradiction|].
    eapply says_trans; [apply says_content; exact Sr|]. apply (NoSet k y1 c1 r' Ik' Nkm); [lia|exact Qk]. }
  pose proof (Heard u c q Ic ltac:(lia) Ac Tq) as SK.
  destruct (Split _ _ _ Ic) as (a & b & E). destruct (DS _ _ _ _ _ E) as (n' & Hc & _).
  assert (D0 : 0 <= D).
  { destruct (DO _ _ _ _ _ q E (NP _ _ _ _ _ q E ltac:(lia) Ac Tq)) as (k & y1 & c1 & q1 & _ & _ & _ & _ & Lk & _). lia. }
  assert (Sc : GetSetEffect (after c) = q).
  { destruct Tq as [Tq|Tq]; [apply (C27_set_effect_adopted _ _ _ c q (ex_intro _ _ Hc) Ac Tq)|apply (C27_control_adopted _ _ _ c q (ex_intro _ _ Hc) Ac Tq)]. }
  assert (Eh : n_past w i ++ calls_at i (untimed tr) = ((n_past w i ++ calls_at i (untimed a)) ++ [c]) ++ calls_at i (untimed b)).
  { rewrite E, untimed_app, untimed_cons, calls_at_app, <- !app_assoc. f_equal. f_equal.
    unfold calls_at. cbn. rewrite PeanoNat.Nat.eqb_refl. reflexivity. }
  rewrite Eh in Hn. apply (stays_at_K _ _ K _ _ _ Hn).
  - intros z Hz. apply hist_last in Hz as (_ & -> & _). rewrite Sc. exact SK.
  - intros z Iz. apply in_calls in Iz as (v & Iz).
    assert (Iv : In (i, (v, z)) tr) by (rewrite E; apply in_or_app; right; right; exact Iz).
    assert (Lv : x + D < v).
    { apply in_split in Iz as (b1 & b2 & ->). pose proof (Or _ _ _ _ _ _ _ _ _ E). lia. }
    split; [exact (DL i v z Iv Nm)|]. split; [intros r Cr; apply (NoSet i v z r Iv Nm); [lia|exact Cr]|].
    intros r Ar Er. exact (Heard v z r Iv Lv Ar Er).
Qed.

(** It draws what the master draws. *)
Lemma settled_animation w clk N m m0 rest g stop D Gap E x T K i n nm :
  let tr := (m, (g, m0)) :: rest in
  aired w clk N tr stop D -> own_heartbeat m0 ->
  (forall i n, (i < N)%nat -> i <> m -> hist (n_env w i) (n_start w i) (n_past w i) n -> GetCurrentState n = Slave) ->
  (forall i x ev, In (i, (x, ev)) tr -> i <> m -> ~ took_over ev) ->
  accurate clk N (Gap + D) E ->
  about_effects K -> news_prompt tr (x + D) D ->
  (forall y ev, In (m, (y, ev)) tr -> x < y -> says (GetSetEffect (after ev)) K) -> says (GetSetEffect nm) K ->
  (forall j y ev q, In (j, (y, ev)) tr -> j <> m -> x < y -> call ev = OSetEffect q -> says q K) ->
  (i < N)%nat -> i <> m ->
  (exists y c q, In (i, (y, c)) tr /\ accepted c q /\ about_effects q /\ x + D < y <= x + D + T) ->
  (exists y c q, In (i, (y, c)) tr /\ accepted c q /\ ptype q = 0 /\ stop - Gap <= y) ->
  hist (n_env w i) (n_start w i) (n_past w i ++ calls_at i (untimed tr)) n ->
  hist (n_env w m) (n_start w m) (n_past w m ++ calls_at m (untimed tr)) nm ->
  exists L, - (2 * E) <= L <= D + 2 * E /\
    forall fl md d o o' delta buf,
    o = o' \/ (ptype K = 2 -> ~ per_node (nth 0 (pdata K) 0 mod 35)) ->
    Show Arduino fl md d o (GetSetEffect n) (fun r => GetNetworkMillis (u32 (clk i stop + delta r)) n) buf =
    Show Arduino fl md d o' (GetSetEffect nm) (fun r => GetNetworkMillis (u32 (clk m stop - L + delta r)) nm) buf.
Proof.
  intros tr IR TO Sl NoT Acc AK NP Kx Sm NoSet Ni Nm Told Beat Hn Hm.
  pose proof (settled_told_once w clk N m m0 rest g stop D x T K i n IR TO Sl NoT AK NP Kx NoSet Ni Nm Told Hn) as Sn.
  destruct (settled_times w clk N m m0 rest g stop D Gap E IR TO Sl NoT Acc i n nm Ni Nm Beat Hn Hm) as (L & Lb & Q).
  exists L. split; [exact Lb|]. intros fl md d o o' delta buf Off.
  apply C59_same_picture.
  - apply (says_same_request _ _ K); auto; [apply (hist_good _ _ _ _ Hn)|apply (hist_good _ _ _ _ Hm)].
  - intros r. revert Q. unfold GetNetworkMillis, u32. lia.
  - destruct Off as [Off|Off]; [left; exact Off|right]. intros a b (_ & A1 & _ & A2 & _).
    destruct Sn as [S1 S2]. unfold SET_EFFECT in A1. assert (K2 : ptype K = 2) by congruence. specialize (Off K2).
    replace a with (nth 0 (pdata K) 0); [exact Off|]. rewrite <- A2. rewrite K2 in S2. change (2 =? 2) with true in S2. cbv iota in S2.
    unfold payload in S2. destruct (pdata (GetSetEffect n)), (pdata K); cbn in S2; try discriminate; try reflexivity. inversion S2. reflexivity.
Qed.

(** An order the master learns of is obeyed. *)
Lemma settled_order w clk N m m0 rest g stop D x1 c K :
  let tr := (m, (g, m0)) :: rest in
  (forall x y, x <= y -> clk m x <= clk m y) ->
  aired w clk N tr stop D -> own_heartbeat m0 ->
  (forall i n, (i < N)%nat -> i <> m -> hist (n_env w i) (n_start w i) (n_past w i) n -> GetCurrentState n = Slave) ->
  (forall i x ev, In (i, (x, ev)) tr -> i <> m -> ~ took_over ev) ->
  0 <= D -> news_prompt tr (x1 - 1) D -> In (m, (x1, c)) tr -> ptype K = 2 -> wf_packet K ->
  (exists q, says q K /\ (accepted c q \/ call c = OSetEffect q)) ->
  (forall i y ev q, In (i, (y, ev)) tr -> x1 - D <= y -> call ev = OSetEffect q -> says q K) ->
  (forall y ev, In (m, (y, ev)) tr -> at_ ev + 255000 < wrap) ->
  (0 < nth 1 (pdata K) 0 /\ clk m stop <= clk m x1 + 1000 * nth 1 (pdata K) 0 \/
   nth 1 (pdata K) 0 = 0 /\ (forall y ev q, In (m, (y, ev)) tr -> x1 <= y -> call ev <> OSetEffect q)) ->
  (forall nm, hist (n_env w m) (n_start w m) (n_past w m ++ calls_at m (untimed tr)) nm -> says (GetSetEffect nm) K) /\
  forall i n, (i < N)%nat -> i <> m ->
    (exists y u q, In (i, (y, u)) tr /\ accepted u q /\ about_effects q /\ x1 + D < y) ->
    hist (n_env w i) (n_start w i) (n_past w i ++ calls_at i (untimed tr)) n -> says (GetSetEffect n) K.
Proof.
  intros tr Fwd IR TO Sl NoT D0 NP Ic TK WK Hc NoO Wr Hold.
  pose proof (wf_byte K 1 WK) as BK. unfold byte_at, is_byte in BK.
  pose proof (es_hist w clk N m m0 rest g stop D) as DS. feed DS. fold tr in DS.
  pose proof (es_origin w clk N m m0 rest g stop D) as DO. feed DO. fold tr in DO.
  pose proof (es_reign w clk N m m0 rest g stop D) as DR. feed DR. fold tr in DR.
  pose proof (es_roles w clk N m m0 rest g stop D) as DQ. feed DQ. fold tr in DQ.
  pose proof (ai_ordered _ _ _ _ _ _ IR) as Or. fold tr in Or.
  pose proof (ai_times _ _ _ _ _ _ IR) as Times. fold tr in Times.
  assert (M : (m < N)%nat) by apply (Times m x1 c Ic).
  assert (Free : packet_free m0).
  { destruct (DS [] m g m0 rest eq_refl) as (n & H & Ap). exact (proj2 (heartbeat_call _ _ _ _ (ex_intro _ _ H) Ap TO)). }
  assert (Nz : forall q y ev, In (m, (y, ev)) tr -> x1 <= y -> call ev = OSetEffect q -> nth 1 (pdata K) 0 <> 0).
  { intros q y ev I L C. destruct Hold as [[Hh _]|(_ & Hh)]; [lia|]. exfalso. exact (Hh y ev q I L C). }
  assert (Inm : forall a x y b, tr = a ++ (m, (x, y)) :: b -> a <> [] -> x1 <= x ->
    role_before y = Master /\ role_after y = Master /\
    (forall q, accepted y q -> about_effects q -> says q K) /\
    (forall q, call y = OSetEffect q -> says q K /\ nth 1 (pdata K) 0 <> 0)).
  { intros a x y b E Na Ly. assert (Iy : In (m, (x, y)) tr) by (rewrite E; apply in_or_app; right; left; reflexivity).
    split; [exact (DR a x y b E Na)|].
    split; [pose proof (DQ m x y Iy) as Ra; rewrite PeanoNat.Nat.eqb_refl in Ra; exact Ra|]. split.
    - intros q Ac Aq.
      destruct (DO a m x y b q E (NP a m x y b q E ltac:(lia) Ac Aq)) as (k & z & u & q' & Nk & Iz & Oz & Sq & Lz & [Qk|(r & Cr & Sr & _)]); [contradiction|].
      eapply says_trans; [exact Sq|]. eapply says_trans; [apply says_content; exact Sr|].
      apply (NoO k z u r); [rewrite E; apply in_or_app; left; exact Iz|lia|exact Cr].
    - intros q Cq. split; [apply (NoO m x y q Iy); [lia|exact Cq]|exact (Nz q x y Iy Ly Cq)]. }
  (* from the call that tells m on *)
  pose proof Ic as Ic0. apply in_split in Ic as (a & b & Etr).
  set (due := at_ c + 1000 * nth 1 (pdata K) 0).
  assert (Nc : c <> m0).
  { intros ->. destruct Free as [[inc F1] F2].
    destruct Hc as (q & Sq & [Ac|Cq]); [exact (F2 q (proj2 Ac))|congruence]. }
  assert (Na : a <> []) by (intros ->; unfold tr in Etr; cbn in Etr; inversion Etr; congruence).
  destruct (Times m x1 c Ic0) as (_ & Atc & _).
  assert (Hc' : (exists q, accepted c q /\ says q K) \/ (exists q, call c = OSetEffect q /\ says q K /\ nth 1 (pdata K) 0 <> 0)).
  { destruct Hc as (q & Sq & [Ac|Cq]); [left; eauto|right]. exists q. split; [exact Cq|]. split; [exact Sq|]. apply (Nz q x1 c Ic0); [lia|exact Cq]. }
  assert (After : forall h2 h3 n2, b = h2 ++ h3 ->
    hist (n_env w m) (n_start w m) (n_past w m ++ calls_at m (untimed (a ++ (m, (x1, c)) :: h2))) n2 -> holds K due n2).
  { induction h2 as [|[k [x y]] h2 IH] using rev_ind; intros h3 n2 E2 H2.
    - rewrite untimed_app, calls_at_app in H2. cbn [untimed map fst snd] in H2. rewrite calls_at_one in H2.
      rewrite app_assoc in H2. apply hist_last in H2 as (H2 & -> & G & O & L1 & L2 & S).
      destruct (Inm a x1 c b Etr Na ltac:(lia)) as (Rb & Ra & Q1 & Q2).
      eapply (holds_step _ c K due (n_start w m)); eauto.
      + pose proof (hist_t0 _ _ _ _ H2). lia.
      + unfold due. lia.
      + intros. unfold due. lia.
    - rewrite <- app_assoc in E2. cbn [app] in E2.
      replace (a ++ (m, (x1, c)) :: h2 ++ [(k, (x, y))]) with ((a ++ (m, (x1, c)) :: h2) ++ [(k, (x, y))]) in H2 by (rewrite <- app_assoc; reflexivity).
      rewrite untimed_app, calls_at_app in H2. cbn [untimed map fst snd] in H2. fold (untimed (a ++ (m, (x1, c)) :: h2)) in H2.
      destruct (PeanoNat.Nat.eq_dec k m) as [->|Nk].
      + rewrite calls_at_one, app_assoc in H2. apply hist_last in H2 as (H2 & -> & G & O & L1 & L2 & S).
        assert (Iy : In (m, (x, y)) tr) by (rewrite Etr, E2; apply in_or_app; right; right; apply in_or_app; right; left; reflexivity).
        assert (Ly : x1 <= x) by (apply (Or a m x1 c h2 m x y h3); rewrite Etr, E2; reflexivity).
        destruct (Inm (a ++ (m, (x1, c)) :: h2) x y h3 ltac:(rewrite Etr, E2, <- app_assoc; reflexivity) ltac:(destruct a; discriminate) ltac:(lia)) as (Rb & Ra & Q1 & Q2).
        destruct (Times m x y Iy) as (_ & Aty & Ty).
        pose proof (Fwd x1 x Ly) as F1. pose proof (Fwd x stop Ty) as F2.
        eapply (holds_step _ y K due (n_start w m)); eauto.
        * pose proof (hist_t0 _ _ _ _ H2). lia.
        * unfold due. lia.
        * intros. unfold due. destruct Hold as [[Hh Hs]|(Hh & _)]; lia.
      + rewrite (calls_at_other k m y), app_nil_r in H2 by auto. eapply IH; eauto. }
  assert (Kx : forall x y, In (m, (x, y)) tr -> x1 < x -> says (GetSetEffect (after y)) K).
  { intros x y Iy Ly. rewrite Etr in Iy. apply in_app_or in Iy as [Iy|[Iy|Iy]].
    - exfalso. apply in_split in Iy as (a1 & a2 & ->).
      pose proof (Or a1 m x y a2 m x1 c b ltac:(rewrite Etr, <- app_assoc; reflexivity)). lia.
    - exfalso. inversion Iy; subst. lia.
    - apply in_split in Iy as (h2 & h3 & Eb). apply (After (h2 ++ [(m, (x, y))]) h3); [rewrite Eb, <- app_assoc; reflexivity|].
      replace (a ++ (m, (x1, c)) :: h2 ++ [(m, (x, y))]) with ((a ++ (m, (x1, c)) :: h2) ++ [(m, (x, y))]) by (rewrite <- app_assoc; reflexivity).
      rewrite untimed_app, calls_at_app. cbn [untimed map fst snd]. fold (untimed (a ++ (m, (x1, c)) :: h2)). rewrite calls_at_one, app_assoc.
      destruct (DS (a ++ (m, (x1, c)) :: h2) m x y h3 ltac:(rewrite Etr, Eb, <- app_assoc; reflexivity)) as (n & H & _).
      pose proof H as H'. apply hist_last in H' as (_ & -> & _). exact H. }
  split.
  - intros nm Hm. apply (After b [] nm (eq_sym (app_nil_r b))). rewrite <- Etr. exact Hm.
  - intros i n Ni Nm (y & u & q & Iu & Au & Aq & Lu) Hn.
    apply (settled_told_once w clk N m m0 rest g stop D x1 (y - (x1 + D)) K i n IR TO Sl NoT (or_introl TK)); auto.
    + intros a1 j z ev b1 p E1 Lz Ac Ap. exact (NP a1 j z ev b1 p E1 ltac:(lia) Ac Ap).
    + intros j z ev r I _ L C. apply (NoO j z ev r I); [lia|exact C].
    + exists y, u, q. repeat (split; [assumption|]). lia.
Qed.
