(** Proof support for the effect properties. *)
From Coq Require Import ZArith Lia List Bool.
From Coq Require Import ZifyBool.
From Verif Require Import CInt CIntFacts Packet SpecPacket PacketFacts NetMgr NetHist SpecNet NetFacts Rsm RsmStep RsmEval RsmHist SpecRsm RsmFacts RsmTime RoleFacts.
Import ListNotations.
Open Scope Z_scope.
Ltac Zify.zify_post_hook ::= Z.div_mod_to_equations.

Ltac types := unfold HEARTBEAT, CLAIM_MASTER, SET_EFFECT, SET_CONTROL in *.

Lemma in_own_inv s s' p q (l : list rtx) : In (Own s p) (Own s' q :: l) -> (s = s' /\ p = q) \/ In (Own s p) l.
Proof. intros [E|I]; [inversion E|]; auto. Qed.

Ltac own_in I := cbn in I;
  repeat (destruct I as [I|I]; [try discriminate I; inversion I; subst; clear I|]); try destruct I.

(** The change timer while undisturbed. *)
Lemma ce_step e ev : stepR e (u32 (at_ ev)) (before ev) (call ev) (sent ev) (after ev) ->
  undisturbed ev -> ~ own_change ev -> t_ce (after ev) = t_ce (before ev).
Proof.
  intros S (R1 & R2 & Q & N) NC. pose proof S as S0.
  destruct ev as [t o n n' out]; proj.
  destruct S as [inc out n' T|p R|v|v]; proj; try reflexivity; [|exfalso; eapply N; reflexivity].
  destruct T; proj; try reflexivity; try congruence.
  - exfalso. apply NC. eexists; left; reflexivity.
  - exfalso. assert (A : accepted {| at_ := t; call := OTick inc; before := n;
      after := with_t_ce (timer_of (u32 t) (byte_at (pdata p) 1 * 1000))
        (with_set_effect_packet p (with_effect_index (i8 (byte_at (pdata p) 0)) (hear p n))); sent := [Forwarded p] |} p).
    { eapply step_accepted; [exact S0|]. proj. eauto. }
    apply Q in A. types; lia.
  - exfalso. assert (A : accepted {| at_ := t; call := OTick inc; before := n;
      after := with_t_ce (timer_of (u32 t) (byte_at (pdata p) 0 * 1000))
        (with_set_effect_packet p (hear p n)); sent := [Forwarded p] |} p).
    { eapply step_accepted; [exact S0|]. proj. eauto. }
    apply Q in A. types; lia.
Qed.

Lemma ce_kept e t0 h ev0 h2 n : hist e t0 ((h ++ [ev0]) ++ h2) n ->
  (forall x, In x h2 -> undisturbed x) -> (forall x, In x h2 -> ~ own_change x) ->
  t_ce n = t_ce (after ev0).
Proof.
  revert n. induction h2 as [|x h2 IH] using rev_ind; intros n H U N.
  - rewrite app_nil_r in H. apply hist_last in H as (_ & -> & _). reflexivity.
  - rewrite app_assoc in H. apply hist_last in H as (H & -> & G & O & L1 & L2 & S).
    rewrite (ce_step _ _ S); [|apply U|apply N]; try (apply in_or_app; right; left; reflexivity).
    apply IH; auto; intros y I; [apply U|apply N]; apply in_or_app; auto.
Qed.

(** An own change happens exactly when the change timer is due and nothing else
    comes first. *)
Lemma own_change_iff e ev : stepR e (u32 (at_ ev)) (before ev) (call ev) (sent ev) (after ev) ->
  (own_change ev -> timer_due (u32 (at_ ev)) (t_ce (before ev)) = true) /\
  (timer_due (u32 (at_ ev)) (t_ce (before ev)) = true -> role_before ev = Master -> packet_free ev ->
   ~ own_heartbeat ev -> own_change ev).
Proof.
  intros S. split.
  - intros (p & I). destruct ev as [t o n n' out]; proj.
    destruct S as [inc out n' T|q R|v|v]; proj; own_in I.
    destruct T; own_in I; assumption.
  - intros D R F NH. apply (step_packet_free e ev S) in F as (inc & C & Hh).
    pose proof (tick_step _ _ _ C S) as T. destruct ev as [t o n n' out]; proj.
    destruct T; proj; try congruence.
    + intuition congruence.
    + exfalso. apply NH. eexists. split; [eexists; left; reflexivity|reflexivity].
    + eexists; left; reflexivity.
Qed.

Lemma scheduled_intro e t0 h ev0 due : t_ce (after ev0) = due -> 0 < due -> due < wrap ->
  change_scheduled e t0 (h ++ [ev0]) due.
Proof.
  intros E P W h2 ev HH B U N. destruct HH as [n H]. rewrite app_assoc in H, B.
  apply hist_last in H as (H & -> & G & O & L1 & L2 & S).
  apply all_before_last in B as [B Bt]. pose proof (hist_t0 _ _ _ _ H) as P0.
  assert (K : t_ce (before ev) = due).
  { rewrite (ce_kept _ _ _ _ _ _ H); auto. intros x I; apply U, in_or_app; auto. }
  destruct (own_change_iff e ev S) as [A1 A2].
  rewrite K in *. rewrite u32_id in * by (unfold wrap in *; lia).
  split.
  - intros Lt C. apply A1 in C. apply timer_due_iff in C; lia.
  - intros Lt F NH. apply A2; auto; [apply timer_due_iff; lia|].
    apply U. apply in_or_app; right; left; reflexivity.
Qed.

Lemma never_intro e t0 h ev0 : t_ce (after ev0) = 0 -> change_never e t0 (h ++ [ev0]).
Proof.
  intros E h2. induction h2 as [|y h2 IH] using rev_ind; intros ev HH U.
  - destruct HH as [n H]. cbn [app] in H. apply hist_last in H as (H & -> & G & O & L1 & L2 & S).
    apply hist_last in H as (_ & Eq & _). rewrite <- Eq in E.
    destruct (own_change_iff e ev S) as [A1 _]. intros C. apply A1 in C. rewrite E in C. discriminate.
  - destruct HH as [n H]. rewrite app_assoc in H.
    pose proof H as H0. apply hist_last in H as (H & -> & G & O & L1 & L2 & S).
    assert (N : forall x, In x (h2 ++ [y]) -> ~ own_change x).
    { clear S L2 L1 O G H0. intros x I. 
      assert (X : forall k1 k2, h2 ++ [y] = k1 ++ k2 -> forall z, In z k1 -> ~ own_change z).
      { intros k1. induction k1 as [|w k1 IHk] using rev_ind; intros k2 Ek z Iz; [destruct Iz|].
        apply in_app_or in Iz as [Iz|[<-|[]]].
        - apply (IHk (w :: k2)); auto. rewrite Ek, <- app_assoc. reflexivity.
        - assert (Hw : exists m, hist e t0 ((h ++ [ev0]) ++ k1 ++ [w]) m).
          { rewrite Ek in H. rewrite app_assoc in H. apply hist_prefix in H. exact H. }
          destruct Hw as [m Hw]. rewrite app_assoc in Hw.
          apply hist_last in Hw as (Hw & _ & _ & _ & _ & _ & Sw).
          assert (Kc : t_ce (before w) = t_ce (after ev0)).
          { eapply ce_kept; [exact Hw| |].
            - intros q Iq. apply U. apply in_or_app; left. rewrite Ek. apply in_or_app; left.
              apply in_or_app; left; auto.
            - intros q Iq. apply (IHk (w :: k2)); auto. rewrite Ek, <- app_assoc. reflexivity. }
          destruct (own_change_iff e w Sw) as [A1 _]. intros C. apply A1 in C. rewrite Kc, E in C. discriminate. }
      apply (X (h2 ++ [y]) []); [now rewrite app_nil_r|auto]. }
    assert (K : t_ce (before ev) = t_ce (after ev0)).
    { eapply ce_kept; [exact H| |exact N]. intros x I. apply U, in_or_app; auto. }
    destruct (own_change_iff e ev S) as [A1 _]. intros C. apply A1 in C. rewrite K, E in C. discriminate.
Qed.

(** The time of the last change seen. *)
Lemma seen_step e ev : good (before ev) -> op_ok (call ev) ->
  stepR e (u32 (at_ ev)) (before ev) (call ev) (sent ev) (after ev) ->
  (effect_change_seen ev /\ seen_at (after ev) = u32 (at_ ev)) \/
  (~ effect_change_seen ev /\ seen_at (after ev) = seen_at (before ev)).
Proof.
  intros G O S. pose proof S as S0.
  assert (NA : forall p q inc, call ev = OTick inc -> heard (before ev) inc = Some q -> accepted ev p -> p = q).
  { intros p q inc C Hq A. apply (step_accepted e ev p S0) in A as (inc' & C' & A). congruence. }
  assert (NN : forall p inc, call ev = OTick inc -> heard (before ev) inc = None -> ~ accepted ev p).
  { intros p inc C Hq A. apply (step_accepted e ev p S0) in A as (inc' & C' & A). congruence. }
  assert (YA : forall p inc, call ev = OTick inc -> heard (before ev) inc = Some p -> accepted ev p).
  { intros p inc C Hq. apply (step_accepted e ev p S0). eauto. }
  unfold effect_change_seen. destruct ev as [t o n n' out]; proj.
  destruct S as [inc out n' T|q R|v|v]; proj;
    try (right; split; [intros (_ & p & (C & _) & _); discriminate|reflexivity]).
  specialize (fun p q => NA p q inc eq_refl). specialize (fun p => NN p inc eq_refl). specialize (fun p => YA p inc eq_refl).
  destruct T; proj;
    try (right; split; [intros (_ & q & A & _); exact (NN q ltac:(assumption) A)|reflexivity]);
    try (right; split; [intros (? & q & A & X); apply (NA q p) in A; [subst q|assumption]; types; try congruence; lia|reflexivity]).
  - (* set effect, slave *)
    assert (Hwf : forall b, 0 <= b < 256 -> (b =? effect_index n) = false <-> (b <> u8 (effect_index n) \/ 128 <= b)).
    { intros b Rb. pose proof (g_ei _ G). unfold u8. lia. }
    assert (CH : changed n p = true <-> (nth 0 (pdata p) 0 <> GetEffectIndex n \/ 128 <= nth 0 (pdata p) 0 \/
         nth 2 (pdata p) 0 <> nth 2 (pdata (GetSetEffect n)) 0)).
    { unfold changed, GetEffectIndex, GetSetEffect. rewrite orb_true_iff, !negb_true_iff.
      assert (B0 : 0 <= byte_at (pdata p) 0 < 256).
      { apply wf_byte. match goal with X : heard n inc = Some p |- _ => rewrite (heard_some _ _ _ X) in O end. exact O. }
      rewrite (Hwf _ B0). rewrite Z.eqb_neq. unfold byte_at. tauto. }
    destruct (changed n p) eqn:E.
    + left. split; [|reflexivity]. split; [assumption|]. exists p. split; [auto|]. right. split; [types; auto|].
      apply CH. reflexivity.
    + right. split; [|reflexivity]. intros (_ & q & A & X). apply (NA q p) in A; [subst q|assumption].
      types. destruct X as [X|[_ X]]; [lia|]. apply CH in X. discriminate.
  - left. split; [|reflexivity]. split; [assumption|]. exists p. split; [auto|]. left; types; auto.
Qed.

Lemma seen_dec e ev : good (before ev) -> op_ok (call ev) ->
  stepR e (u32 (at_ ev)) (before ev) (call ev) (sent ev) (after ev) ->
  effect_change_seen ev \/ ~ effect_change_seen ev.
Proof. intros G O S. destruct (seen_step e ev G O S); tauto. Qed.

Lemma last_seen_eq e t0 h n s : hist e t0 h n -> last_seen h s -> seen_at n = u32 s.
Proof.
  intros H. revert s. pattern h, n. revert h n H. apply (hist_ind2 e t0).
  - intros ? ? ? ? _ _ _ s [[-> _]|(h1 & ev & h2 & E & _)]; [reflexivity|destruct h1; discriminate].
  - intros h ev H IH G O L1 L2 S s LS.
    destruct (seen_step e ev G O S) as [[Y E]|[N E]]; rewrite E.
    + destruct LS as [[-> X]|(h1 & x & h2 & Eh & Sx & -> & X)].
      * exfalso. apply (X ev); [apply in_or_app; right; left; auto|auto].
      * destruct h2 as [|z h2 _] using rev_ind.
        -- apply app_inj_tail in Eh as [_ <-]. reflexivity.
        -- exfalso. rewrite app_comm_cons, app_assoc in Eh. apply app_inj_tail in Eh as [_ <-].
           apply (X ev); [apply in_or_app; right; left; auto|auto].
    + apply IH. destruct LS as [[-> X]|(h1 & x & h2 & Eh & Sx & -> & X)].
      * left. split; [reflexivity|]. intros; apply X, in_or_app; auto.
      * right. destruct h2 as [|z h2 _] using rev_ind.
        -- apply app_inj_tail in Eh as [_ <-]. contradiction.
        -- rewrite app_comm_cons, app_assoc in Eh. apply app_inj_tail in Eh as [-> <-].
           exists h1, x, h2. split; [auto|]. split; [auto|]. split; [auto|]. intros; apply X, in_or_app; auto.
Qed.

(** The re-broadcast timer of a master. *)
Definition bc_inv (h : list event) (n : node) : Prop :=
  exists b, In b h /\ (took_over b \/ by_site ByRebroadcast b) /\ t_bc n = at_ b + 2000 /\
    forall x, In x h -> took_over x \/ by_site ByRebroadcast x -> at_ x <= at_ b.

Lemma bc_timer_inv e t0 h n : hist e t0 h n -> all_before (wrap - 2000) t0 h ->
  state n = Master -> bc_inv h n.
Proof.
  intros H. pattern h, n. revert h n H. apply (hist_ind2 e t0).
  - intros; discriminate.
  - intros h ev H IH G O L1 L2 S B M. apply all_before_last in B as [B Bt].
    specialize (IH B). pose proof (hist_t0 _ _ _ _ H) as P0.
    assert (New : took_over ev \/ by_site ByRebroadcast ev -> t_bc (after ev) = at_ ev + 2000 -> bc_inv (h ++ [ev]) (after ev)).
    { intros X E. exists ev. split; [apply in_or_app; right; left; auto|]. split; [auto|]. split; [auto|].
      intros y I _. apply in_app_or in I as [I|[<-|[]]]; [auto|lia]. }
    assert (Keep : state (before ev) = Master -> ~ by_site ByRebroadcast ev -> t_bc (after ev) = t_bc (before ev) ->
                   bc_inv (h ++ [ev]) (after ev)).
    { intros M0 NR E. destruct (IH M0) as (b & Ib & Xb & Tb & Ub). exists b.
      split; [apply in_or_app; auto|]. split; [auto|]. split; [congruence|].
      intros y I Y. apply in_app_or in I as [I|[<-|[]]]; [auto|]. exfalso.
      destruct Y as [[Y _]|Y]; [|tauto]. unfold role_before, GetCurrentState in Y. congruence. }
    destruct ev as [t o n n' out]; proj.
    assert (U : u32 (u32 t + 2000) = t + 2000) by (apply (u32_small t 2000 (wrap - 2000)); unfold wrap in *; lia).
    destruct S as [inc out n' T|p R|v|v]; proj; [|apply Keep; auto; intros (? & I); own_in I..].
    destruct T; proj; try congruence;
      try (apply Keep; auto; intros (? & I); own_in I).
    + apply New; auto. left. split; proj; auto.
    + apply New; auto. right. eexists; left; reflexivity.
Qed.
