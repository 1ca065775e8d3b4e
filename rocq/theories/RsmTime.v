(** Proof support: timers against the history. *)
From Coq Require Import ZArith Lia List Bool.
From Coq Require Import ZifyBool.
From Verif Require Import CInt CIntFacts Packet SpecPacket PacketFacts NetMgr NetHist SpecNet NetFacts Rsm RsmStep RsmEval RsmHist SpecRsm RsmFacts.
Import ListNotations.
Open Scope Z_scope.
Ltac Zify.zify_post_hook ::= Z.div_mod_to_equations.

Ltac proj := unfold role_before, role_after, GetCurrentState in *; cbn [with_nm with_state with_next_state with_t_hb with_t_ce with_t_bc with_seen_at
     with_millis_offset with_effect_index with_num_palettes with_num_effects with_packet_ with_set_effect_packet
     with_tick_run with_rng hear nm state next_state t_hb t_ce t_bc seen_at millis_offset effect_index
     num_palettes num_effects packet_ set_effect_packet tick_run rng api_after
     at_ call before after sent pid ptype dlen pdata set_id GetCurrentState role_before role_after] in *.

Lemma contact_heard e now t inc n n' out : tick e now n inc out n' ->
  contact (mkEv t (OTick inc) n n' out) <->
  exists p, heard n inc = Some p /\ (ptype p = 0 \/ ptype p = 1).
Proof.
  intros T. unfold contact, accepted; cbn. split.
  - intros (p & (C & I) & K). exists p. split; [|auto]. eapply tick_forwarded; eauto.
  - intros (p & H & K). exists p. split; [|auto]. split.
    + now rewrite (heard_some _ _ _ H).
    + eapply tick_forwarded; eauto.
Qed.

Lemma contact_tick ev : contact ev -> exists inc, call ev = OTick inc.
Proof. intros (p & (C & _) & _). eauto. Qed.

Lemma all_before_last T t0 h ev : all_before T t0 (h ++ [ev]) -> all_before T t0 h /\ at_ ev < T.
Proof.
  intros [A B]. repeat split; auto; intros; apply B; apply in_or_app; cbn; auto.
Qed.

Lemma api_ok_last h ev : api_ok (h ++ [ev]) ->
  api_ok h /\ (forall p, call ev = OSetEffect p -> ptype p = 2 \/ ptype p = 3).
Proof.
  intros A. split; [intros x q I C|intros q C]; eapply A; try exact C; apply in_or_app; cbn; auto.
Qed.

Lemma u32_small t d T : 0 <= t -> t < T -> 0 <= d -> T + d <= 4294967296 -> u32 (u32 t + d) = t + d.
Proof. intros. rewrite (u32_id t) by lia. apply u32_id. lia. Qed.

(** The silence timer of a slave. *)
Definition anchor (t0 : Z) (h : list event) (c : Z) : Prop :=
  (c = t0 \/ exists ev, In ev h /\ at_ ev = c /\ (contact ev \/ stepped_down ev)) /\
  t0 <= c /\ forall ev, In ev h -> contact ev \/ stepped_down ev \/ by_site ByHeartbeat ev -> at_ ev <= c.

Definition slave_inv (t0 : Z) (h : list event) (n : node) : Prop :=
  exists c, anchor t0 h c /\ c + 5000 <= t_hb n <= c + 6999.

Definition master_inv (h : list event) (n : node) : Prop :=
  exists ev, In ev h /\ by_site ByHeartbeat ev /\ t_hb n = at_ ev + 1000 /\
    forall ev', In ev' h -> by_site ByHeartbeat ev' -> at_ ev' <= at_ ev.

Lemma anchor_new t0 h ev : t0 <= at_ ev -> (forall ev', In ev' h -> at_ ev' <= at_ ev) ->
  contact ev \/ stepped_down ev -> anchor t0 (h ++ [ev]) (at_ ev).
Proof.
  intros A B C. repeat split.
  - right. exists ev. repeat split; auto. apply in_or_app; cbn; auto.
  - exact A.
  - intros ev' I _. apply in_app_or in I as [I|[<-|[]]]; [auto|lia].
Qed.

Lemma anchor_keep t0 h ev c : anchor t0 h c ->
  ~ contact ev -> ~ stepped_down ev -> ~ by_site ByHeartbeat ev -> anchor t0 (h ++ [ev]) c.
Proof.
  intros (A & B & C) N1 N2 N3. repeat split; auto.
  - destruct A as [A|(ev' & I & A)]; [auto|]. right. exists ev'. split; [apply in_or_app; auto|exact A].
  - intros ev' I X. apply in_app_or in I as [I|[<-|[]]]; [auto|tauto].
Qed.

Lemma master_keep h n ev n' : master_inv h n -> t_hb n' = t_hb n -> ~ by_site ByHeartbeat ev ->
  master_inv (h ++ [ev]) n'.
Proof.
  intros (x & I & B & T & U) E N. exists x. repeat split; auto.
  - apply in_or_app; auto.
  - congruence.
  - intros y J Y. apply in_app_or in J as [J|[<-|[]]]; [auto|tauto].
Qed.

Lemma master_new h ev n' : (forall ev', In ev' h -> at_ ev' <= at_ ev) -> by_site ByHeartbeat ev ->
  t_hb n' = at_ ev + 1000 -> master_inv (h ++ [ev]) n'.
Proof.
  intros L B T. exists ev. repeat split; auto.
  - apply in_or_app; cbn; auto.
  - intros y J Y. apply in_app_or in J as [J|[<-|[]]]; [auto|lia].
Qed.

Lemma slave_keep t0 h n ev n' : slave_inv t0 h n -> t_hb n' = t_hb n ->
  ~ contact ev -> ~ stepped_down ev -> ~ by_site ByHeartbeat ev -> slave_inv t0 (h ++ [ev]) n'.
Proof. intros (c & A & B) E N1 N2 N3. exists c. split; [apply anchor_keep; auto|lia]. Qed.

Lemma slave_new t0 h ev n' : t0 <= at_ ev -> (forall ev', In ev' h -> at_ ev' <= at_ ev) ->
  contact ev \/ stepped_down ev -> at_ ev + 5000 <= t_hb n' <= at_ ev + 6999 ->
  slave_inv t0 (h ++ [ev]) n'.
Proof. intros A B C D. exists (at_ ev). split; [apply anchor_new; auto|lia]. Qed.

Lemma not_by_heartbeat t o n n' out : (forall p, ~ In (Own ByHeartbeat p) out) ->
  ~ by_site ByHeartbeat (mkEv t o n n' out).
Proof. intros A (p & I). exact (A p I). Qed.

Ltac no_hb := intros (? & I); cbn in I;
  repeat (destruct I as [I|I]; [discriminate I|]); destruct I.
Ltac no_sd := intros [? ?]; unfold role_before, role_after, GetCurrentState in *; proj; congruence.
Ltac ct := eapply contact_heard; [eassumption|]; eexists; split; [eassumption|];
  unfold HEARTBEAT, CLAIM_MASTER in *; lia.
Ltac no_ct := let X := fresh in let p' := fresh in intros X;
  eapply contact_heard in X; [|eassumption]; destruct X as (p' & X & ?);
  first [ congruence
        | match goal with Y : heard _ _ = Some ?p |- _ =>
            assert (p' = p) by congruence; subst p';
            unfold HEARTBEAT, CLAIM_MASTER, SET_EFFECT, SET_CONTROL in *; lia end ].

Lemma timer_inv e t0 h n : hist e t0 h n -> all_before (wrap - 7000) t0 h ->
  match state n with Slave => slave_inv t0 h n | Master => master_inv h n end.
Proof.
  intros H. pattern h, n. revert h n H. apply (hist_ind2 e t0).
  - intros ty1 ty2 d1 d2 P0 W1 W2 [T0 _]. unfold wrap in T0. cbn [state].
    exists t0. split; [repeat split; [auto|lia|intros ? []]|]. cbn [t_hb].
    pose proof (Z.mod_pos_bound (Z.of_N (draw e 0%nat)) 2000 ltac:(lia)).
    rewrite (u32_small t0 _ (wrap - 7000)) by (unfold wrap; lia). lia.
  - intros h ev H IH G O L1 L2 S B. apply all_before_last in B as [B Bt].
    specialize (IH B). unfold wrap in Bt.
    pose proof (hist_t0 _ _ _ _ H) as P0.
    destruct ev as [t o n n' out]; cbn [at_ call before after sent] in *.
    destruct S as [inc out n' T|p R|v|v].
    + pose proof T as T0. destruct T; proj;
      try (destruct (state n) eqn:St; [|]); try discriminate; try congruence;
      try (match goal with Hs : state n = _ |- _ => rewrite Hs in * end);
      try (eapply slave_keep; [eassumption|reflexivity|no_ct|no_sd|no_hb]);
      try (eapply master_keep; [eassumption|reflexivity|no_hb]);
      try (apply slave_new; cbn [at_]; [lia|assumption| (left; ct) || (right; split; proj; congruence) |
             proj; pose proof (silence_range e n);
             try pose proof (Z.mod_pos_bound (Z.of_N (draw e (Datatypes.S (rng n)))) 2000 ltac:(lia));
             rewrite (u32_small t _ (wrap - 7000)) by (unfold wrap; lia); lia]);
      try (apply master_new; cbn [at_]; [assumption| eexists; cbn; left; reflexivity |
             proj; rewrite (u32_small t _ (wrap - 7000)) by (unfold wrap; lia); lia]).
    + proj. destruct (state n) eqn:St.
      * eapply slave_keep; [eassumption|reflexivity| | no_sd | no_hb].
        intros X; apply contact_tick in X as [? X]; discriminate.
      * eapply master_keep; [eassumption|reflexivity|no_hb].
    + proj. destruct (state n) eqn:St.
      * eapply slave_keep; [eassumption|reflexivity| | no_sd | no_hb].
        intros X; apply contact_tick in X as [? X]; discriminate.
      * eapply master_keep; [eassumption|reflexivity|no_hb].
    + proj. destruct (state n) eqn:St.
      * eapply slave_keep; [eassumption|reflexivity| | no_sd | no_hb].
        intros X; apply contact_tick in X as [? X]; discriminate.
      * eapply master_keep; [eassumption|reflexivity|no_hb].
Qed.
