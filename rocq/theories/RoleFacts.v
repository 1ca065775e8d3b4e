(** Proof support for the role properties. *)
From Coq Require Import ZArith Lia List Bool.
From Coq Require Import ZifyBool.
From Verif Require Import CInt CIntFacts Packet SpecPacket PacketFacts NetMgr NetHist SpecNet NetFacts Rsm RsmStep RsmEval RsmHist SpecRsm RsmFacts RsmTime.
Import ListNotations.
Open Scope Z_scope.
Ltac Zify.zify_post_hook ::= Z.div_mod_to_equations.

Lemma timer_due_iff now t : 0 <= t -> timer_due now t = true <-> t <> 0 /\ t < now.
Proof. unfold timer_due. intros. rewrite andb_true_iff. lia. Qed.

Lemma timer_due_false now t : 0 <= t -> timer_due now t = false <-> t = 0 \/ now <= t.
Proof. unfold timer_due. intros. rewrite andb_false_iff. lia. Qed.

(** Under [api_ok] the current effect packet is a set-effect or control packet. *)
Lemma effect_type_inv e t0 h n : hist e t0 h n -> api_ok h ->
  ptype (set_effect_packet n) = 2 \/ ptype (set_effect_packet n) = 3.
Proof.
  intros H. pattern h, n. revert h n H. apply (hist_ind2 e t0).
  - intros. cbn. auto.
  - intros h ev H IH G O L1 L2 S B. apply api_ok_last in B as [B Bp]. specialize (IH B).
    destruct ev as [t o n n' out]; proj.
    destruct S as [inc out n' T|p R|v|v]; proj; auto.
    destruct T; proj; auto.
Qed.

Lemma heartbeat_site e t0 h ev : history e t0 (h ++ [ev]) -> api_ok (h ++ [ev]) ->
  own_heartbeat ev <-> by_site ByHeartbeat ev.
Proof.
  intros [n H] A. apply hist_last in H as (H & -> & G & O & L1 & L2 & S).
  apply api_ok_last in A as [A Ap]. pose proof (effect_type_inv _ _ _ _ H A) as E.
  destruct ev as [t o n n' out]; proj. unfold own_heartbeat, originated, by_site. proj.
  split.
  - intros (p & (s & I) & P).
    destruct S as [inc out n' T|q R|v|v]; proj; try (destruct I; fail).
    + destruct T; cbn in I;
      repeat (destruct I as [I|I]; [inversion I; subst; clear I|]); try destruct I;
      proj; try (eexists; left; reflexivity); try discriminate;
      exfalso; cbn in P; unfold SET_EFFECT, CLAIM_MASTER in *; lia.
    + destruct I as [I|[]]. inversion I; subst. specialize (Ap q eq_refl). cbn in P. lia.
  - intros (p & I). exists p. split; [eauto|].
    destruct S as [inc out n' T|q R|v|v]; proj; try (destruct I; fail);
    [|destruct I as [I|[]]; inversion I].
    destruct T; cbn in I;
      repeat (destruct I as [I|I]; [inversion I; subst; clear I|]); try destruct I; reflexivity.
Qed.

Lemma in_split_hist e t0 h ev n : hist e t0 h n -> In ev h ->
  exists h1 h2, h = h1 ++ ev :: h2 /\ history e t0 (h1 ++ [ev]).
Proof.
  intros H I. apply in_split in I as (h1 & h2 & ->). exists h1, h2. split; [reflexivity|].
  replace (h1 ++ ev :: h2) with ((h1 ++ [ev]) ++ h2) in H by (rewrite <- app_assoc; reflexivity).
  apply hist_prefix in H as (m & H). exists m; auto.
Qed.

Lemma api_ok_app h1 h2 : api_ok (h1 ++ h2) -> api_ok h1.
Proof. intros A ev p I C. eapply A; eauto. apply in_or_app; auto. Qed.

Lemma all_before_app T t0 h1 h2 : all_before T t0 (h1 ++ h2) -> all_before T t0 h1.
Proof. intros [A B]. split; auto. intros; apply B, in_or_app; auto. Qed.

Lemma cons_snoc {A} (h1 : list A) x h2 : h1 ++ x :: h2 = (h1 ++ [x]) ++ h2.
Proof. rewrite <- app_assoc. reflexivity. Qed.

Lemma heartbeat_site_in e t0 h ev n : hist e t0 h n -> api_ok h -> In ev h ->
  own_heartbeat ev <-> by_site ByHeartbeat ev.
Proof.
  intros H A I. destruct (in_split_hist _ _ _ _ _ H I) as (h1 & h2 & -> & Hh).
  eapply heartbeat_site; eauto. rewrite cons_snoc in A. eapply api_ok_app; eauto.
Qed.

(** Events in list order are in time order. *)
Lemma hist_order e t0 h1 ev1 h2 ev2 h3 n :
  hist e t0 (h1 ++ ev1 :: h2 ++ ev2 :: h3) n -> at_ ev1 <= at_ ev2.
Proof.
  intros H. replace (h1 ++ ev1 :: h2 ++ ev2 :: h3) with (((h1 ++ ev1 :: h2) ++ [ev2]) ++ h3) in H
    by (rewrite <- !app_assoc; reflexivity).
  apply hist_prefix in H as (m & H). apply hist_last in H as (_ & _ & _ & _ & _ & L & _).
  apply L. apply in_or_app; right; left; reflexivity.
Qed.

Lemma tick_step e ev inc : call ev = OTick inc ->
  stepR e (u32 (at_ ev)) (before ev) (call ev) (sent ev) (after ev) ->
  tick e (u32 (at_ ev)) (before ev) inc (sent ev) (after ev).
Proof. intros C S. rewrite C in S. inversion S; subst; auto. Qed.

(** Effect of a call on the network-time offset. *)
Lemma offset_step e ev : stepR e (u32 (at_ ev)) (before ev) (call ev) (sent ev) (after ev) ->
  millis_offset (after ev) = millis_offset (before ev) \/
  (role_before ev = Slave /\ exists p, accepted ev p /\ ptype p = 0 /\
     millis_offset (after ev) = i32 (u32 (big_endian (payload 4 p) - u32 (i32 (u32 (at_ ev)))))).
Proof.
  intros S. pose proof S as S0. destruct ev as [t o n n' out]; proj.
  destruct S as [inc out n' T|q R|v|v]; proj; auto.
  destruct T; proj; auto. right. split; [assumption|]. exists p. split; [|split; [assumption|reflexivity]].
  eapply step_accepted; [exact S0|]. proj. eauto.
Qed.

Lemma network_time T t t' : 0 <= T < 4294967296 ->
  u32 (u32 t' + u32 (i32 (u32 (T - u32 (i32 (u32 t)))))) = u32 (T + (t' - t)).
Proof.
  intros H. rewrite u32_i32. rewrite u32_i32. unfold u32.
  clear. rewrite !Zmod_mod. lia.
Qed.
