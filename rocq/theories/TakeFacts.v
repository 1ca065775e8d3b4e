(** Calls that accept an effect or control packet. *)
From Coq Require Import ZArith Lia List Bool.
From Verif Require Import CInt CIntFacts Packet NetMgr NetHist Rsm RsmStep RsmHist SpecRsm RsmEval RsmFacts RsmTime RoleFacts EffectFacts.
Import ListNotations.
Open Scope Z_scope.

Definition takes (ev : event) : Prop := exists p, accepted ev p /\ (ptype p = 2 \/ ptype p = 3).

Lemma takes_dec e ev : stepR e (u32 (at_ ev)) (before ev) (call ev) (sent ev) (after ev) -> {takes ev} + {~ takes ev}.
Proof.
  intros S0. pose proof S0 as S. destruct (call ev) as [inc| | |] eqn:C in S0; clear S0; try (right; intros (q0 & A & _); apply (step_accepted _ _ _ S) in A as (? & ? & _); congruence).
  destruct (heard (before ev) inc) as [p|] eqn:H.
  - destruct (Z.eq_dec (ptype p) 2) as [T|T]; [left|destruct (Z.eq_dec (ptype p) 3) as [T'|T']; [left|right]].
    + exists p. split; [|auto]. apply (step_accepted _ _ _ S). eauto.
    + exists p. split; [|auto]. apply (step_accepted _ _ _ S). eauto.
    + intros (q & A & Q). apply (step_accepted _ _ _ S) in A as (inc' & C' & H'). assert (inc' = inc) by congruence. subst. assert (q = p) by congruence. subst. lia.
  - right. intros (q & A & Q). apply (step_accepted _ _ _ S) in A as (inc' & C' & H'). congruence.
Qed.

Lemma takes_no_change e ev : stepR e (u32 (at_ ev)) (before ev) (call ev) (sent ev) (after ev) -> takes ev -> ~ own_change ev.
Proof.
  intros S (p & A & P) (q & I). apply (step_accepted _ _ _ S) in A as (inc & C & H). destruct ev as [t o m m' out]; proj.
  destruct S as [inc' out m' T|q' R|v|v]; proj; try discriminate C. destruct T; proj; own_in I; congruence.
Qed.
