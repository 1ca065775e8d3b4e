(** Lemmas on fixed-width integers, arrays and outcomes. *)
From Coq Require Import ZArith Lia List Bool.
From Coq Require Import ZifyBool.
From Verif Require Import CInt.
Import ListNotations.
Open Scope Z_scope.
Ltac Zify.zify_post_hook ::= Z.div_mod_to_equations.
Global Arguments Z.add : simpl never.
Global Arguments Z.sub : simpl never.
Global Arguments Z.mul : simpl never.
Global Arguments Z.modulo : simpl never.
Global Arguments Z.div : simpl never.
Global Arguments Z.quot : simpl never.
Global Arguments Z.rem : simpl never.
Global Arguments Z.opp : simpl never.
Global Arguments Z.shiftl : simpl never.
Global Arguments Z.shiftr : simpl never.
Global Arguments Z.lor : simpl never.
Global Arguments Z.land : simpl never.
Global Arguments Z.of_nat : simpl never.
Global Arguments u8 : simpl never.
Global Arguments u16 : simpl never.
Global Arguments u32 : simpl never.
Global Arguments i8 : simpl never.
Global Arguments i16 : simpl never.
Global Arguments i32 : simpl never.

Lemma u8_range z : 0 <= u8 z < 256.
Proof. unfold u8; lia. Qed.
Lemma u16_range z : 0 <= u16 z < 65536.
Proof. unfold u16; lia. Qed.
Lemma u32_range z : 0 <= u32 z < 4294967296.
Proof. unfold u32; lia. Qed.
Lemma u8_id z : 0 <= z < 256 -> u8 z = z.
Proof. unfold u8; lia. Qed.
Lemma u16_id z : 0 <= z < 65536 -> u16 z = z.
Proof. unfold u16; lia. Qed.
Lemma u32_id z : 0 <= z < 4294967296 -> u32 z = z.
Proof. unfold u32; lia. Qed.
Lemma i8_range z : -128 <= i8 z < 128.
Proof. unfold i8; cbv zeta; destruct (z mod 256 <? 128) eqn:E; lia. Qed.
Lemma u8_i8 z : u8 (i8 z) = u8 z.
Proof. unfold u8, i8; cbv zeta; destruct (z mod 256 <? 128) eqn:E; lia. Qed.
Lemma u32_i32 z : u32 (i32 z) = u32 z.
Proof. unfold u32, i32; cbv zeta; destruct (_ <? _) eqn:E; lia. Qed.
Lemma i8_u8 z : i8 (u8 z) = i8 z.
Proof. unfold u8, i8; cbv zeta; rewrite Z.mod_mod by lia; reflexivity. Qed.
Lemma i8_small z : 0 <= z < 128 -> i8 z = z.
Proof. intros; unfold i8; cbv zeta; destruct (_ <? _) eqn:E; lia. Qed.
Lemma i8_id z : -128 <= z < 128 -> i8 z = z.
Proof. intros; unfold i8; cbv zeta; destruct (_ <? _) eqn:E; lia. Qed.

Lemma list_set_length {A} (l : list A) i v : length (list_set l i v) = length l.
Proof. revert i; induction l; destruct i; simpl; auto. Qed.
Lemma list_set_nth_same {A} (l : list A) i v d : (i < length l)%nat -> nth i (list_set l i v) d = v.
Proof. revert i; induction l; destruct i; simpl; intros; try lia; auto. apply IHl; lia. Qed.
Lemma list_set_nth_other {A} (l : list A) i j v d : i <> j -> nth j (list_set l i v) d = nth j l d.
Proof. revert i j; induction l; destruct i, j; simpl; intros; try lia; auto. Qed.
Lemma list_set_Forall {A} (P : A -> Prop) l i v : Forall P l -> P v -> Forall P (list_set l i v).
Proof. intros H; revert i; induction H; destruct i; simpl; constructor; auto. Qed.
Lemma list_set_skipn {A} (l : list A) i v k : (i < k)%nat -> skipn k (list_set l i v) = skipn k l.
Proof. revert i k; induction l; destruct i, k; simpl; intros; try lia; auto. apply IHl; lia. Qed.
