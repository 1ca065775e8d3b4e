(** Facts about the effect table. *)
From Coq Require Import ZArith Lia List Bool Permutation.
From Coq Require Import ZifyBool.
From Verif Require Import CInt CIntFacts Packet Fastled Device LedMgr SpecLed.
Import ListNotations.
Open Scope Z_scope.
Ltac Zify.zify_post_hook ::= Z.div_mod_to_equations.

Lemma vsize_app {A} (l r : list A) : vsize (l ++ r) = vsize l + vsize r.
Proof. unfold vsize. rewrite app_length. lia. Qed.
Lemma vsize_pos {A} (l : list A) : 0 <= vsize l.
Proof. unfold vsize; lia. Qed.
Lemma vsize_repeat {A} (a : A) n : vsize (repeat a (Z.to_nat n)) = Z.max 0 n.
Proof. unfold vsize. rewrite repeat_length. lia. Qed.

Lemma aget_app_l {A} (l r : list A) i : i < vsize l -> aget (l ++ r) i = aget l i.
Proof.
  intros H. unfold aget. destruct (i <? 0) eqn:E; [reflexivity|].
  rewrite nth_error_app1 by (unfold vsize in H; lia). reflexivity.
Qed.
Lemma aget_app_r {A} (l r : list A) i : vsize l <= i -> aget (l ++ r) i = aget r (i - vsize l).
Proof.
  intros H. pose proof (vsize_pos l). unfold aget. destruct (i <? 0) eqn:E; [lia|].
  destruct (i - vsize l <? 0) eqn:F; [lia|]. unfold vsize in *.
  rewrite nth_error_app2 by lia. replace (Z.to_nat i - length l)%nat with (Z.to_nat (i - Z.of_nat (length l))) by lia.
  reflexivity.
Qed.
Lemma aget_app_hd {A} (l r : list A) a : aget (l ++ a :: r) (vsize l) = Ok a.
Proof. rewrite aget_app_r by lia. rewrite Z.sub_diag. reflexivity. Qed.
Lemma aget_repeat {A} (a : A) n i : 0 <= i < n -> aget (repeat a (Z.to_nat n)) i = Ok a.
Proof.
  intros H. unfold aget. destruct (i <? 0) eqn:E; [lia|].
  rewrite (nth_error_nth' _ a) by (rewrite repeat_length; lia). rewrite nth_repeat. reflexivity.
Qed.
Lemma aget_in {A} (l : list A) i : 0 <= i < vsize l -> exists a, aget l i = Ok a /\ In a l.
Proof.
  intros H. unfold aget. destruct (i <? 0) eqn:E; [lia|].
  destruct (nth_error l (Z.to_nat i)) as [a|] eqn:N.
  - exists a. split; [reflexivity|]. eapply nth_error_In; eauto.
  - apply nth_error_None in N. unfold vsize in H. lia.
Qed.

Section Regs.
Context {E : Type}.
Implicit Types (regs pre post : list (E * Z)) (t : table E).

Definition ord regs : list E := flat_map (fun r => repeat (fst r) (Z.to_nat (snd r))) regs.
Definition spc regs : list E := map fst (filter (fun r => negb (is_ordinary r)) regs).
Fixpoint starts (k : Z) regs : list Z :=
  match regs with
  | [] => []
  | r :: rest => (if is_ordinary r then [u8 k] else []) ++ starts (k + snd r) rest
  end.

Lemma entries_app l r : @entries E (l ++ r) = entries l + entries r.
Proof. induction l; cbn [entries app]; lia. Qed.
Lemma specials_app l r : @specials E (l ++ r) = specials l + specials r.
Proof. unfold specials. rewrite filter_app, app_length. lia. Qed.
Lemma ordinaries_app l r : @ordinaries E (l ++ r) = ordinaries l + ordinaries r.
Proof. unfold ordinaries. rewrite filter_app, app_length. lia. Qed.
Lemma entries_pos regs : valid_regs regs -> 0 <= entries regs.
Proof. induction 1; cbn [entries]; lia. Qed.
Lemma specials_pos regs : 0 <= specials regs.
Proof. unfold specials; lia. Qed.
Lemma ordinaries_pos regs : 0 <= ordinaries regs.
Proof. unfold ordinaries; lia. Qed.
Lemma ordinaries_le regs : valid_regs regs -> ordinaries regs <= entries regs.
Proof.
  induction 1 as [|r regs V F IH]; [unfold ordinaries; cbn; lia|].
  unfold ordinaries in *. cbn [filter entries]. destruct (is_ordinary r) eqn:O; unfold is_ordinary in O; cbn [length]; lia.
Qed.
Lemma ord_size regs : valid_regs regs -> vsize (ord regs) = entries regs.
Proof.
  induction 1 as [|r regs V F IH]; [reflexivity|]. unfold ord in *. cbn [flat_map entries].
  rewrite vsize_app, vsize_repeat, IH. lia.
Qed.
Lemma spc_size regs : vsize (spc regs) = specials regs.
Proof. unfold spc, vsize, specials. rewrite map_length. reflexivity. Qed.
Lemma starts_size regs k : vsize (starts k regs) = ordinaries regs.
Proof.
  revert k. induction regs as [|r regs IH]; intros k; [reflexivity|].
  cbn [starts]. rewrite vsize_app, IH. unfold ordinaries. cbn [filter].
  destruct (is_ordinary r); unfold vsize; cbn [length]; lia.
Qed.
Lemma ord_app l r : ord (l ++ r) = ord l ++ ord r.
Proof. apply flat_map_app. Qed.
Lemma spc_app l r : spc (l ++ r) = spc l ++ spc r.
Proof. unfold spc. rewrite filter_app, map_app. reflexivity. Qed.
Lemma starts_app l r k : starts k (l ++ r) = starts k l ++ starts (k + entries l) r.
Proof.
  revert k. induction l as [|x l IH]; intros k; cbn [starts app entries].
  - rewrite Z.add_0_r. reflexivity.
  - rewrite IH, app_assoc. do 2 f_equal. lia.
Qed.
Lemma valid_app l r : @valid_regs E (l ++ r) -> valid_regs l /\ valid_regs r.
Proof. apply Forall_app. Qed.
Lemma is_ordinary_special r : 0 <= snd r -> is_ordinary (E := E) r = false -> snd r = 0.
Proof. unfold is_ordinary; lia. Qed.

Definition extend t regs : table E :=
  mkTable (effects t ++ ord regs) (non_random_effects t ++ spc regs)
          (uniqueEffectIndices t ++ starts (vsize (effects t)) regs).

Lemma AddEffect_eval pl t e p : 0 <= p < 256 ->
  AddEffect pl t e p =
  (_ <- oassert pl (vsize (effects t) + vsize (non_random_effects t) + slots [(e, p)] <? 256) ;;
   Ok (extend t [(e, p)])).
Proof.
  intros P. unfold AddEffect, extend, slots, ord, spc. cbn [flat_map filter map entries starts snd fst].
  unfold is_ordinary at 1 2. cbn [snd]. destruct (0 <? p) eqn:E0.
  - cbn [effects non_random_effects uniqueEffectIndices].
    rewrite vsize_app, vsize_repeat. unfold specials. cbn [filter]. unfold is_ordinary. cbn [snd].
    rewrite E0. cbn [negb length map]. rewrite !app_nil_r.
    replace (vsize (effects t) + Z.max 0 p + vsize (non_random_effects t) <? 256) with
            (vsize (effects t) + vsize (non_random_effects t) + (p + 0 + Z.of_nat 0) <? 256) by lia.
    reflexivity.
  - replace p with 0 in * by lia. cbn [Z.to_nat repeat effects non_random_effects uniqueEffectIndices].
    rewrite !app_nil_r. unfold specials. cbn [filter]. unfold is_ordinary. cbn [snd].
    change (0 <? 0) with false. cbn [negb length map fst].
    rewrite vsize_app. change (vsize [e]) with 1.
    replace (vsize (effects t) + (vsize (non_random_effects t) + 1) <? 256) with
            (vsize (effects t) + vsize (non_random_effects t) + (0 + 0 + Z.of_nat 1) <? 256) by lia.
    reflexivity.
Qed.

Lemma extend_sizes t regs : valid_regs regs ->
  vsize (effects (extend t regs)) = vsize (effects t) + entries regs /\
  vsize (non_random_effects (extend t regs)) = vsize (non_random_effects t) + specials regs.
Proof.
  intros V. unfold extend. cbn [effects non_random_effects]. rewrite !vsize_app, ord_size, spc_size by assumption.
  split; reflexivity.
Qed.

Lemma extend_app t l r : valid_regs l -> extend (extend t l) r = extend t (l ++ r).
Proof.
  intros V. destruct (extend_sizes t l V) as [S1 _].
  unfold extend at 1. rewrite S1. unfold extend. cbn [effects non_random_effects uniqueEffectIndices].
  rewrite ord_app, spc_app, starts_app, <- !app_assoc. reflexivity.
Qed.

Lemma slots_app l r : slots (E := E) (l ++ r) = slots l + slots r.
Proof. unfold slots. rewrite entries_app, specials_app. lia. Qed.

Lemma slots_pos regs : valid_regs regs -> 0 <= slots regs.
Proof. intros V. unfold slots. pose proof (entries_pos regs V). pose proof (specials_pos regs). lia. Qed.

Lemma add_all_eval pl t regs : valid_regs regs ->
  (vsize (effects t) + vsize (non_random_effects t) + slots regs < 256 \/ pl = Arduino) ->
  add_all pl t regs = Ok (extend t regs).
Proof.
  revert t. induction regs as [|[e p] regs IH]; intros t V H.
  - cbn [add_all]. unfold extend. cbn [ord spc starts flat_map filter map]. rewrite !app_nil_r.
    destruct t; reflexivity.
  - cbn [add_all]. inversion V as [|? ? P V']; subst. cbn [snd] in P.
    rewrite AddEffect_eval by assumption.
    change ((e, p) :: regs) with ([(e, p)] ++ regs) in H |- *. rewrite slots_app in H.
    pose proof (slots_pos regs V').
    assert (V1 : valid_regs [(e, p)]) by (constructor; [assumption|constructor]).
    assert (A : oassert pl (vsize (effects t) + vsize (non_random_effects t) + slots [(e, p)] <? 256) = Ok tt).
    { destruct pl; [|reflexivity]. unfold oassert.
      destruct (_ <? _) eqn:L; [reflexivity|]. destruct H; [lia|discriminate]. }
    rewrite A. cbn [obind]. rewrite IH; [rewrite extend_app by assumption; reflexivity | assumption |].
    destruct (extend_sizes t [(e, p)] V1) as [-> ->]. destruct H; [left; unfold slots in *; lia | right; assumption].
Qed.

Lemma add_all_abort t regs : valid_regs regs ->
  vsize (effects t) + vsize (non_random_effects t) < 256 ->
  256 <= vsize (effects t) + vsize (non_random_effects t) + slots regs ->
  add_all Host t regs = Abort.
Proof.
  revert t. induction regs as [|[e p] regs IH]; intros t V L H.
  - unfold slots, specials in H; cbn in H; lia.
  - cbn [add_all]. inversion V as [|? ? P V']; subst. cbn [snd] in P.
    rewrite AddEffect_eval by assumption.
    change ((e, p) :: regs) with ([(e, p)] ++ regs) in H. rewrite slots_app in H.
    assert (V1 : valid_regs [(e, p)]) by (constructor; [assumption|constructor]).
    unfold oassert. destruct (_ <? _) eqn:C; [|reflexivity]. cbn [obind].
    destruct (extend_sizes t [(e, p)] V1) as [S1 S2]. unfold slots in C, H.
    apply IH; [assumption| rewrite S1, S2; lia | rewrite S1, S2; unfold slots; lia].
Qed.

(** The table built from nothing. *)
Definition built regs : table E := mkTable (ord regs) (spc regs) (starts 0 regs).

Lemma built_eval pl regs : valid_regs regs -> (slots regs < 256 \/ pl = Arduino) ->
  add_all pl empty_table regs = Ok (built regs).
Proof.
  intros V H. rewrite add_all_eval; [reflexivity | assumption |].
  cbn [empty_table effects non_random_effects]. unfold vsize. cbn [length]. tauto.
Qed.

Lemma get_effect_eval pl regs i : valid_regs regs -> slots regs < 256 -> 0 <= i < slots regs ->
  GetEffect pl (built regs) i =
  if i <? entries regs then aget (ord regs) i else aget (spc regs) (i - entries regs).
Proof.
  intros V L I. unfold GetEffect. cbn [built effects non_random_effects].
  rewrite ord_size, spc_size by assumption. fold (slots regs).
  rewrite (u8_id (slots regs)) by lia.
  destruct pl; cbn [oassert obind].
  - destruct (i <? slots regs) eqn:C; [|lia]. reflexivity.
  - unfold umod. destruct (slots regs =? 0) eqn:Z0; [lia|]. cbn [obind].
    rewrite Z.mod_small by lia. reflexivity.
Qed.

Lemma delete_indexed_eval (es : list E) front regs : valid_regs regs ->
  es = front ++ ord regs -> vsize es < 256 ->
  delete_indexed es (starts (vsize front) regs) = Ok (map fst (filter is_ordinary regs)).
Proof.
  revert front. induction regs as [|[e p] regs IH]; intros front V D L; [reflexivity|].
  inversion V as [|? ? P V']; subst. cbn [snd] in P. cbn [starts snd fst].
  assert (R : delete_indexed (front ++ ord ((e, p) :: regs)) (starts (vsize front + p) regs)
              = Ok (map fst (filter is_ordinary regs))).
  { replace (vsize front + p) with (vsize (front ++ repeat e (Z.to_nat p)))
      by (rewrite vsize_app, vsize_repeat; lia).
    apply IH; [assumption| unfold ord; cbn [flat_map fst snd]; rewrite app_assoc; reflexivity | assumption]. }
  cbn [filter]. destruct (is_ordinary (e, p)) eqn:O; unfold is_ordinary in O; cbn [snd] in O.
  - cbn [app delete_indexed].
    rewrite vsize_app in L. pose proof (vsize_pos (ord ((e, p) :: regs))). pose proof (vsize_pos front).
    rewrite u8_id by lia.
    assert (G : aget (front ++ ord ((e, p) :: regs)) (vsize front) = Ok e).
    { unfold ord. cbn [flat_map fst snd]. destruct (Z.to_nat p) eqn:Q; [lia|]. cbn [repeat app].
      apply aget_app_hd. }
    rewrite G. cbn [obind]. rewrite R. reflexivity.
  - cbn [app]. exact R.
Qed.
End Regs.
