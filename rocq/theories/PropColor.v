(** C46-C50: palettes and gradients. *)
From Coq Require Import ZArith Lia List Bool.
From Coq Require Import ZifyBool.
From Verif Require Import CInt CIntFacts Packet Fastled Palette SpecColor PaletteFacts.
Import ListNotations.
Open Scope Z_scope.
Ltac Zify.zify_post_hook ::= Z.div_mod_to_equations.

(** ** C46: lookup *)
Theorem C46_lookup_wraps : forall p i, p <> [] -> 0 <= i ->
  exists c, nth_error p (Z.to_nat (i mod Z.of_nat (length p))) = Some c /\ GetColor p i = Ok c.
Proof.
  intros p i N I. exists (colour p i). split; [|apply GetColor_eval; assumption].
  unfold colour, count. apply nth_error_nth'.
  assert (0 < Z.of_nat (length p)) by (destruct p; [congruence | cbn [length]; lia]).
  pose proof (Z.mod_pos_bound i _ H). lia.
Qed.
Print Assumptions C46_lookup_wraps.
Theorem C46_empty_palette : forall i, GetColor [] i = Undef.
Proof. reflexivity. Qed.
Print Assumptions C46_empty_palette.
Example C46_example :
  let p := [mkHSV 1 2 3; mkHSV 4 5 6; mkHSV 7 8 9] in
  GetColor p 0 = Ok (mkHSV 1 2 3) /\ GetColor p 5 = Ok (mkHSV 7 8 9) /\ GetColor p 255 = Ok (mkHSV 1 2 3).
Proof. vm_compute. auto. Qed.

(** ** C47: the gradient passes through the palette's colours *)
Theorem C47_gradient_hits_colours : forall fl p w k, gradient_palette p w ->
  0 <= k -> k * seglen p w <= 65535 ->
  GetGradient fl p (k * seglen p w) w = Ok (colour p k).
Proof.
  intros fl p w k G K L. destruct (seglen_range p w G) as (R & _).
  rewrite gradient_eval by (auto; nia). cbv zeta.
  rewrite Z.mod_mul, Z.div_mul by lia. reflexivity.
Qed.
Print Assumptions C47_gradient_hits_colours.

(** In particular every colour of the palette is shown somewhere, the first one
    at position 0; without wrapping the last one at the end. *)
Theorem C47_every_colour_shown : forall fl p w, gradient_palette p w ->
  GetGradient fl p 0 w = Ok (colour p 0) /\
  forall i, 0 <= i < count p -> exists pos, 0 <= pos < 65536 /\ GetGradient fl p pos w = Ok (colour p i).
Proof.
  intros fl p w G. destruct (seglen_range p w G) as (R & S1 & S2). split.
  - apply (C47_gradient_hits_colours fl p w 0 G); lia.
  - intros i I. exists (i * seglen p w).
    assert (i <= segments p w) by (unfold segments in *; destruct w; lia).
    assert (i * seglen p w <= 65535) by nia.
    split; [nia|]. apply C47_gradient_hits_colours; auto; lia.
Qed.
Print Assumptions C47_every_colour_shown.

(** Palettes with no or one colour. *)
Theorem C47_small_palettes : forall fl pos w c,
  GetGradient fl [] pos w = Ok (mkHSV 0 0 0) /\ GetGradient fl [c] pos w = Ok c.
Proof. split; reflexivity. Qed.
Print Assumptions C47_small_palettes.

(** Outside the supported sizes the 8-bit segment count is 0 and the division
    traps. *)
Theorem C47_too_large_palettes : forall fl p w pos, segments p w = 256 -> 2 <= count p ->
  GetGradient fl p pos w = Undef.
Proof.
  intros fl p w pos S C. unfold GetGradient. unfold psize. fold (count p).
  destruct (count p =? 0) eqn:E0; [lia|]. destruct (count p =? 1) eqn:E1; [lia|].
  replace (if w then u8 (count p) else u8 (count p - 1)) with 0; [reflexivity|].
  unfold segments in S. destruct w; rewrite S; reflexivity.
Qed.
Print Assumptions C47_too_large_palettes.

Definition rgb_palette : palette := [mkHSV 0 255 255; mkHSV 96 255 255; mkHSV 160 255 255].
Example C47_example : gradient_palette rgb_palette true /\ seglen rgb_palette true = 21845 /\
  GetGradient fl_ref rgb_palette 43690 true = Ok (mkHSV 160 255 255) /\
  GetGradient fl_ref rgb_palette (1 * 32767) false = Ok (mkHSV 96 255 255).
Proof.
  split.
  - unfold gradient_palette, rgb_palette, segments, count; cbn [length]. split; [lia|]. split; [lia|].
    repeat constructor; cbn [hue sat val]; lia.
  - vm_compute. auto.
Qed.

(** ** C48: between the neighbours, one way, linearly *)

(** The two colours on either side of a position. *)
Definition left_colour p w pos := colour p (pos / seglen p w).
Definition right_colour p w pos := colour p (pos / seglen p w + 1).

Theorem C48_between_neighbours : forall fl p w pos, fl_ok fl -> gradient_palette p w -> 0 <= pos < 65536 ->
  exists c, GetGradient fl p pos w = Ok c /\ wf_hsv c /\
    between (sat c) (sat (left_colour p w pos)) (sat (right_colour p w pos)) /\
    between (val c) (val (left_colour p w pos)) (val (right_colour p w pos)) /\
    (Z.abs (hue (left_colour p w pos) - hue (right_colour p w pos)) < 127 ->
     between (hue c) (hue (left_colour p w pos)) (hue (right_colour p w pos))).
Proof.
  intros fl p w pos O G P. unfold left_colour, right_colour.
  rewrite (gradient_eval fl p pos w G P). cbv zeta.
  destruct (seglen_range p w G) as (R & _).
  assert (N : p <> []) by (destruct G as (A & _); intros ->; unfold count in A; cbn in A; lia).
  pose proof (colour_wf p (pos / seglen p w) N (proj2 (proj2 G))) as Wa.
  pose proof (colour_wf p (pos / seglen p w + 1) N (proj2 (proj2 G))) as Wb.
  set (a := colour p (pos / seglen p w)) in *. set (b := colour p (pos / seglen p w + 1)) in *.
  eexists. split; [reflexivity|]. destruct (_ =? 0) eqn:E.
  - split; [exact Wa|]. unfold between. lia.
  - pose proof (frac_range _ _ (Z.mod_pos_bound pos (seglen p w) ltac:(lia))) as F.
    set (t := frac _ _) in *. clearbody t.
    split; [apply mix_wf; auto; lia|].
    rewrite mix_sat, mix_val. destruct Wa as (Ha & Sa & Va), Wb as (Hb & Sb & Vb).
    destruct (lerp_byte fl (sat a) (sat b) t O Sa Sb ltac:(lia)) as [-> ?].
    destruct (lerp_byte fl (val a) (val b) t O Va Vb ltac:(lia)) as [-> ?].
    split; [assumption|]. split; [assumption|]. intros NEAR. rewrite mix_hue_near by assumption.
    destruct (lerp_byte fl (hue a) (hue b) t O Ha Hb ltac:(lia)) as [-> ?]. assumption.
Qed.
Print Assumptions C48_between_neighbours.

(** Two positions of the same segment: the later one is at least as far from
    the left colour, in every channel. *)
Theorem C48_monotone : forall fl p w pos pos', fl_ok fl -> gradient_palette p w ->
  0 <= pos <= pos' -> pos' < 65536 -> pos / seglen p w = pos' / seglen p w ->
  exists c c', GetGradient fl p pos w = Ok c /\ GetGradient fl p pos' w = Ok c' /\
    let a := left_colour p w pos in
    Z.abs (sat c - sat a) <= Z.abs (sat c' - sat a) /\
    Z.abs (val c - val a) <= Z.abs (val c' - val a) /\
    (Z.abs (hue a - hue (right_colour p w pos)) < 127 ->
     Z.abs (hue c - hue a) <= Z.abs (hue c' - hue a)).
Proof.
  intros fl p w pos pos' O G P P' Q. unfold left_colour, right_colour.
  rewrite (gradient_eval fl p pos w G) by lia. rewrite (gradient_eval fl p pos' w G) by lia. cbv zeta.
  destruct (seglen_range p w G) as (R & _). rewrite <- Q.
  assert (N : p <> []) by (destruct G as (A & _); intros ->; unfold count in A; cbn in A; lia).
  pose proof (colour_wf p (pos / seglen p w) N (proj2 (proj2 G))) as (Ha & Sa & Va).
  pose proof (colour_wf p (pos / seglen p w + 1) N (proj2 (proj2 G))) as (Hb & Sb & Vb).
  set (a := colour p (pos / seglen p w)) in *. set (b := colour p (pos / seglen p w + 1)) in *.
  pose proof (Z.div_mod pos (seglen p w) ltac:(lia)) as D.
  pose proof (Z.div_mod pos' (seglen p w) ltac:(lia)) as D'. rewrite <- Q in D'.
  pose proof (Z.mod_pos_bound pos (seglen p w) ltac:(lia)) as M.
  pose proof (Z.mod_pos_bound pos' (seglen p w) ltac:(lia)) as M'.
  set (q := pos / seglen p w) in *. set (r := pos mod seglen p w) in *. set (r' := pos' mod seglen p w) in *.
  assert (r <= r') by lia.
  do 2 eexists. split; [reflexivity|]. split; [reflexivity|].
  destruct (r =? 0) eqn:E.
  { rewrite !Z.sub_diag. change (Z.abs 0) with 0. lia. }
  destruct (r' =? 0) eqn:E'; [lia|].
  pose proof (frac_range _ _ M) as F. pose proof (frac_range _ _ M') as F'.
  assert (FL : frac r (seglen p w) <= frac r' (seglen p w)) by (unfold frac; apply Z.div_le_mono; lia).
  set (t := frac r _) in *. set (t' := frac r' _) in *. clearbody t t'.
  rewrite !mix_sat, !mix_val.
  assert (MONO : forall x y, is_byte x -> is_byte y ->
    Z.abs (u8 (fl_lerp16by16 fl x y t) - x) <= Z.abs (u8 (fl_lerp16by16 fl x y t') - x)).
  { intros x y Hx Hy. destruct (lerp_byte fl x y t O Hx Hy ltac:(lia)) as [-> _].
    destruct (lerp_byte fl x y t' O Hx Hy ltac:(lia)) as [-> _].
    unfold is_byte in *. apply ok_lerp16_mono; auto; lia. }
  split; [apply MONO; assumption|]. split; [apply MONO; assumption|].
  intros NEAR. rewrite !mix_hue_near by assumption. apply MONO; assumption.
Qed.
Print Assumptions C48_monotone.

(** Distance from the left colour against exact linear interpolation: not more
    than one step ahead, less than two behind. *)
Theorem C48_linear : forall fl p w pos, fl_ok fl -> gradient_palette p w -> 0 <= pos < 65536 ->
  exists c, GetGradient fl p pos w = Ok c /\
  let a := left_colour p w pos in let b := right_colour p w pos in
  let len := seglen p w in let into := pos mod len in
  (let d := Z.abs (sat c - sat a) in
   len * d <= Z.abs (sat b - sat a) * into + len /\ Z.abs (sat b - sat a) * into < len * (d + 2)) /\
  (let d := Z.abs (val c - val a) in
   len * d <= Z.abs (val b - val a) * into + len /\ Z.abs (val b - val a) * into < len * (d + 2)) /\
  (Z.abs (hue a - hue b) < 127 -> let d := Z.abs (hue c - hue a) in
   len * d <= Z.abs (hue b - hue a) * into + len /\ Z.abs (hue b - hue a) * into < len * (d + 2)).
Proof.
  intros fl p w pos O G P. unfold left_colour, right_colour.
  rewrite (gradient_eval fl p pos w G P). cbv zeta.
  destruct (seglen_range p w G) as (R & _).
  assert (N : p <> []) by (destruct G as (A & _); intros ->; unfold count in A; cbn in A; lia).
  pose proof (colour_wf p (pos / seglen p w) N (proj2 (proj2 G))) as (Ha & Sa & Va).
  pose proof (colour_wf p (pos / seglen p w + 1) N (proj2 (proj2 G))) as (Hb & Sb & Vb).
  set (a := colour p (pos / seglen p w)) in *. set (b := colour p (pos / seglen p w + 1)) in *.
  pose proof (Z.mod_pos_bound pos (seglen p w) ltac:(lia)) as M.
  set (r := pos mod seglen p w) in *. set (s := seglen p w) in *.
  eexists. split; [reflexivity|]. destruct (r =? 0) eqn:E.
  { replace r with 0 by lia. rewrite !Z.sub_diag. change (Z.abs 0) with 0. lia. }
  rewrite mix_sat, mix_val. pose proof (frac_range _ _ M) as F.
  destruct (lerp_byte fl (sat a) (sat b) (frac r s) O Sa Sb ltac:(lia)) as [-> _].
  destruct (lerp_byte fl (val a) (val b) (frac r s) O Va Vb ltac:(lia)) as [-> _].
  split; [apply lerp_linear; auto; lia|]. split; [apply lerp_linear; auto; lia|].
  intros NEAR. rewrite mix_hue_near by assumption.
  destruct (lerp_byte fl (hue a) (hue b) (frac r s) O Ha Hb ltac:(lia)) as [-> _].
  apply lerp_linear; auto; lia.
Qed.
Print Assumptions C48_linear.
Example C48_example : fl_ok fl_ref /\
  left_colour rgb_palette true 10922 = mkHSV 0 255 255 /\
  right_colour rgb_palette true 10922 = mkHSV 96 255 255 /\
  GetGradient fl_ref rgb_palette 10922 true = Ok (mkHSV 47 255 255).
Proof. split; [exact fl_ref_ok|]. vm_compute. auto. Qed.

(** ** C49: hues far apart travel the other way round *)
Theorem C49_other_way_round : forall fl p w pos, fl_ok fl -> gradient_palette p w -> 0 <= pos < 65536 ->
  let a := hue (left_colour p w pos) in let b := hue (right_colour p w pos) in
  127 <= Z.abs (a - b) ->
  exists c d, GetGradient fl p pos w = Ok c /\
    ~ (Z.min a b < hue c < Z.max a b) /\
    0 <= d <= 255 - Z.abs (a - b) /\
    hue_after a (if a <? b then -1 else 1) d (hue c).
Proof.
  intros fl p w pos O G P a b FAR. subst a b. unfold left_colour, right_colour in *.
  rewrite (gradient_eval fl p pos w G P). cbv zeta.
  destruct (seglen_range p w G) as (R & _).
  assert (N : p <> []) by (destruct G as (A & _); intros ->; unfold count in A; cbn in A; lia).
  pose proof (colour_wf p (pos / seglen p w) N (proj2 (proj2 G))) as Wa.
  pose proof (colour_wf p (pos / seglen p w + 1) N (proj2 (proj2 G))) as Wb.
  set (a := colour p (pos / seglen p w)) in *. set (b := colour p (pos / seglen p w + 1)) in *.
  destruct (_ =? 0) eqn:E.
  - exists a, 0. split; [reflexivity|]. split; [lia|].
    destruct Wa as ((? & ?) & _), Wb as ((? & ?) & _). split; [lia|].
    unfold hue_after. rewrite Z.mul_0_r, Z.add_0_r, Z.sub_diag. reflexivity.
  - pose proof (frac_range _ _ (Z.mod_pos_bound pos (seglen p w) ltac:(lia))) as F.
    destruct (mix_hue_far fl a b (frac (pos mod seglen p w) (seglen p w)) O Wa Wb ltac:(lia) FAR)
      as (_ & D & H & B & _).
    do 2 eexists. split; [reflexivity|]. split; [|split; [exact D|exact H]]. lia.
Qed.
Print Assumptions C49_other_way_round.

(** The distance grows with the position: later positions of the segment have
    travelled at least as far. *)
Theorem C49_monotone : forall fl p w pos pos', fl_ok fl -> gradient_palette p w ->
  0 <= pos <= pos' -> pos' < 65536 -> pos / seglen p w = pos' / seglen p w ->
  let a := hue (left_colour p w pos) in let b := hue (right_colour p w pos) in
  127 <= Z.abs (a - b) ->
  exists c c' d d', GetGradient fl p pos w = Ok c /\ GetGradient fl p pos' w = Ok c' /\
    0 <= d <= d' /\ d' <= 255 - Z.abs (a - b) /\
    hue_after a (if a <? b then -1 else 1) d (hue c) /\
    hue_after a (if a <? b then -1 else 1) d' (hue c').
Proof.
  intros fl p w pos pos' O G P P' Q a b FAR. subst a b. unfold left_colour, right_colour in *.
  rewrite (gradient_eval fl p pos w G) by lia. rewrite (gradient_eval fl p pos' w G) by lia. cbv zeta.
  destruct (seglen_range p w G) as (R & _). rewrite <- Q.
  assert (N : p <> []) by (destruct G as (A & _); intros ->; unfold count in A; cbn in A; lia).
  pose proof (colour_wf p (pos / seglen p w) N (proj2 (proj2 G))) as Wa.
  pose proof (colour_wf p (pos / seglen p w + 1) N (proj2 (proj2 G))) as Wb.
  set (a := colour p (pos / seglen p w)) in *. set (b := colour p (pos / seglen p w + 1)) in *.
  pose proof (Z.div_mod pos (seglen p w) ltac:(lia)) as D.
  pose proof (Z.div_mod pos' (seglen p w) ltac:(lia)) as D'. rewrite <- Q in D'.
  pose proof (Z.mod_pos_bound pos (seglen p w) ltac:(lia)) as M.
  pose proof (Z.mod_pos_bound pos' (seglen p w) ltac:(lia)) as M'.
  set (q := pos / seglen p w) in *. set (r := pos mod seglen p w) in *. set (r' := pos' mod seglen p w) in *.
  assert (r <= r') by lia.
  pose proof (frac_range _ _ M) as F. pose proof (frac_range _ _ M') as F'.
  assert (FL : frac r (seglen p w) <= frac r' (seglen p w)) by (unfold frac; apply Z.div_le_mono; lia).
  destruct (mix_hue_far fl a b (frac r (seglen p w)) O Wa Wb ltac:(lia) FAR) as (_ & B1 & H1 & _).
  destruct (mix_hue_far fl a b (frac r' (seglen p w)) O Wa Wb ltac:(lia) FAR) as (_ & B2 & H2 & _).
  assert (Z0 : hue_after (hue a) (if hue a <? hue b then -1 else 1) 0 (hue a)).
  { unfold hue_after. rewrite Z.mul_0_r, Z.add_0_r, Z.sub_diag. reflexivity. }
  destruct (r =? 0) eqn:E, (r' =? 0) eqn:E'; try lia.
  - do 2 eexists. exists 0, 0. split; [reflexivity|]. split; [reflexivity|]. split; [lia|]. split; [lia|]. split; exact Z0.
  - do 2 eexists. exists 0; eexists. split; [reflexivity|]. split; [reflexivity|].
    split; [split; [apply Z.le_refl|apply B2]|]. split; [apply B2|]. split; [exact Z0|exact H2].
  - do 4 eexists. split; [reflexivity|]. split; [reflexivity|].
    split; [split; [apply B1|]|]; [|split; [apply B2|split; [exact H1|exact H2]]].
    destruct Wa as ((? & ?) & _), Wb as ((? & ?) & _).
    apply ok_lerp16_mono; auto; destruct (_ <? _); lia.
Qed.
Print Assumptions C49_monotone.
Definition warm_palette : palette := [mkHSV 0 255 255; mkHSV 192 255 255].
Example C49_example : gradient_palette warm_palette true /\
  127 <= Z.abs (hue (left_colour warm_palette true 9000) - hue (right_colour warm_palette true 9000)) /\
  GetGradient fl_ref warm_palette 9000 true = Ok (mkHSV 238 255 255) /\
  hue_after 0 (-1) 17 238.
Proof.
  split.
  - unfold gradient_palette, warm_palette, segments, count; cbn [length]. split; [lia|]. split; [lia|].
    repeat constructor; cbn [hue sat val]; lia.
  - vm_compute. intuition congruence.
Qed.

(** ** C50: does a wrapping gradient close? *)

(** The documented claim (ColorPalette.hpp lines 20-21) is false, whatever
    conforming FastLED is used. *)
Theorem C50_wrap_closes_refuted : exists p, gradient_palette p true /\
  forall fl, fl_ok fl ->
    exists c0 c1, GetGradient fl p 0 true = Ok c0 /\ GetGradient fl p 65535 true = Ok c1 /\
      hue c0 = 0 /\ hue c1 = 255.
Proof.
  exists warm_palette. split; [apply C49_example|]. intros fl O.
  assert (G : gradient_palette warm_palette true) by apply C49_example.
  rewrite !gradient_eval by (auto; lia). cbv zeta.
  change (seglen warm_palette true) with 32767.
  change (0 mod 32767 =? 0) with true. change (65535 mod 32767 =? 0) with false.
  change (frac (65535 mod 32767) 32767) with 2.
  change (colour warm_palette (65535 / 32767)) with (mkHSV 0 255 255).
  change (colour warm_palette (65535 / 32767 + 1)) with (mkHSV 192 255 255).
  do 2 eexists. split; [reflexivity|]. split; [reflexivity|]. split; [reflexivity|].
  pose proof (ok_lerp16_not_ahead _ O 255 192 2 ltac:(lia) ltac:(lia) ltac:(lia)) as A.
  cbn [mix_colors hue].
  change (Z.abs (0 - 192) <? Z.shiftr MAX_UINT8 1) with false.
  change (0 <? 192) with true. cbv iota. change (0 + MAX_UINT8) with 255.
  replace (fl_lerp16by16 fl 255 192 2) with 255 by lia. reflexivity.
Qed.
Print Assumptions C50_wrap_closes_refuted.

(** It holds exactly when the number of colours divides 65535. *)
Theorem C50_closes_when_dividing : forall fl p, gradient_palette p true -> 65535 mod count p = 0 ->
  GetGradient fl p 65535 true = GetGradient fl p 0 true.
Proof.
  intros fl p G D. destruct (seglen_range p true G) as (R & S1 & S2).
  assert (E : count p * seglen p true = 65535).
  { unfold seglen, segments. symmetry. apply Z.div_exact; [destruct G; lia | exact D]. }
  rewrite <- E at 1.
  rewrite C47_gradient_hits_colours by (auto; destruct G; lia).
  rewrite (proj1 (C47_every_colour_shown fl p true G)).
  f_equal. rewrite <- (Z.add_0_l (count p)). rewrite <- (Z.mul_1_l (count p)) at 1.
  apply colour_period. destruct G; lia.
Qed.
Print Assumptions C50_closes_when_dividing.

(** Up to 17 colours the only possible difference is hue 255 for hue 0. *)
Theorem C50_closes_up_to_hue_zero : forall fl p, fl_ok fl -> gradient_palette p true -> count p <= 17 ->
  exists c0 c1, GetGradient fl p 0 true = Ok c0 /\ GetGradient fl p 65535 true = Ok c1 /\
    sat c1 = sat c0 /\ val c1 = val c0 /\ (hue c1 = hue c0 \/ (hue c0 = 0 /\ hue c1 = 255)).
Proof.
  intros fl p O G C. destruct (seglen_range p true G) as (R & S1 & S2).
  rewrite !gradient_eval by (auto; lia). cbv zeta.
  assert (K : 65535 / seglen p true = count p /\ 255 * (frac (65535 mod seglen p true) (seglen p true) + 1) < 65536).
  { destruct G as (G & _). unfold seglen, segments, frac.
    assert (V : In (count p) [2;3;4;5;6;7;8;9;10;11;12;13;14;15;16;17]) by (cbn [In]; lia).
    cbn [In] in V.
    repeat (destruct V as [<-|V]; [split; [reflexivity | reflexivity]|]). destruct V. }
  destruct K as (K & T). rewrite K.
  rewrite Z.mod_0_l, Z.div_0_l by lia. change (0 =? 0) with true. cbv iota.
  assert (C0 : colour p (count p) = colour p 0).
  { rewrite <- (Z.add_0_l (count p)) at 1. rewrite <- (Z.mul_1_l (count p)) at 1. apply colour_period. destruct G; lia. }
  rewrite C0.
  assert (N : p <> []) by (destruct G as (A & _); intros ->; unfold count in A; cbn in A; lia).
  pose proof (colour_wf p 0 N (proj2 (proj2 G))) as Wa.
  pose proof (colour_wf p (count p + 1) N (proj2 (proj2 G))) as Wb.
  set (a := colour p 0) in *. set (b := colour p (count p + 1)) in *.
  do 2 eexists. split; [reflexivity|]. split; [reflexivity|].
  destruct (_ =? 0) eqn:E; [auto|].
  pose proof (frac_range _ _ (Z.mod_pos_bound 65535 (seglen p true) ltac:(lia))) as F.
  set (t := frac _ _) in *. clearbody t.
  rewrite mix_sat, mix_val.
  assert (STILL : forall x y, 0 <= x < 65536 -> 0 <= y < 65536 -> Z.abs (y - x) <= 255 ->
            Z.abs (fl_lerp16by16 fl x y t - x) = 0).
  { intros x y Hx Hy D. pose proof (ok_lerp16_not_ahead _ O x y t Hx Hy ltac:(lia)). nia. }
  pose proof Wa as (Ha & Sa & Va). pose proof Wb as (Hb & Sb & Vb). unfold is_byte in *.
  assert (Q1 : fl_lerp16by16 fl (sat a) (sat b) t = sat a) by (pose proof (STILL (sat a) (sat b)); lia).
  assert (Q2 : fl_lerp16by16 fl (val a) (val b) t = val a) by (pose proof (STILL (val a) (val b)); lia).
  rewrite Q1, Q2, !u8_id by lia. split; [reflexivity|]. split; [reflexivity|].
  destruct (Z.lt_ge_cases (Z.abs (hue a - hue b)) 127) as [NEAR|FAR].
  - rewrite mix_hue_near by assumption.
    assert (Q3 : fl_lerp16by16 fl (hue a) (hue b) t = hue a) by (pose proof (STILL (hue a) (hue b)); lia).
    rewrite Q3, u8_id by lia. auto.
  - apply (mix_hue_far fl a b t O Wa Wb ltac:(lia) FAR).
    apply STILL; destruct (_ <? _) eqn:L; lia.
Qed.
Print Assumptions C50_closes_up_to_hue_zero.

(** From 18 colours on other channels may differ as well. *)
Definition stripes (n : nat) : palette := flat_map (fun _ => [mkHSV 0 0 255; mkHSV 0 255 255]) (seq 0 n).
Theorem C50_eighteen_colours_refuted : exists p, gradient_palette p true /\ count p = 18 /\
  exists c0 c1, GetGradient fl_ref p 0 true = Ok c0 /\ GetGradient fl_ref p 65535 true = Ok c1 /\
    sat c0 <> sat c1.
Proof.
  exists (stripes 9). split; [|split; [reflexivity|]].
  - unfold gradient_palette. split; [vm_compute; congruence|]. split; [vm_compute; congruence|].
    unfold stripes; cbn [flat_map seq app]. repeat constructor; cbn [hue sat val]; lia.
  - do 2 eexists. split; [vm_compute; reflexivity|]. split; [vm_compute; reflexivity|].
    cbn [sat]. lia.
Qed.
Print Assumptions C50_eighteen_colours_refuted.
Example C50_example : gradient_palette rgb_palette true /\ 65535 mod count rgb_palette = 0 /\
  GetGradient fl_ref rgb_palette 65535 true = Ok (mkHSV 0 255 255).
Proof. split; [apply C47_example|]. vm_compute. auto. Qed.
