(** Facts about palettes. *)
From Coq Require Import ZArith Lia List Bool.
From Coq Require Import ZifyBool.
From Verif Require Import CInt CIntFacts Packet Fastled Palette SpecColor.
Import ListNotations.
Open Scope Z_scope.
Ltac Zify.zify_post_hook ::= Z.div_mod_to_equations.

Lemma aget_nth {A} (l : list A) i d : 0 <= i < Z.of_nat (length l) ->
  aget l i = Ok (nth (Z.to_nat i) l d).
Proof.
  intros H. unfold aget. destruct (i <? 0) eqn:E; [lia|].
  rewrite (nth_error_nth' l d) by lia. reflexivity.
Qed.

Lemma GetColor_eval p i : p <> [] -> GetColor p i = Ok (colour p i).
Proof.
  intros N. unfold GetColor, umod, psize, colour, count.
  assert (0 < Z.of_nat (length p)) by (destruct p; [congruence | cbn [length]; lia]).
  destruct (_ =? 0) eqn:E; [lia|]. cbn [obind].
  apply aget_nth. apply Z.mod_pos_bound; lia.
Qed.

Lemma colour_wf p i : p <> [] -> Forall wf_hsv p -> wf_hsv (colour p i).
Proof.
  intros N F. unfold colour. rewrite Forall_forall in F. apply F. apply nth_In.
  assert (0 < count p) by (unfold count; destruct p; [congruence | cbn [length]; lia]).
  pose proof (Z.mod_pos_bound i (count p) H). unfold count in *. lia.
Qed.

Lemma colour_period p i k : 0 < count p -> colour p (i + k * count p) = colour p i.
Proof. intros. unfold colour. rewrite Z.mod_add by lia. reflexivity. Qed.

(** The position inside the segment, scaled to a 16-bit fraction. *)
Definition frac (rest len : Z) : Z := rest * 65535 / len.

Lemma frac_range r len : 0 <= r < len -> 0 <= frac r len < 65535.
Proof.
  intros. unfold frac. split; [apply Z.div_pos; lia|]. apply Z.div_lt_upper_bound; lia.
Qed.

Lemma seglen_range p w : gradient_palette p w -> 257 <= seglen p w <= 65535 /\
  1 <= segments p w <= 255 /\ seglen p w * segments p w <= 65535.
Proof.
  intros (A & B & _). unfold seglen.
  assert (S1 : 1 <= segments p w) by (unfold segments in *; destruct w; lia).
  pose proof (Z.div_mod 65535 (segments p w) ltac:(lia)).
  pose proof (Z.mod_pos_bound 65535 (segments p w) ltac:(lia)).
  assert (257 <= 65535 / segments p w) by (apply Z.div_le_lower_bound; lia).
  assert (65535 / segments p w <= 65535) by (apply Z.div_le_upper_bound; nia).
  nia.
Qed.

Lemma segment_index p w pos : gradient_palette p w -> 0 <= pos < 65536 ->
  let s := seglen p w in
  0 <= pos / s <= 255 /\ (pos mod s <> 0 -> pos / s <= 254) /\ pos / s <= segments p w.
Proof.
  intros G P s. destruct (seglen_range p w G) as (R & S1 & S2).
  assert (X : 65535 < (segments p w + 1) * seglen p w).
  { unfold seglen in *. pose proof (Z.div_mod 65535 (segments p w) ltac:(lia)).
    pose proof (Z.mod_pos_bound 65535 (segments p w) ltac:(lia)). lia. }
  fold s in R, S2, X.
  pose proof (Z.div_mod pos s ltac:(lia)) as D. pose proof (Z.mod_pos_bound pos s ltac:(lia)) as M.
  assert (0 <= pos / s) by (apply Z.div_pos; lia).
  assert (pos / s <= 255) by (apply Z.lt_succ_r; apply Z.div_lt_upper_bound; nia).
  split; [lia|]. split.
  - intros N. destruct (Z.eq_dec (pos / s) 255) as [E|E]; [|lia]. rewrite E in D. nia.
  - assert (pos / s < segments p w + 1); [|lia].
    apply Z.div_lt_upper_bound; [lia|].
    assert (65535 < (segments p w + 1) * s); [|lia].
    exact X.
Qed.

Lemma gradient_eval fl p pos w : gradient_palette p w -> 0 <= pos < 65536 ->
  GetGradient fl p pos w =
  let s := seglen p w in
  Ok (if pos mod s =? 0 then colour p (pos / s)
      else mix_colors fl (colour p (pos / s)) (colour p (pos / s + 1)) (frac (pos mod s) s)).
Proof.
  intros G P. cbv zeta. set (s := seglen p w). destruct (seglen_range p w G) as (R & S1 & S2).
  destruct (segment_index p w pos G P) as (I1 & I2 & I3). fold s in R, S2, I1, I2, I3.
  destruct G as (A & B & F).
  assert (N : p <> []) by (intros ->; unfold count in A; cbn in A; lia).
  unfold GetGradient. unfold psize. fold (count p).
  destruct (count p =? 0) eqn:E0; [lia|]. destruct (count p =? 1) eqn:E1; [lia|].
  replace (if w then u8 (count p) else u8 (count p - 1)) with (segments p w)
    by (unfold segments in *; destruct w; rewrite u8_id; lia).
  unfold udiv at 1. destruct (segments p w =? 0) eqn:E2; [lia|]. cbn [obind].
  change (MAX_UINT16 / segments p w) with s. rewrite (u16_id s) by lia.
  unfold udiv. destruct (s =? 0) eqn:E3; [lia|]. cbn [obind].
  rewrite (u8_id (pos / s)) by lia.
  pose proof (Z.div_mod pos s ltac:(lia)) as D. pose proof (Z.mod_pos_bound pos s ltac:(lia)) as M.
  assert (0 <= pos / s * s <= pos) by nia.
  rewrite (u32_id (pos / s * s)) by lia.
  replace (pos - pos / s * s) with (pos mod s) by lia.
  rewrite (u32_id (pos mod s)) by lia. unfold MAX_UINT16 at 1.
  rewrite (u32_id (pos mod s * 65535)) by lia.
  change (pos mod s * 65535 / s) with (frac (pos mod s) s).
  pose proof (frac_range (pos mod s) s M) as FR. rewrite (u16_id (frac _ _)) by lia.
  rewrite GetColor_eval by assumption. cbn [obind]. unfold umod. rewrite E3. cbn [obind].
  destruct (pos mod s =? 0) eqn:E4; [reflexivity|].
  rewrite u8_id by lia. rewrite GetColor_eval by assumption. reflexivity.
Qed.

(** Interpolation of one channel: between, monotone, neither ahead nor far
    behind. *)
Lemma lerp_byte fl a b t : fl_ok fl -> is_byte a -> is_byte b -> 0 <= t < 65536 ->
  u8 (fl_lerp16by16 fl a b t) = fl_lerp16by16 fl a b t /\ between (fl_lerp16by16 fl a b t) a b.
Proof.
  intros O [A1 A2] [B1 B2] T.
  pose proof (ok_lerp16_between _ O a b t ltac:(lia) ltac:(lia) T) as H.
  split; [|exact H]. apply u8_id. unfold between in H. lia.
Qed.

Lemma lerp_linear fl a b r s : fl_ok fl -> is_byte a -> is_byte b -> 0 <= r < s -> s <= 65535 ->
  let d := Z.abs (fl_lerp16by16 fl a b (frac r s) - a) in
  s * d <= Z.abs (b - a) * r + s /\ Z.abs (b - a) * r < s * (d + 2).
Proof.
  intros O [A1 A2] [B1 B2] R S d. pose proof (frac_range r s R) as F.
  pose proof (ok_lerp16_not_ahead _ O a b (frac r s) ltac:(lia) ltac:(lia) ltac:(lia)) as H1.
  pose proof (ok_lerp16_not_behind _ O a b (frac r s) ltac:(lia) ltac:(lia) ltac:(lia)) as H2.
  fold d in H1, H2. assert (0 <= d) by (unfold d; lia).
  set (D := Z.abs (b - a)) in *. assert (0 <= D <= 255) by (unfold D; lia). clearbody D d.
  unfold frac in *. set (t := r * 65535 / s) in *.
  pose proof (Z.div_mod (r * 65535) s ltac:(lia)) as E. fold t in E.
  pose proof (Z.mod_pos_bound (r * 65535) s ltac:(lia)) as M. clearbody t.
  assert (s * t <= r * 65535) by lia. assert (r * 65535 < s * (t + 1)) by lia.
  split.
  - (* s d <= D r + s *)
    assert (s * (65536 * d) <= s * (D * (t + 1))) by nia.
    assert (s * (D * (t + 1)) <= D * (r * 65535 + s)) by nia.
    nia.
  - assert (s * (D * t) <= s * (65536 * (d + 1))) by nia.
    assert (D * (r * 65535) <= D * (s * (t + 1))) by nia.
    nia.
Qed.

Lemma mix_sat fl a b t : sat (mix_colors fl a b t) = u8 (fl_lerp16by16 fl (sat a) (sat b) t).
Proof. reflexivity. Qed.
Lemma mix_val fl a b t : val (mix_colors fl a b t) = u8 (fl_lerp16by16 fl (val a) (val b) t).
Proof. reflexivity. Qed.
Lemma mix_hue_near fl a b t : Z.abs (hue a - hue b) < 127 ->
  hue (mix_colors fl a b t) = u8 (fl_lerp16by16 fl (hue a) (hue b) t).
Proof.
  intros H. cbn [mix_colors hue]. change (Z.shiftr MAX_UINT8 1) with 127.
  destruct (_ <? 127) eqn:E; [reflexivity|lia].
Qed.

(** The long way: distance [d] travelled on the 255-circle. *)
Lemma mix_hue_far fl a b t : fl_ok fl -> wf_hsv a -> wf_hsv b -> 0 <= t < 65536 ->
  127 <= Z.abs (hue a - hue b) ->
  let dir := if hue a <? hue b then -1 else 1 in
  let x := if hue a <? hue b then hue a + 255 else hue a in
  let y := if hue a <? hue b then hue b else hue b + 255 in
  let d := Z.abs (fl_lerp16by16 fl x y t - x) in
  let h := hue (mix_colors fl a b t) in
  is_byte h /\ 0 <= d <= 255 - Z.abs (hue a - hue b) /\ hue_after (hue a) dir d h /\
  (h <= Z.min (hue a) (hue b) \/ Z.max (hue a) (hue b) <= h) /\
  (d = 0 -> h = hue a \/ (hue a = 0 /\ h = 255)).
Proof.
  intros O ((A1 & A2) & _) ((B1 & B2) & _) T FAR dir x y d h.
  cbn [mix_colors hue] in h. change (Z.shiftr MAX_UINT8 1) with 127 in h.
  assert (E : (Z.abs (hue a - hue b) <? 127) = false) by lia. subst h. rewrite E.
  unfold MAX_UINT8, hue_after. subst dir x y d.
  destruct (hue a <? hue b) eqn:L.
  - pose proof (ok_lerp16_between _ O (hue a + 255) (hue b) t ltac:(lia) ltac:(lia) T) as BT.
    set (l := fl_lerp16by16 fl (hue a + 255) (hue b) t) in *. clearbody l. unfold between in BT.
    destruct (255 <? l) eqn:G.
    + rewrite (u16_id (l - 255)), (u8_id (l - 255)) by lia.
      split; [unfold is_byte; lia|]. split; [lia|]. split; [|split; [lia|lia]].
      replace (l - 255 - (hue a + -1 * Z.abs (l - (hue a + 255)))) with 0 by lia. reflexivity.
    + rewrite (u8_id l) by lia. split; [unfold is_byte; lia|]. split; [lia|]. split; [|split; [lia|lia]].
      replace (l - (hue a + -1 * Z.abs (l - (hue a + 255)))) with 255 by lia. reflexivity.
  - pose proof (ok_lerp16_between _ O (hue a) (hue b + 255) t ltac:(lia) ltac:(lia) T) as BT.
    set (l := fl_lerp16by16 fl (hue a) (hue b + 255) t) in *. clearbody l. unfold between in BT.
    destruct (255 <? l) eqn:G.
    + rewrite (u16_id (l - 255)), (u8_id (l - 255)) by lia.
      split; [unfold is_byte; lia|]. split; [lia|]. split; [|split; [lia|lia]].
      replace (l - 255 - (hue a + 1 * Z.abs (l - hue a))) with (-255) by lia. reflexivity.
    + rewrite (u8_id l) by lia. split; [unfold is_byte; lia|]. split; [lia|]. split; [|split; [lia|lia]].
      replace (l - (hue a + 1 * Z.abs (l - hue a))) with 0 by lia. reflexivity.
Qed.

Lemma mix_wf fl a b t : fl_ok fl -> wf_hsv a -> wf_hsv b -> 0 <= t < 65536 -> wf_hsv (mix_colors fl a b t).
Proof.
  intros O Wa Wb T. split.
  - destruct (Z.lt_ge_cases (Z.abs (hue a - hue b)) 127) as [N|F].
    + rewrite mix_hue_near by assumption. apply u8_range.
    + apply (mix_hue_far fl a b t O Wa Wb T F).
  - split; apply u8_range.
Qed.

(** Every gradient of a sensible palette is a colour. *)
Lemma gradient_ok fl p pos w : fl_ok fl -> count p <= 255 -> Forall wf_hsv p -> 0 <= pos < 65536 ->
  exists c, GetGradient fl p pos w = Ok c /\ wf_hsv c.
Proof.
  intros O C F P. destruct (Z.lt_ge_cases (count p) 2) as [S|S].
  - destruct p as [|c [|]].
    + eexists. split; [reflexivity|]. unfold wf_hsv, is_byte; cbn [hue sat val]; lia.
    + exists c. split; [reflexivity|]. inversion F; assumption.
    + unfold count in S; cbn [length] in S; lia.
  - assert (G : gradient_palette p w) by (unfold gradient_palette, segments; destruct w; repeat split; auto; lia).
    rewrite (gradient_eval fl p pos w G P). cbv zeta. eexists. split; [reflexivity|].
    assert (N : p <> []) by (intros ->; unfold count in S; cbn in S; lia).
    destruct (seglen_range p w G) as (R & _).
    destruct (_ =? 0); [apply colour_wf; assumption|].
    apply mix_wf; try apply colour_wf; auto.
    pose proof (frac_range (pos mod seglen p w) (seglen p w)
                  (Z.mod_pos_bound pos (seglen p w) ltac:(lia))). lia.
Qed.
