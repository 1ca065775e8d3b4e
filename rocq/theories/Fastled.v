(** The part of the FastLED library that /repo calls.

    FastLED is not part of /repo.  It appears as a record of functions; the
    theorems quantify over every record that meets the contract [fl_ok].  The
    contract says only what the documentation of each function promises:
    ranges, that value 0 is black, and for the interpolations that the result lies between the ends,
    moves one way and is neither ahead of nor a whole step behind the exact
    value.  [fl_ref] below is one concrete implementation meeting it (integer
    formulas as in FastLED's lib8tion), used for examples and refutations. *)
From Coq Require Import ZArith Lia List Bool.
From Coq Require Import ZifyBool.
From Verif Require Import CInt CIntFacts Packet.
Import ListNotations.
Open Scope Z_scope.
Ltac Zify.zify_post_hook ::= Z.div_mod_to_equations.

(** struct CHSV of FastLED: three bytes. *)
Record chsv := mkHSV { hue : Z; sat : Z; val : Z }.

Definition wf_hsv (c : chsv) : Prop := is_byte (hue c) /\ is_byte (sat c) /\ is_byte (val c).
Definition wf_rgb (c : rgb) : Prop := is_byte (red c) /\ is_byte (green c) /\ is_byte (blue c).

Record fastled := mkFastled {
  fl_sin16 : Z -> Z;                  (* sin16(uint16_t) *)
  fl_sin8 : Z -> Z;                   (* sin8(uint8_t) *)
  fl_cos8 : Z -> Z;                   (* cos8(uint8_t) *)
  fl_cubicwave8 : Z -> Z;             (* cubicwave8(uint8_t) *)
  fl_lerp16by16 : Z -> Z -> Z -> Z;   (* lerp16by16(uint16_t, uint16_t, fract16) *)
  fl_lerp15by8 : Z -> Z -> Z -> Z;    (* lerp15by8(int16_t, int16_t, fract8) *)
  fl_ease8 : Z -> Z;                  (* ease8InOutApprox(fract8) *)
  fl_random8 : Z -> Z * Z;            (* random8() as a function of the seed: value, new seed *)
  fl_blend : chsv -> chsv -> Z -> chsv; (* blend(CHSV, CHSV, fract8, SHORTEST_HUES) *)
  fl_hsv2rgb : chsv -> rgb            (* hsv2rgb_rainbow, also the conversion CHSV -> CRGB *)
}.

(** x is one of a, b or between them. *)
Definition between (x a b : Z) : Prop := Z.min a b <= x <= Z.max a b.

Record fl_ok (fl : fastled) : Prop := mkFlOk {
  ok_sin16 : forall x, 0 <= x < 65536 -> -32767 <= fl_sin16 fl x <= 32767;
  ok_sin8 : forall x, is_byte x -> is_byte (fl_sin8 fl x);
  ok_cos8 : forall x, is_byte x -> is_byte (fl_cos8 fl x);
  ok_cubicwave8 : forall x, is_byte x -> is_byte (fl_cubicwave8 fl x);
  ok_lerp16_between : forall a b f, 0 <= a < 65536 -> 0 <= b < 65536 -> 0 <= f < 65536 ->
    between (fl_lerp16by16 fl a b f) a b;
  ok_lerp16_mono : forall a b f g, 0 <= a < 65536 -> 0 <= b < 65536 -> 0 <= f <= g -> g < 65536 ->
    Z.abs (fl_lerp16by16 fl a b f - a) <= Z.abs (fl_lerp16by16 fl a b g - a);
  ok_lerp16_not_ahead : forall a b f, 0 <= a < 65536 -> 0 <= b < 65536 -> 0 <= f < 65536 ->
    65536 * Z.abs (fl_lerp16by16 fl a b f - a) <= Z.abs (b - a) * (f + 1);
  ok_lerp16_not_behind : forall a b f, 0 <= a < 65536 -> 0 <= b < 65536 -> 0 <= f < 65536 ->
    Z.abs (b - a) * f < 65536 * (Z.abs (fl_lerp16by16 fl a b f - a) + 1);
  ok_lerp15_between : forall a b f, -32768 <= a < 32768 -> -32768 <= b < 32768 -> is_byte f ->
    Z.abs (b - a) < 32768 -> between (fl_lerp15by8 fl a b f) a b;
  ok_ease8 : forall x, is_byte x -> is_byte (fl_ease8 fl x);
  ok_random8 : forall s, is_byte (fst (fl_random8 fl s));
  ok_blend : forall a b f, wf_hsv a -> wf_hsv b -> is_byte f -> wf_hsv (fl_blend fl a b f);
  ok_hsv2rgb : forall c, wf_hsv c -> wf_rgb (fl_hsv2rgb fl c);
  ok_hsv2rgb_off : forall h s, is_byte h -> is_byte s -> fl_hsv2rgb fl (mkHSV h s 0) = mkRGB 0 0 0
}.

(** qadd8 of FastLED: addition of bytes that stops at 255. *)
Definition qadd8 (a b : Z) : Z := Z.min 255 (a + b).

(** operator/(CRGB, uint8_t) of FastLED with a non-zero divisor. *)
Definition crgb_div (c : rgb) (d : Z) : rgb := mkRGB (red c / d) (green c / d) (blue c / d).

(** ** A concrete implementation (not part of /repo). *)

Definition ref_sin16 (theta : Z) : Z :=
  let base := [0; 6393; 12539; 18204; 23170; 27245; 30273; 32137] in
  let slope := [49; 48; 44; 38; 31; 23; 14; 4] in
  let off := Z.land theta 16383 / 8 in
  let off := if Z.testbit theta 14 then 2047 - off else off in
  let section := Z.to_nat (off / 256) in
  let y := nth section slope 0 * (off mod 256 / 2) + nth section base 0 in
  if Z.testbit theta 15 then - y else y.

Definition ref_sin8 (theta : Z) : Z := u8 (128 + ref_sin16 (u16 (theta * 256)) / 256).
Definition ref_cos8 (theta : Z) : Z := ref_sin8 (u8 (theta + 64)).

Definition ref_scale8 (i s : Z) : Z := i * (1 + s) / 256.
Definition ref_triwave8 (x : Z) : Z := let x := if 128 <=? x then 255 - x else x in u8 (x * 2).
Definition ref_ease8cubic (i : Z) : Z :=
  let ii := ref_scale8 i i in
  let iii := ref_scale8 ii i in
  let r := 3 * ii - 2 * iii in
  if r >? 255 then 255 else u8 r.
Definition ref_cubicwave8 (x : Z) : Z := ref_ease8cubic (ref_triwave8 x).

Definition ref_lerp16by16 (a b f : Z) : Z :=
  if b >? a then a + (b - a) * (1 + f) / 65536 else a - (a - b) * (1 + f) / 65536.
Definition ref_lerp15by8 (a b f : Z) : Z :=
  if b >? a then a + (b - a) * (1 + f) / 256 else a - (a - b) * (1 + f) / 256.

Definition ref_ease8 (i : Z) : Z :=
  if i <? 64 then i / 2
  else if i >? 191 then 255 - (255 - i) / 2
  else (i - 64) + (i - 64) / 2 + 32.

Definition ref_random8 (seed : Z) : Z * Z :=
  let s := u16 (seed * 2053 + 13849) in (u8 (s + s / 256), s).

Definition ref_blend (a b : chsv) (f : Z) : chsv :=
  let mix x y := u8 ((x * (255 - f) + y * f) / 255) in
  let d := u8 (hue b - hue a) in
  let h := if d <? 128 then u8 (hue a + ref_scale8 d f)
           else u8 (hue a - ref_scale8 (256 - d) f) in
  mkHSV h (mix (sat a) (sat b)) (mix (val a) (val b)).

(** A simple hue wheel; the exact spectrum of hsv2rgb_rainbow is irrelevant. *)
Definition ref_hsv2rgb (c : chsv) : rgb :=
  let s8 := ref_scale8 in
  let third := hue c / 86 in
  let off := Z.min 255 ((hue c mod 86) * 3) in
  let pure := if third =? 0 then mkRGB (255 - off) off 0
              else if third =? 1 then mkRGB 0 (255 - off) off
              else mkRGB off 0 (255 - off) in
  let f x := u8 (s8 (s8 x (sat c) + (255 - sat c)) (val c)) in
  mkRGB (f (red pure)) (f (green pure)) (f (blue pure)).

Definition fl_ref : fastled :=
  mkFastled ref_sin16 ref_sin8 ref_cos8 ref_cubicwave8 ref_lerp16by16 ref_lerp15by8
            ref_ease8 ref_random8 ref_blend ref_hsv2rgb.

Lemma ref_sin16_range x : -32767 <= ref_sin16 x <= 32767.
Proof.
  unfold ref_sin16; cbv zeta.
  set (o := Z.land x 16383 / 8).
  assert (0 <= o <= 2047) by (subst o; change 16383 with (Z.ones 14); rewrite Z.land_ones by lia; lia).
  set (o' := if Z.testbit x 14 then 2047 - o else o).
  assert (B : 0 <= o' <= 2047) by (subst o'; destruct (Z.testbit x 14); lia).
  clearbody o'; clear o H.
  assert (R : 0 <= nth (Z.to_nat (o' / 256)) [49; 48; 44; 38; 31; 23; 14; 4] 0 * (o' mod 256 / 2) +
              nth (Z.to_nat (o' / 256)) [0; 6393; 12539; 18204; 23170; 27245; 30273; 32137] 0 <= 32767).
  { assert (C : o' / 256 = 0 \/ o' / 256 = 1 \/ o' / 256 = 2 \/ o' / 256 = 3 \/ o' / 256 = 4 \/
                o' / 256 = 5 \/ o' / 256 = 6 \/ o' / 256 = 7) by lia.
    assert (0 <= o' mod 256 / 2 <= 127) by lia.
    destruct C as [E|[E|[E|[E|[E|[E|[E|E]]]]]]]; rewrite E;
      match goal with |- context [Z.to_nat ?k] => let n := eval vm_compute in (Z.to_nat k) in change (Z.to_nat k) with n end;
      cbn [nth]; lia. }
  destruct (Z.testbit x 15); lia.
Qed.

Lemma ref_hsv2rgb_off h s : is_byte h -> is_byte s -> ref_hsv2rgb (mkHSV h s 0) = mkRGB 0 0 0.
Proof.
  intros [H1 H2] [S1 S2]. unfold ref_hsv2rgb. cbn [hue sat val]. cbv zeta.
  assert (F : forall x, 0 <= x <= 255 -> u8 (ref_scale8 (ref_scale8 x s + (255 - s)) 0) = 0).
  { intros x X. unfold ref_scale8. assert (x * (1 + s) <= 255 * (1 + s)) by nia. assert (0 <= x * (1 + s)) by nia.
    assert (0 <= x * (1 + s) / 256 <= s) by lia.
    replace ((x * (1 + s) / 256 + (255 - s)) * (1 + 0) / 256) with 0 by lia. reflexivity. }
  assert (O : 0 <= Z.min 255 (h mod 86 * 3) <= 255) by lia.
  destruct (h / 86 =? 0); [|destruct (h / 86 =? 1)]; cbn [red green blue]; rewrite !F by lia; reflexivity.
Qed.

Theorem fl_ref_ok : fl_ok fl_ref.
Proof.
  constructor; cbn [fl_ref fl_sin16 fl_sin8 fl_cos8 fl_cubicwave8 fl_lerp16by16 fl_lerp15by8
                    fl_ease8 fl_random8 fl_blend fl_hsv2rgb].
  - intros; apply ref_sin16_range.
  - intros; apply u8_range.
  - intros; apply u8_range.
  - intros x Hx; unfold ref_cubicwave8, ref_ease8cubic; cbv zeta.
    destruct (_ >? _); [unfold is_byte; lia | apply u8_range].
  - intros a b f Ha Hb Hf; unfold ref_lerp16by16, between.
    destruct (b >? a) eqn:E.
    + assert (0 <= (b - a) * (1 + f)) by nia. assert ((b - a) * (1 + f) <= (b - a) * 65536) by nia. lia.
    + assert (0 <= (a - b) * (1 + f)) by nia. assert ((a - b) * (1 + f) <= (a - b) * 65536) by nia. lia.
  - intros a b f g Ha Hb Hf Hg; unfold ref_lerp16by16.
    destruct (b >? a) eqn:E.
    + assert (0 <= (b - a) * (1 + f)) by nia. assert ((b - a) * (1 + f) <= (b - a) * (1 + g)) by nia. lia.
    + assert (0 <= (a - b) * (1 + f)) by nia. assert ((a - b) * (1 + f) <= (a - b) * (1 + g)) by nia. lia.
  - intros a b f Ha Hb Hf; unfold ref_lerp16by16.
    destruct (b >? a) eqn:E.
    + replace (Z.abs (b - a)) with (b - a) by lia. assert (0 <= (b - a) * (1 + f)) by nia. lia.
    + replace (Z.abs (b - a)) with (a - b) by lia. assert (0 <= (a - b) * (1 + f)) by nia. lia.
  - intros a b f Ha Hb Hf; unfold ref_lerp16by16.
    destruct (b >? a) eqn:E.
    + replace (Z.abs (b - a)) with (b - a) by lia. assert (0 <= (b - a) * f) by nia. lia.
    + replace (Z.abs (b - a)) with (a - b) by lia. assert (0 <= (a - b) * f) by nia. lia.
  - intros a b f Ha Hb [Hf Hf'] Hd; unfold ref_lerp15by8, between.
    destruct (b >? a) eqn:E.
    + assert (0 <= (b - a) * (1 + f)) by nia. assert ((b - a) * (1 + f) <= (b - a) * 256) by nia. lia.
    + assert (0 <= (a - b) * (1 + f)) by nia. assert ((a - b) * (1 + f) <= (a - b) * 256) by nia. lia.
  - intros x [H1 H2]; unfold ref_ease8, is_byte.
    destruct (x <? 64) eqn:E1; [lia|]. destruct (x >? 191) eqn:E2; lia.
  - intros; apply u8_range.
  - intros a b f Ha Hb Hf; unfold ref_blend, wf_hsv; cbv zeta; cbn [hue sat val].
    split; [destruct (_ <? _); apply u8_range|]. split; apply u8_range.
  - intros c Hc; unfold ref_hsv2rgb, wf_rgb; cbv zeta; cbn [red green blue].
    split; [apply u8_range|]. split; apply u8_range.
  - intros; apply ref_hsv2rgb_off; assumption.
Qed.
Print Assumptions fl_ref_ok.
