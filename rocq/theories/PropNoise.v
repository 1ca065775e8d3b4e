(** The noise field of the fire, lightning and Rorschach effects: C94. *)
From Coq Require Import ZArith Lia List Bool.
From Coq Require Import ZifyBool.
From Verif Require Import CInt CIntFacts Packet Fastled Maths Palette Device Effects.
Import ListNotations.
Open Scope Z_scope.
Ltac Zify.zify_post_hook ::= Z.div_mod_to_equations.

(** What FastLED's lerp15by8 and ease8InOutApprox compute (lib8tion.h,
    math8.h; not part of /repo).  Nothing is assumed about its random8 but that
    it gives bytes. *)
Record fastled_lerp (fl : fastled) : Prop := mkLerp {
  lerp15_is : forall a b f, Z.abs (b - a) < 32768 -> is_byte f ->
    fl_lerp15by8 fl a b f = a + Z.quot ((b - a) * (f + 1)) 256;
  ease8_is : forall i, is_byte i -> fl_ease8 fl i =
    if i <? 64 then i / 2 else if i <? 192 then i - 64 + (i - 64) / 2 + 32 else 255 - (255 - i) / 2
}.

(** Linear interpolation in steps of 1/256. *)
Definition mix (a b w : Z) : Z := a + Z.quot ((b - a) * w) 256.

Lemma mix_spec a b w : 0 <= w <= 256 ->
  exists r, 256 * (mix a b w - a) + r = (b - a) * w /\ -256 < r < 256 /\ (a <= b -> 0 <= r) /\ (b <= a -> r <= 0).
Proof.
  intros W. exists (Z.rem ((b - a) * w) 256). unfold mix.
  pose proof (Z.quot_rem' ((b - a) * w) 256). pose proof (Z.rem_bound_abs ((b - a) * w) 256 ltac:(lia)).
  split; [lia|]. split; [lia|]. split; intros L.
  - apply Z.rem_nonneg; [lia|nia].
  - apply Z.rem_nonpos; [lia|nia].
Qed.

(** It moves by at most as much as its ends. *)
Lemma mix_up a b a' b' w : 0 <= w <= 256 -> a <= a' -> b <= b' -> mix a b w <= mix a' b' w.
Proof.
  intros W A B. destruct (mix_spec a b w W) as (r & E & R1 & R2 & R3).
  destruct (mix_spec a' b' w W) as (r' & E' & R1' & R2' & R3').
  destruct (Z_le_gt_dec a b), (Z_le_gt_dec a' b'); try specialize (R2 ltac:(lia)); try specialize (R3 ltac:(lia));
  try specialize (R2' ltac:(lia)); try specialize (R3' ltac:(lia)); nia.
Qed.
Lemma mix_shift a b w d : mix (a + d) (b + d) w = mix a b w + d.
Proof. unfold mix. replace (b + d - (a + d)) with (b - a) by lia. lia. Qed.
Lemma mix_near a b a' b' w d : 0 <= w <= 256 -> Z.abs (a' - a) <= d -> Z.abs (b' - b) <= d ->
  Z.abs (mix a' b' w - mix a b w) <= d.
Proof.
  intros W A B. pose proof (mix_up (a - d) (b - d) a' b' w W ltac:(lia) ltac:(lia)).
  pose proof (mix_up a' b' (a + d) (b + d) w W ltac:(lia) ltac:(lia)).
  pose proof (mix_shift a b w d). pose proof (mix_shift a b w (-d)). 
  replace (a + - d) with (a - d) in * by lia. replace (b + - d) with (b - d) in * by lia. lia.
Qed.
Lemma mix_weight a b w w' : 0 <= w <= 256 -> 0 <= w' <= 256 -> Z.abs (w' - w) <= 2 -> Z.abs (b - a) <= 383 ->
  Z.abs (mix a b w' - mix a b w) <= 3.
Proof.
  intros W W' D B. destruct (mix_spec a b w W) as (r & E & R1 & R2 & R3).
  destruct (mix_spec a b w' W') as (r' & E' & R1' & R2' & R3').
  assert (-766 <= (b - a) * (w' - w) <= 766) by nia.
  destruct (Z_le_gt_dec a b); try specialize (R2 ltac:(lia)); try specialize (R3 ltac:(lia));
  try specialize (R2' ltac:(lia)); try specialize (R3' ltac:(lia)); nia.
Qed.
Lemma mix_end a b : mix a b 256 = b.
Proof. unfold mix. rewrite Z.quot_mul by lia. lia. Qed.
Lemma mix_start a b : Z.abs (b - a) <= 383 -> Z.abs (mix a b 1 - a) <= 1.
Proof. intros. destruct (mix_spec a b 1 ltac:(lia)) as (r & E & R1 & R2 & R3).
  destruct (Z_le_gt_dec a b); try specialize (R2 ltac:(lia)); try specialize (R3 ltac:(lia)); lia.
Qed.
Lemma mix_between a b w : 0 <= w <= 256 -> between (mix a b w) a b.
Proof. intros W. destruct (mix_spec a b w W) as (r & E & R1 & R2 & R3). unfold between.
  destruct (Z_le_gt_dec a b); try specialize (R2 ltac:(lia)); try specialize (R3 ltac:(lia)); nia.
Qed.

Definition grad (v : Z * Z) : Prop := -128 <= fst v <= 127 /\ -128 <= snd v <= 127.

(** The dot product of the code. *)
Definition dot (u v : Z) (c : Z * Z) : Z := (u * fst c + v * snd c) / 256.

Lemma floor_close m n k : 0 <= k -> -256 * k <= m - n <= 256 * k -> Z.abs (m / 256 - n / 256) <= k.
Proof. lia. Qed.

Lemma dot_step u v u' v' c : grad c -> Z.abs (u' - u) <= 1 -> Z.abs (v' - v) <= 1 -> Z.abs (dot u' v' c - dot u v c) <= 1.
Proof.
  intros [C1 C2] U V. unfold dot. apply floor_close; [lia|].
  assert (-128 <= (u' - u) * fst c <= 128) by nia. assert (-128 <= (v' - v) * snd c <= 128) by nia. lia.
Qed.
Lemma dot_apart_x u v c c' : grad c -> grad c' -> 0 <= u <= 256 -> -256 <= v <= 256 ->
  Z.abs (dot (u - 256) v c' - dot u v c) <= 383.
Proof.
  intros [C1 C2] [D1 D2] U V. unfold dot. apply floor_close; [lia|].
  assert (-128 * 256 <= (u - 256) * fst c' - u * fst c <= 128 * 256) by nia.
  assert (-255 <= snd c' - snd c <= 255) by lia.
  assert (-(256 * 255) <= v * (snd c' - snd c) <= 256 * 255) by nia. lia.
Qed.
Lemma dot_apart_y u v c c' : grad c -> grad c' -> -256 <= u <= 256 -> 0 <= v <= 256 ->
  Z.abs (dot u (v - 256) c' - dot u v c) <= 383.
Proof.
  intros [C1 C2] [D1 D2] U V. unfold dot. apply floor_close; [lia|].
  assert (-128 * 256 <= (v - 256) * snd c' - v * snd c <= 128 * 256) by nia.
  assert (-255 <= fst c' - fst c <= 255) by lia.
  assert (-(256 * 255) <= u * (fst c' - fst c) <= 256 * 255) by nia. lia.
Qed.
Lemma dot_range u v c : grad c -> -256 <= u <= 256 -> -256 <= v <= 256 -> -256 <= dot u v c <= 256.
Proof.
  intros [C1 C2] U V. unfold dot.
  assert (-32768 <= u * fst c <= 32768) by nia. assert (-32768 <= v * snd c <= 32768) by nia. lia.
Qed.

(** The weight of the far corner, for a position within a tile. *)
Definition weight (f : Z) : Z :=
  1 + if f <? 64 then f / 2 else if f <? 192 then f - 64 + (f - 64) / 2 + 32 else 255 - (255 - f) / 2.

Lemma weight_range f : 0 <= f < 256 -> 1 <= weight f <= 256.
Proof. intros F. unfold weight. destruct (f <? 64) eqn:A; [lia|]. destruct (f <? 192) eqn:B; lia. Qed.
Lemma weight_step f : 0 <= f < 255 -> 0 <= weight (f + 1) - weight f <= 2.
Proof.
  intros F. unfold weight. destruct (f <? 64) eqn:A, (f <? 192) eqn:B, (f + 1 <? 64) eqn:A', (f + 1 <? 192) eqn:B'; lia.
Qed.

Section Field.
Variable G : Z -> Z -> Z * Z.
Hypothesis Gok : forall i j, grad (G i j).

(** One row of corners (j), at column x and vertical distance v from the row. *)
Definition row (j x v : Z) : Z :=
  mix (dot (x mod 256) v (G (x / 256) j)) (dot (x mod 256 - 256) v (G (x / 256 + 1) j)) (weight (x mod 256)).
(** Two rows. *)
Definition field (x y : Z) : Z :=
  mix (row (y / 256) x (y mod 256)) (row (y / 256 + 1) x (y mod 256 - 256)) (weight (y mod 256)).

Lemma row_step_v j x v v' : Z.abs (v' - v) <= 1 -> Z.abs (row j x v' - row j x v) <= 1.
Proof.
  intros V. unfold row. pose proof (weight_range (x mod 256) ltac:(lia)).
  apply mix_near; [lia| |]; apply dot_step; auto; lia.
Qed.

Lemma row_step j x v v' : Z.abs (v' - v) <= 1 -> -256 <= v <= 256 -> -256 <= v' <= 256 ->
  Z.abs (row j (x + 1) v' - row j x v) <= 4.
Proof.
  intros V V1 V2. unfold row. pose proof (weight_range (x mod 256) ltac:(lia)).
  assert (C : x mod 256 < 255 \/ x mod 256 = 255) by lia. destruct C as [C|C].
  - replace ((x + 1) mod 256) with (x mod 256 + 1) by lia. replace ((x + 1) / 256) with (x / 256) by lia.
    pose proof (weight_range (x mod 256 + 1) ltac:(lia)). pose proof (weight_step (x mod 256) ltac:(lia)).
    set (f := x mod 256) in *. set (i := x / 256) in *.
    assert (A : Z.abs (mix (dot (f + 1) v' (G i j)) (dot (f + 1 - 256) v' (G (i + 1) j)) (weight (f + 1)) -
                       mix (dot f v (G i j)) (dot (f - 256) v (G (i + 1) j)) (weight (f + 1))) <= 1).
    { apply mix_near; [lia| |]; apply dot_step; auto; lia. }
    assert (B : Z.abs (mix (dot f v (G i j)) (dot (f - 256) v (G (i + 1) j)) (weight (f + 1)) -
                       mix (dot f v (G i j)) (dot (f - 256) v (G (i + 1) j)) (weight f)) <= 3).
    { apply mix_weight; try lia. apply dot_apart_x; auto; lia. }
    lia.
  - replace ((x + 1) mod 256) with 0 by lia. replace ((x + 1) / 256) with (x / 256 + 1) by lia. rewrite C.
    change (weight 255) with 256. change (weight 0) with 1. rewrite mix_end.
    pose proof (mix_start (dot 0 v' (G (x / 256 + 1) j)) (dot (0 - 256) v' (G (x / 256 + 1 + 1) j))
                  ltac:(apply dot_apart_x; auto; lia)).
    pose proof (dot_step (255 - 256) v 0 v' (G (x / 256 + 1) j) ltac:(auto) ltac:(lia) V). lia.
Qed.

Lemma row_apart j x v : 0 <= v <= 256 -> Z.abs (row (j + 1) x (v - 256) - row j x v) <= 383.
Proof.
  intros V. unfold row. pose proof (weight_range (x mod 256) ltac:(lia)).
  apply mix_near; [lia| |]; apply dot_apart_y; auto; lia.
Qed.

Lemma field_step_x x y : Z.abs (field (x + 1) y - field x y) <= 4.
Proof.
  unfold field. pose proof (weight_range (y mod 256) ltac:(lia)).
  apply mix_near; [lia| |]; apply row_step; lia.
Qed.

Lemma field_step_y x x' y d : (forall j v v', Z.abs (v' - v) <= 1 -> -256 <= v <= 256 -> -256 <= v' <= 256 ->
    Z.abs (row j x' v' - row j x v) <= d) ->
  Z.abs (field x' (y + 1) - field x y) <= d + 3.
Proof.
  intros R. unfold field. pose proof (weight_range (y mod 256) ltac:(lia)).
  assert (C : y mod 256 < 255 \/ y mod 256 = 255) by lia. destruct C as [C|C].
  - replace ((y + 1) mod 256) with (y mod 256 + 1) by lia. replace ((y + 1) / 256) with (y / 256) by lia.
    pose proof (weight_range (y mod 256 + 1) ltac:(lia)). pose proof (weight_step (y mod 256) ltac:(lia)).
    set (f := y mod 256) in *. set (j := y / 256) in *.
    assert (A : Z.abs (mix (row j x' (f + 1)) (row (j + 1) x' (f + 1 - 256)) (weight (f + 1)) -
                       mix (row j x f) (row (j + 1) x (f - 256)) (weight (f + 1))) <= d).
    { apply mix_near; [lia| |]; apply R; lia. }
    assert (B : Z.abs (mix (row j x f) (row (j + 1) x (f - 256)) (weight (f + 1)) -
                       mix (row j x f) (row (j + 1) x (f - 256)) (weight f)) <= 3).
    { apply mix_weight; try lia. apply row_apart; lia. }
    lia.
  - replace ((y + 1) mod 256) with 0 by lia. replace ((y + 1) / 256) with (y / 256 + 1) by lia. rewrite C.
    change (weight 255) with 256. change (weight 0) with 1. rewrite mix_end.
    pose proof (mix_start (row (y / 256 + 1) x' 0) (row (y / 256 + 1 + 1) x' (0 - 256)) ltac:(apply row_apart; lia)).
    pose proof (R (y / 256 + 1) (255 - 256) 0 ltac:(lia) ltac:(lia) ltac:(lia)). lia.
Qed.
End Field.

(** ** The noise functions of the code *)

Lemma i16_id z : -32768 <= z < 32768 -> i16 z = z.
Proof. intros; unfold i16; cbv zeta; destruct (_ <? _) eqn:E; lia. Qed.

Lemma tileHash_is i j : tileHash i j = (i + j * 7919) mod 65536.
Proof. unfold tileHash, u16, u32. lia. Qed.

Lemma corner_grad fl i j : grad (corner fl i j).
Proof. unfold corner, grad; cbn [fst snd]. pose proof (i8_range (fst (fl_random8 fl (tileHash i j)))).
  pose proof (i8_range (fst (fl_random8 fl (snd (fl_random8 fl (tileHash i j)))))). lia. Qed.

Lemma corner_hash fl i j i' j' : (i + j * 7919) mod 65536 = (i' + j' * 7919) mod 65536 -> corner fl i j = corner fl i' j'.
Proof. intros E. unfold corner. rewrite !tileHash_is, E. reflexivity. Qed.

Definition clamp (v : Z) : Z := if 256 <=? v then 255 else if v <? 0 then 0 else v.

Lemma noise_is fl x y : fastled_lerp fl -> 0 <= x < 4294967296 -> 0 <= y < 4294967296 ->
  perlinNoise fl x y = clamp (4 * field (corner fl) x y + 128) /\ -256 <= field (corner fl) x y <= 256.
Proof.
  intros [HL HE] X Y.
  assert (FX : u16 (u32 (x - u32 (Z.shiftl (Z.shiftr x 8) 8))) = x mod 256)
    by (rewrite Z.shiftl_mul_pow2, Z.shiftr_div_pow2 by lia; unfold u16, u32; lia).
  assert (FY : u16 (u32 (y - u32 (Z.shiftl (Z.shiftr y 8) 8))) = y mod 256)
    by (rewrite Z.shiftl_mul_pow2, Z.shiftr_div_pow2 by lia; unfold u16, u32; lia).
  unfold perlinNoise; cbv zeta. rewrite FX, FY.
  rewrite !Z.shiftr_div_pow2 by lia. change (2 ^ 8) with 256.
  rewrite (u32_id (x / 256 + 1)) by lia. rewrite (u32_id (y / 256 + 1)) by lia.
  replace (-256 + x mod 256) with (x mod 256 - 256) by lia. replace (-256 + y mod 256) with (y mod 256 - 256) by lia.
  fold (dot (x mod 256) (y mod 256) (corner fl (x / 256) (y / 256))).
  fold (dot (x mod 256) (y mod 256 - 256) (corner fl (x / 256) (y / 256 + 1))).
  fold (dot (x mod 256 - 256) (y mod 256) (corner fl (x / 256 + 1) (y / 256))).
  fold (dot (x mod 256 - 256) (y mod 256 - 256) (corner fl (x / 256 + 1) (y / 256 + 1))).
  assert (R : forall u v i j, -256 <= u <= 256 -> -256 <= v <= 256 -> -256 <= dot u v (corner fl i j) <= 256)
    by (intros; apply dot_range; auto using corner_grad).
  pose proof (R (x mod 256) (y mod 256) (x / 256) (y / 256) ltac:(lia) ltac:(lia)) as R1.
  pose proof (R (x mod 256) (y mod 256 - 256) (x / 256) (y / 256 + 1) ltac:(lia) ltac:(lia)) as R2.
  pose proof (R (x mod 256 - 256) (y mod 256) (x / 256 + 1) (y / 256) ltac:(lia) ltac:(lia)) as R3.
  pose proof (R (x mod 256 - 256) (y mod 256 - 256) (x / 256 + 1) (y / 256 + 1) ltac:(lia) ltac:(lia)) as R4.
  rewrite !(i16_id (dot _ _ _)) by lia.
  rewrite !(u8_id (_ mod 256)) by lia.
  rewrite !HE by (unfold is_byte; lia).
  assert (W : forall a b f, is_byte f -> -256 <= a <= 256 -> -256 <= b <= 256 ->
     fl_lerp15by8 fl a b (if f <? 64 then f / 2 else if f <? 192 then f - 64 + (f - 64) / 2 + 32 else 255 - (255 - f) / 2)
      = mix a b (weight f) /\ -256 <= mix a b (weight f) <= 256).
  { intros a b f F A B. pose proof (weight_range f F) as Wr. split.
    - rewrite HL; [unfold mix, weight; f_equal; f_equal; f_equal; lia|lia|]. unfold weight in Wr. unfold is_byte. lia.
    - pose proof (mix_between a b (weight f) ltac:(lia)) as Bt. unfold between in Bt. lia. }
  destruct (W _ _ (x mod 256) ltac:(unfold is_byte; lia) R1 R3) as [-> W1].
  destruct (W _ _ (x mod 256) ltac:(unfold is_byte; lia) R2 R4) as [-> W2].
  rewrite !(i16_id (mix _ _ _)) by lia.
  destruct (W _ _ (y mod 256) ltac:(unfold is_byte; lia) W1 W2) as [-> W3].
  rewrite (i16_id (mix _ _ _)) by lia.
  fold (row (corner fl) (y / 256) x (y mod 256)) in *. fold (row (corner fl) (y / 256 + 1) x (y mod 256 - 256)) in *.
  fold (field (corner fl) x y) in *. split; [|exact W3].
  rewrite (i16_id (_ * 4)) by lia. rewrite i16_id by lia. rewrite (Z.mul_comm _ 4).
  fold (clamp (4 * field (corner fl) x y + 128)).
  apply u8_id. unfold clamp. destruct (256 <=? _) eqn:E1; [lia|]. destruct (_ <? 0) eqn:E2; lia.
Qed.

(** The field repeats. *)
Lemma field_hash fl x y x' y' : x mod 256 = x' mod 256 -> y mod 256 = y' mod 256 ->
  (x / 256 + y / 256 * 7919) mod 65536 = (x' / 256 + y' / 256 * 7919) mod 65536 ->
  field (corner fl) x y = field (corner fl) x' y'.
Proof.
  intros X Y E. unfold field, row. rewrite X, Y.
  assert (P : forall k, (x / 256 + y / 256 * 7919 + k) mod 65536 = (x' / 256 + y' / 256 * 7919 + k) mod 65536).
  { intros k. rewrite <- (Zplus_mod_idemp_l (x / 256 + _)), E, Zplus_mod_idemp_l. reflexivity. }
  assert (Q : forall a b, corner fl (x / 256 + a) (y / 256 + b) = corner fl (x' / 256 + a) (y' / 256 + b)).
  { intros a b. apply corner_hash. specialize (P (a + b * 7919)).
    replace (x / 256 + a + (y / 256 + b) * 7919) with (x / 256 + y / 256 * 7919 + (a + b * 7919)) by lia.
    replace (x' / 256 + a + (y' / 256 + b) * 7919) with (x' / 256 + y' / 256 * 7919 + (a + b * 7919)) by lia. exact P. }
  pose proof (Q 0 0) as Q0. pose proof (Q 1 0) as Q1. pose proof (Q 0 1) as Q2. repeat rewrite Z.add_0_r in Q0. repeat rewrite Z.add_0_r in Q1. repeat rewrite Z.add_0_r in Q2.
  rewrite Q0, Q1, Q2, (Q 1 1). reflexivity.
Qed.

Lemma noise_wrapped fl x y : fastled_lerp fl ->
  perlinNoise fl (u32 x) (u32 y) = clamp (4 * field (corner fl) x y + 128).
Proof.
  intros H. destruct (noise_is fl (u32 x) (u32 y) H (u32_range _) (u32_range _)) as [-> _].
  do 2 f_equal. f_equal. apply field_hash; unfold u32; lia.
Qed.

(** Neighbouring points of the noise differ by at most 16 in each direction, and
    by at most 28 diagonally; everywhere, also at the edges of tiles and where
    the coordinates wrap. *)
Theorem C94_noise_has_no_jumps fl x y : fastled_lerp fl ->
  0 <= x < 4294967296 -> 0 <= y < 4294967296 ->
  Z.abs (perlinNoise fl (u32 (x + 1)) y - perlinNoise fl x y) <= 16 /\
  Z.abs (perlinNoise fl x (u32 (y + 1)) - perlinNoise fl x y) <= 16 /\
  Z.abs (perlinNoise fl (u32 (x + 1)) (u32 (y + 1)) - perlinNoise fl x y) <= 28.
Proof.
  intros H X Y.
  pose proof (noise_wrapped fl x y H) as N. pose proof (noise_wrapped fl (x + 1) y H) as N1.
  pose proof (noise_wrapped fl x (y + 1) H) as N2. pose proof (noise_wrapped fl (x + 1) (y + 1) H) as N3.
  rewrite (u32_id x X) in N, N2. rewrite (u32_id y Y) in N, N1. rewrite N, N1, N2, N3. clear N N1 N2 N3.
  pose proof (field_step_x (corner fl) (corner_grad fl) x y) as S1.
  pose proof (field_step_y (corner fl) (corner_grad fl) x x y 1
    ltac:(intros; apply row_step_v; auto using corner_grad)) as S2.
  pose proof (field_step_y (corner fl) (corner_grad fl) x (x + 1) y 4
    ltac:(intros; apply row_step; auto using corner_grad)) as S3.
  assert (C : forall a b d, Z.abs (a - b) <= d -> Z.abs (clamp (4 * a + 128) - clamp (4 * b + 128)) <= 4 * d).
  { intros a b d D. unfold clamp. destruct (256 <=? 4 * a + 128) eqn:E1, (256 <=? 4 * b + 128) eqn:E2,
      (4 * a + 128 <? 0) eqn:E3, (4 * b + 128 <? 0) eqn:E4; lia. }
  apply C in S1. apply C in S2. apply C in S3. repeat split; lia.
Qed.
Print Assumptions C94_noise_has_no_jumps.

(** Further apart: at most 16 for each unit of distance. *)
Theorem C94_noise_is_gradual fl x y (a b : nat) : fastled_lerp fl ->
  0 <= x < 4294967296 -> 0 <= y < 4294967296 ->
  Z.abs (perlinNoise fl (u32 (x + Z.of_nat a)) (u32 (y + Z.of_nat b)) - perlinNoise fl x y) <= 16 * Z.of_nat (a + b).
Proof.
  intros H X Y.
  assert (P : Z.abs (perlinNoise fl (u32 (x + Z.of_nat a)) y - perlinNoise fl x y) <= 16 * Z.of_nat a).
  { clear b. induction a as [|a IH].
    - rewrite (u32_id (x + Z.of_nat 0)) by lia. replace (x + Z.of_nat 0) with x by lia. lia.
    - destruct (C94_noise_has_no_jumps fl (u32 (x + Z.of_nat a)) y H (u32_range _) Y) as (St & _).
      replace (u32 (u32 (x + Z.of_nat a) + 1)) with (u32 (x + Z.of_nat (S a))) in St
        by (unfold u32; rewrite Zplus_mod_idemp_l; f_equal; lia). lia. }
  set (x' := u32 (x + Z.of_nat a)) in *. assert (X' : 0 <= x' < 4294967296) by apply u32_range. clearbody x'.
  assert (Q : Z.abs (perlinNoise fl x' (u32 (y + Z.of_nat b)) - perlinNoise fl x' y) <= 16 * Z.of_nat b).
  { clear P. induction b as [|b IH].
    - rewrite (u32_id (y + Z.of_nat 0)) by lia. replace (y + Z.of_nat 0) with y by lia. lia.
    - destruct (C94_noise_has_no_jumps fl x' (u32 (y + Z.of_nat b)) H X' (u32_range _)) as (_ & St & _).
      replace (u32 (u32 (y + Z.of_nat b) + 1)) with (u32 (y + Z.of_nat (S b))) in St
        by (unfold u32; rewrite Zplus_mod_idemp_l; f_equal; lia). lia. }
  lia.
Qed.
Print Assumptions C94_noise_is_gradual.

(** The noise repeats every 2^24 units in either direction, and one tile down is
    the same as 7919 tiles to the right. *)
Theorem C94_noise_repeats fl x y : fastled_lerp fl ->
  0 <= x < 4294967296 -> 0 <= y < 4294967296 ->
  perlinNoise fl (u32 (x + 16777216)) y = perlinNoise fl x y /\
  perlinNoise fl x (u32 (y + 16777216)) = perlinNoise fl x y /\
  perlinNoise fl x (u32 (y + 256)) = perlinNoise fl (u32 (x + 7919 * 256)) y.
Proof.
  intros H X Y.
  pose proof (noise_wrapped fl x y H) as N. pose proof (noise_wrapped fl (x + 16777216) y H) as N1.
  pose proof (noise_wrapped fl x (y + 16777216) H) as N2. pose proof (noise_wrapped fl (x + 7919 * 256) y H) as N3.
  pose proof (noise_wrapped fl x (y + 256) H) as N4.
  rewrite (u32_id x X) in N, N2, N4. rewrite (u32_id y Y) in N, N1, N3. rewrite N, N1, N2, N3, N4.
  split; [|split]; (do 2 f_equal; f_equal; apply field_hash; [lia|lia|]).
  - replace ((x + 16777216) / 256) with (x / 256 + 1 * 65536) by lia.
    replace (x / 256 + 1 * 65536 + y / 256 * 7919) with (x / 256 + y / 256 * 7919 + 1 * 65536) by lia. apply Z_mod_plus_full.
  - replace ((y + 16777216) / 256) with (y / 256 + 65536) by lia.
    replace (x / 256 + (y / 256 + 65536) * 7919) with (x / 256 + y / 256 * 7919 + 7919 * 65536) by lia. apply Z_mod_plus_full.
  - replace ((y + 256) / 256) with (y / 256 + 1) by lia. replace ((x + 7919 * 256) / 256) with (x / 256 + 7919) by lia. f_equal. lia.
Qed.
Print Assumptions C94_noise_repeats.

Lemma ref_lerp : fastled_lerp fl_ref.
Proof.
  constructor; cbn [fl_ref fl_lerp15by8 fl_ease8].
  - intros a b f D [F1 F2]. unfold ref_lerp15by8. destruct (b >? a) eqn:E.
    + rewrite Z.quot_div_nonneg by nia. do 2 f_equal. lia.
    + replace ((b - a) * (f + 1)) with (- ((a - b) * (1 + f))) by lia. rewrite Z.quot_opp_l by lia.
      rewrite Z.quot_div_nonneg by nia. lia.
  - intros i [I1 I2]. unfold ref_ease8. destruct (i <? 64) eqn:A; [reflexivity|].
    destruct (i <? 192) eqn:B, (i >? 191) eqn:C; lia.
Qed.

(** The tolerance of 8 in PerlinTest.cpp line 5 does not hold everywhere (test
    shouldProduceContiguousNoise, lines 7-16), so that test fails for some random
    numbers. *)
Theorem C94_tolerance_of_the_test_refuted : exists x y,
  0 <= x < 4294967295 /\ 0 <= y < 4294967295 /\
  Z.abs (perlinNoise fl_ref (x + 1) (y + 1) - perlinNoise fl_ref x y) = 12.
Proof. exists 489, 253. split; [lia|]. split; [lia|]. vm_compute. reflexivity. Qed.
Print Assumptions C94_tolerance_of_the_test_refuted.

(** ** Effects drawn from the noise *)

Lemma noise_step fl x y x' y' : fastled_lerp fl ->
  0 <= x < 4294967296 -> 0 <= y < 4294967296 -> 0 <= x' < 4294967296 -> 0 <= y' < 4294967296 ->
  forall dx dy k l, 0 <= dx <= 1 -> 0 <= dy <= 1 -> x' = x + dx + 16777216 * k -> y' = y + dy + 16777216 * l ->
  Z.abs (perlinNoise fl x' y' - perlinNoise fl x y) <= 28 /\
  (dx = 0 \/ dy = 0 -> Z.abs (perlinNoise fl x' y' - perlinNoise fl x y) <= 16).
Proof.
  intros H X Y X' Y' dx dy k l Dx Dy Ex Ey.
  assert (E : perlinNoise fl x' y' = perlinNoise fl (u32 (x + dx)) (u32 (y + dy))).
  { rewrite noise_wrapped by exact H. destruct (noise_is fl x' y' H X' Y') as [-> _].
    do 2 f_equal. f_equal. subst x' y'. apply field_hash; [lia|lia|].
    replace ((x + dx + 16777216 * k) / 256) with ((x + dx) / 256 + k * 65536) by lia.
    replace ((y + dy + 16777216 * l) / 256) with ((y + dy) / 256 + l * 65536) by lia.
    replace ((x + dx) / 256 + k * 65536 + ((y + dy) / 256 + l * 65536) * 7919)
      with ((x + dx) / 256 + (y + dy) / 256 * 7919 + (k + l * 7919) * 65536) by lia.
    apply Z_mod_plus_full. }
  rewrite E. clear E Ex Ey k l.
  destruct (C94_noise_has_no_jumps fl x y H X Y) as (A & B & C).
  assert (dx = 0 \/ dx = 1) as [->| ->] by lia; assert (dy = 0 \/ dy = 1) as [->| ->] by lia;
    rewrite ?Z.add_0_r, ?(u32_id x X), ?(u32_id y Y); split; intros; lia.
Qed.

Lemma noise_byte fl x y : fastled_lerp fl -> 0 <= x < 4294967296 -> 0 <= y < 4294967296 -> is_byte (perlinNoise fl x y).
Proof. intros. unfold perlinNoise; cbv zeta. apply u8_range. Qed.

(** The four colours of the fire, from ember to flame; position 0..255 along it. *)
Definition flame : palette := [mkHSV 0 255 8; mkHSV 23 249 45; mkHSV 30 246 113; mkHSV 35 200 192].
Definition flame_at (fl : fastled) (pos : Z) (c : rgb) : Prop :=
  exists color, GetGradient fl flame (256 * pos) false = Ok color /\ c = fl_hsv2rgb fl color.

(** From one millisecond to the next the colour of an LED in the fire effect
    moves by at most 16/256 of the way from ember to flame, for ever: also when
    the clock wraps. *)
Theorem C94_fire_flickers_gradually fl offset led t s c c' :
  fastled_lerp fl -> wf_strip s -> 0 <= led < led_count s -> 0 <= offset < 65536 -> 0 <= t < 4294967296 ->
  Fire_GetRGB fl offset led t s = Ok c -> Fire_GetRGB fl offset led (u32 (t + 1)) s = Ok c' ->
  exists pos pos', is_byte pos /\ is_byte pos' /\ flame_at fl pos c /\ flame_at fl pos' c' /\ Z.abs (pos' - pos) <= 16.
Proof.
  intros H [S1 S2] L O T. unfold Fire_GetRGB. cbv zeta.
  set (side := if FlagEnabled s Mirrored && (led_count s / 2 <? led) then 6789 else 0).
  assert (Sd : 0 <= side <= 6789) by (subst side; destruct (_ && _); lia). clearbody side.
  destruct (maybe_mirror s led) as [[i n]| |] eqn:M; cbn [obind]; try discriminate.
  assert (I : 0 <= i < 256).
  { unfold maybe_mirror in M. destruct (FlagEnabled s Mirrored).
    - unfold MirrorIndex, umod in M. destruct (led_count s =? 0) eqn:Z0; [discriminate M|]. cbn [obind] in M. cbv zeta in M.
      rewrite Z.mod_small in M by lia. inversion M as [[Ei En]].
      match goal with |- 0 <= (if ?b then u8 ?z else _) < 256 => pose proof (u8_range z); destruct b; lia end.
    - inversion M; subst; lia. }
  set (a := u32 (t + offset)). set (b := u32 (u32 (t + 1) + offset)).
  assert (A : 0 <= a < 4294967296) by apply u32_range.
  assert (B : b = u32 (a + 1)) by (subst a b; unfold u32; lia).
  clearbody a b. subst b.
  assert (B : 0 <= u32 (a + 1) < 4294967296) by apply u32_range.
  assert (B8 : exists d k, 0 <= d <= 1 /\ u32 (a + 1) / 8 = a / 8 + d + 16777216 * k).
  { destruct (Z.eq_dec a 4294967295) as [->|N].
    - exists 1, (-32). split; [lia|reflexivity].
    - rewrite (u32_id (a + 1)) by lia. exists ((a + 1) / 8 - a / 8), 0. lia. }
  assert (B2 : exists d k, 0 <= d <= 1 /\ u32 (u32 (a + 1) / 2 + 1234567) = u32 (a / 2 + 1234567) + d + 16777216 * k).
  { destruct (Z.eq_dec a 4294967295) as [->|N].
    - exists 1, (-128). split; [lia|reflexivity].
    - rewrite (u32_id (a + 1)) by lia. rewrite !u32_id by lia. exists ((a + 1) / 2 - a / 2), 0. lia. }
  destruct B8 as (d8 & k8 & D8 & B8). destruct B2 as (d2 & k2 & D2 & B2).
  (* the two octaves move by at most 16 each *)
  assert (Sum : forall p q p' q', is_byte p -> is_byte q -> is_byte p' -> is_byte q' ->
     Z.abs (p' - p) <= 16 -> Z.abs (q' - q) <= 16 ->
     Z.abs ((p' / 4 * 3 + q' / 4 * 1) - (p / 4 * 3 + q / 4 * 1)) <= 16 /\
     is_byte (p / 4 * 3 + q / 4 * 1) /\ is_byte (p' / 4 * 3 + q' / 4 * 1)) by (unfold is_byte; intros; lia).
  assert (Fin : forall v v', is_byte v -> is_byte v' -> Z.abs (v' - v) <= 16 ->
     (color <- GetGradient fl fire_palette (u16 (Z.shiftl (u8 v) 8)) false;; rgb_of fl color) = Ok c ->
     (color <- GetGradient fl fire_palette (u16 (Z.shiftl (u8 v') 8)) false;; rgb_of fl color) = Ok c' ->
     exists pos pos', is_byte pos /\ is_byte pos' /\ flame_at fl pos c /\ flame_at fl pos' c' /\ Z.abs (pos' - pos) <= 16).
  { intros v v' V V' D E E'. exists v, v'. split; [exact V|]. split; [exact V'|].
    assert (P : forall u w, is_byte u -> (color <- GetGradient fl fire_palette (u16 (Z.shiftl (u8 u) 8)) false;; rgb_of fl color) = Ok w -> flame_at fl u w).
    { intros u w [U1 U2] K. rewrite (u8_id u) in K by lia. rewrite Z.shiftl_mul_pow2 in K by lia. rewrite u16_id in K by lia.
      change (2 ^ 8) with 256 in K. rewrite Z.mul_comm in K. change fire_palette with flame in K. unfold flame_at.
      destruct (GetGradient fl flame (256 * u) false) as [col| |]; cbn [obind] in K; try discriminate.
      exists col. split; [reflexivity|]. unfold rgb_of in K. inversion K; reflexivity. }
    split; [apply P; auto|]. split; [apply P; auto|exact D]. }
  destruct (FlagEnabled s Circular).
  - destruct (GetPosOnCircle n i) as [[angle radius]| |]; cbn [obind]; try discriminate.
    unfold perlinNoisePolar.
    set (xo := Z.quot ((fl_cos8 fl angle - 128) * radius) 128). set (yo := Z.quot ((fl_sin8 fl angle - 128) * radius) 127).
    clearbody xo yo.
    assert (X1 : exists k, u32 (u32 (a + 1) / 8 + xo) = u32 (a / 8 + xo) + d8 + 16777216 * k).
    { rewrite B8. exists (k8 + ((a / 8 + xo) / 4294967296 - (a / 8 + d8 + 16777216 * k8 + xo) / 4294967296) * 256). unfold u32. lia. }
    assert (X2 : exists k, u32 (u32 (u32 (a + 1) / 2 + 1234567) + xo) = u32 (u32 (a / 2 + 1234567) + xo) + d2 + 16777216 * k).
    { rewrite B2. set (g := u32 (a / 2 + 1234567)). exists (k2 + ((g + xo) / 4294967296 - (g + d2 + 16777216 * k2 + xo) / 4294967296) * 256). unfold u32. lia. }
    destruct X1 as (k1 & X1). destruct X2 as (k3 & X2).
    pose proof (noise_step fl _ (u32 (side + yo)) _ (u32 (side + yo)) H (u32_range (a / 8 + xo)) (u32_range _) (u32_range (u32 (a + 1) / 8 + xo)) (u32_range _)
      d8 0 k1 0 D8 ltac:(lia) X1 ltac:(lia)) as [_ N1]. specialize (N1 ltac:(auto)).
    pose proof (noise_step fl _ (u32 (0 + yo)) _ (u32 (0 + yo)) H (u32_range (u32 (a / 2 + 1234567) + xo)) (u32_range _) (u32_range (u32 (u32 (a + 1) / 2 + 1234567) + xo)) (u32_range _)
      d2 0 k3 0 D2 ltac:(lia) X2 ltac:(lia)) as [_ N2]. specialize (N2 ltac:(auto)).
    edestruct (Sum _ _ _ _ (noise_byte fl _ _ H (u32_range (a / 8 + xo)) (u32_range (side + yo)))
      (noise_byte fl _ _ H (u32_range (u32 (a / 2 + 1234567) + xo)) (u32_range (0 + yo)))
      (noise_byte fl _ _ H (u32_range (u32 (a + 1) / 8 + xo)) (u32_range (side + yo)))
      (noise_byte fl _ _ H (u32_range (u32 (u32 (a + 1) / 2 + 1234567) + xo)) (u32_range (0 + yo))) N1 N2) as (F1 & F2 & F3).
    intros E E'. exact (Fin _ _ F2 F3 F1 E E').
  - cbn [obind].
    assert (J1 : 0 <= i * 20 < 4294967296) by lia. assert (J2 : 0 <= i * 10 + 1234 < 4294967296) by lia.
    assert (K1 : 0 <= a / 8 < 4294967296) by lia. assert (K2 : 0 <= u32 (a + 1) / 8 < 4294967296) by lia.
    pose proof (noise_step fl _ _ _ _ H J1 K1 J1 K2 0 d8 0 k8 ltac:(lia) D8 ltac:(lia) B8) as [_ N1]. specialize (N1 ltac:(auto)).
    pose proof (noise_step fl _ _ _ _ H J2 (u32_range (a / 2 + 1234567)) J2 (u32_range (u32 (a + 1) / 2 + 1234567)) 0 d2 0 k2 ltac:(lia) D2 ltac:(lia) B2) as [_ N2]. specialize (N2 ltac:(auto)).
    edestruct (Sum _ _ _ _ (noise_byte fl _ _ H J1 K1) (noise_byte fl _ _ H J2 (u32_range (a / 2 + 1234567)))
      (noise_byte fl _ _ H J1 K2) (noise_byte fl _ _ H J2 (u32_range (u32 (a + 1) / 2 + 1234567))) N1 N2) as (F1 & F2 & F3).
    intros E E'. exact (Fin _ _ F2 F3 F1 E E').
Qed.
Print Assumptions C94_fire_flickers_gradually.

(** In the Rorschach effect with a palette of one colour the brightness of an LED
    changes by at most 28 from one millisecond to the next. *)
Theorem C94_rorschach_fades_gradually fl offset led t s p col c c' :
  fastled_lerp fl -> wf_strip s -> 0 <= led < led_count s -> 0 <= offset < 65536 -> 0 <= t < 4294967296 ->
  packet_palette Arduino p = Ok [col] ->
  Rorschach_GetRGB Arduino fl offset led t s p = Ok c -> Rorschach_GetRGB Arduino fl offset led (u32 (t + 1)) s p = Ok c' ->
  exists v v', is_byte v /\ is_byte v' /\ Z.abs (v' - v) <= 28 /\
    c = fl_hsv2rgb fl (mkHSV (hue col) (sat col) v) /\ c' = fl_hsv2rgb fl (mkHSV (hue col) (sat col) v').
Proof.
  intros H [S1 S2] L O T P. unfold Rorschach_GetRGB. cbv zeta. rewrite P. cbn [obind].
  set (pos := u16 (- Z.abs (led - Z.shiftr (led_count s) 1))).
  assert (0 <= pos < 65536) by apply u16_range. clearbody pos.
  set (a := u32 (t + offset)). set (b := u32 (u32 (t + 1) + offset)).
  assert (A : 0 <= a < 4294967296) by apply u32_range.
  assert (B : b = u32 (a + 1)) by (subst a b; unfold u32; lia).
  clearbody a b. subst b.
  change (Size [col] <? 2) with true. cbv iota.
  change (GetColor [col] 0) with (Ok col : outcome chsv). cbn [obind].
  rewrite !Z.shiftr_div_pow2 by lia. rewrite !Z.shiftl_mul_pow2 by lia.
  change (2 ^ 3) with 8. change (2 ^ 5) with 32. change (2 ^ 2) with 4.
  assert (B8 : exists d k, 0 <= d <= 1 /\ u32 (a + 1) / 8 = a / 8 + d + 16777216 * k).
  { destruct (Z.eq_dec a 4294967295) as [->|N].
    - exists 1, (-32). split; [lia|reflexivity].
    - rewrite (u32_id (a + 1)) by lia. exists ((a + 1) / 8 - a / 8), 0. lia. }
  destruct B8 as (d & k & D & B8).
  set (x := u32 (pos * 32 + a / 8)). set (x' := u32 (pos * 32 + u32 (a + 1) / 8)).
  set (y := u32 (a / 8 + pos * 4)). set (y' := u32 (u32 (a + 1) / 8 + pos * 4)).
  assert (Small : 0 <= a / 8 < 536870912 /\ 0 <= u32 (a + 1) / 8 < 536870912) by (pose proof (u32_range (a + 1)); lia).
  assert (Ex : x' = x + d + 16777216 * k) by (subst x x'; rewrite (u32_id (pos * 32 + a / 8)), (u32_id (pos * 32 + _ / 8)) by lia; lia).
  assert (Ey : y' = y + d + 16777216 * k) by (subst y y'; rewrite (u32_id (a / 8 + pos * 4)), (u32_id (_ / 8 + pos * 4)) by lia; lia).
  assert (X : 0 <= x < 4294967296) by apply u32_range. assert (X' : 0 <= x' < 4294967296) by apply u32_range.
  assert (Y : 0 <= y < 4294967296) by apply u32_range. assert (Y' : 0 <= y' < 4294967296) by apply u32_range.
  clearbody x x' y y'.
  destruct (noise_step fl x y x' y' H X Y X' Y' d d k k D D Ex Ey) as [N _].
  pose proof (noise_byte fl x y H X Y) as V. pose proof (noise_byte fl x' y' H X' Y') as V'.
  set (v := perlinNoise fl x y) in *. set (v' := perlinNoise fl x' y') in *. clearbody v v'.
  unfold is_byte in V, V'. change MAX_UINT8 with 255.
  replace (255 <? v) with false by lia. replace (255 <? v') with false by lia.
  intros E E'. exists v, v'. split; [exact V|]. split; [exact V'|]. split; [exact N|].
  unfold rgb_of, with_v in E, E'. rewrite u8_id in E, E' by lia. inversion E; inversion E'; subst. split; reflexivity.
Qed.
Print Assumptions C94_rorschach_fades_gradually.

(** Non-vacuous: FastLED's own generator; the field moves, also across the wrap;
    a fire LED changes at the wrap of the clock. *)
Example C94_example : fastled_lerp fl_ref /\
  perlinNoise fl_ref 0 100 <> perlinNoise fl_ref 4294967295 100 /\
  Z.abs (perlinNoise fl_ref 0 100 - perlinNoise fl_ref 4294967295 100) <= 16 /\
  (exists c c', Fire_GetRGB fl_ref 0 3 4294967295 (StripDescription 10 []) = Ok c /\
    Fire_GetRGB fl_ref 0 3 (u32 (4294967295 + 1)) (StripDescription 10 []) = Ok c').
Proof.
  split; [exact ref_lerp|]. split; [vm_compute; discriminate|]. split; [vm_compute; discriminate|].
  eexists _, _. split; vm_compute; reflexivity.
Qed.
