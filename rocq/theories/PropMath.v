(** C43-C45: mirroring, position on a circle, threshold sine. *)
From Coq Require Import ZArith Lia List Bool.
From Coq Require Import ZifyBool.
From Verif Require Import CInt CIntFacts Packet Fastled Maths.
Import ListNotations.
Open Scope Z_scope.
Ltac Zify.zify_post_hook ::= Z.div_mod_to_equations.

(** ** C43: mirroring *)

Lemma ok_pair {A B} (a a' : A) (b b' : B) : a = a' -> b = b' -> Ok (a, b) = Ok (a', b').
Proof. congruence. Qed.

(** The mirrored position of an LED is its distance to the nearer end. *)
Theorem C43_mirror_is_distance_to_nearer_end : forall n i,
  1 <= n <= 255 -> 0 <= i < n ->
  MirrorIndex i n = Ok (Z.min i (n - 1 - i), (n + 1) / 2).
Proof.
  intros n i Hn Hi. unfold MirrorIndex, umod.
  destruct (n =? 0) eqn:E; [lia|]. cbn [obind].
  rewrite (Z.mod_small i n) by lia. rewrite (u8_id ((n + 1) / 2)) by lia.
  destruct ((n + 1) / 2 <=? i) eqn:F; rewrite ?u8_id by lia; apply ok_pair; lia.
Qed.
Print Assumptions C43_mirror_is_distance_to_nearer_end.
Example C43_example : MirrorIndex 5 7 = Ok (1, 4) /\ MirrorIndex 1 7 = Ok (1, 4) /\ MirrorIndex 3 7 = Ok (3, 4).
Proof. vm_compute. auto. Qed.

(** What users rely on: in range, symmetric, identity on the first half, onto. *)
Theorem C43_mirroring : forall n i,
  1 <= n <= 255 -> 0 <= i < n ->
  exists j, MirrorIndex i n = Ok (j, (n + 1) / 2) /\
    0 <= j < (n + 1) / 2 /\
    MirrorIndex (n - 1 - i) n = Ok (j, (n + 1) / 2) /\
    (i < (n + 1) / 2 -> j = i) /\
    (forall k, 0 <= k < (n + 1) / 2 -> k < n /\ MirrorIndex k n = Ok (k, (n + 1) / 2)).
Proof.
  intros n i Hn Hi. exists (Z.min i (n - 1 - i)).
  split; [apply C43_mirror_is_distance_to_nearer_end; lia|].
  split; [lia|]. split.
  { rewrite C43_mirror_is_distance_to_nearer_end by lia. apply ok_pair; lia. }
  split; [lia|]. intros k Hk. split; [lia|].
  rewrite C43_mirror_is_distance_to_nearer_end by lia. apply ok_pair; lia.
Qed.
Print Assumptions C43_mirroring.

(** An index beyond the strip is first reduced modulo the length; an empty strip
    is a division by zero. *)
Theorem C43_index_reduced : forall n i, 1 <= n <= 255 -> 0 <= i < 256 ->
  MirrorIndex i n = MirrorIndex (i mod n) n.
Proof.
  intros n i Hn Hi. unfold MirrorIndex, umod. destruct (n =? 0) eqn:E; [lia|]. cbn [obind].
  rewrite Z.mod_mod by lia. reflexivity.
Qed.
Print Assumptions C43_index_reduced.
Theorem C43_empty_strip : forall i, MirrorIndex i 0 = Undef.
Proof. reflexivity. Qed.
Print Assumptions C43_empty_strip.

(** ** C44: position on a circle *)
Theorem C44_angle : forall n i j, 1 <= n <= 255 -> 0 <= i <= j -> j < n ->
  exists a b r, GetPosOnCircle n i = Ok (a, r) /\ GetPosOnCircle n j = Ok (b, r) /\
    0 <= a <= b /\ b < 255 /\ (i = 0 -> a = 0) /\
    n * a <= 255 * i < n * (a + 1).
Proof.
  intros n i j Hn Hij Hj. unfold GetPosOnCircle, udiv. destruct (n =? 0) eqn:E; [lia|]. cbn [obind].
  assert (Hb : 0 <= j * 255 / n < 255).
  { split; [apply Z.div_pos; lia|]. apply Z.div_lt_upper_bound; lia. }
  assert (Ha : 0 <= i * 255 / n <= j * 255 / n).
  { split; [apply Z.div_pos; lia|]. apply Z.div_le_mono; lia. }
  exists (i * 255 / n), (j * 255 / n), (u8 (u32 (u32 (n * 32) * 1000) / 6283)).
  rewrite !(u8_id (_ / n)) by lia.
  split; [reflexivity|]. split; [reflexivity|]. split; [lia|]. split; [lia|].
  split.
  - intros ->. reflexivity.
  - pose proof (Z.div_mod (i * 255) n ltac:(lia)). pose proof (Z.mod_pos_bound (i * 255) n ltac:(lia)). lia.
Qed.
Print Assumptions C44_angle.

(** The radius of a circle of n LEDs spaced 32 apart, 32 n / 6.283 rounded
    down, is what the function returns exactly for n <= 50. *)
Theorem C44_radius : forall n i, 1 <= n <= 255 -> 0 <= i < n ->
  exists a r, GetPosOnCircle n i = Ok (a, r) /\
    (n <= 50 <-> r = n * 32000 / 6283) /\ (51 <= n -> r < n * 32000 / 6283).
Proof.
  intros n i Hn Hi. unfold GetPosOnCircle, udiv. destruct (n =? 0) eqn:E; [lia|]. cbn [obind].
  do 2 eexists. split; [reflexivity|].
  rewrite (u32_id (n * 32)) by lia. rewrite (u32_id (n * 32 * 1000)) by lia.
  replace (n * 32 * 1000) with (n * 32000) by lia. unfold u8.
  split; [split|]; intros; lia.
Qed.
Print Assumptions C44_radius.
Example C44_example : GetPosOnCircle 50 49 = Ok (249, 254) /\ GetPosOnCircle 51 0 = Ok (0, 3) /\
  GetPosOnCircle 12 3 = Ok (63, 61).
Proof. vm_compute. auto. Qed.

(** ** C45: threshold sine *)

(** The scaled sine: sin16 / 128, towards zero. *)
Definition scaled_sine (fl : fastled) (x : Z) : Z := Z.quot (fl_sin16 fl (u16 x)) 128.

Lemma scaled_range fl x : fl_ok fl -> -255 <= scaled_sine fl x <= 255.
Proof.
  intros O. unfold scaled_sine. pose proof (ok_sin16 _ O (u16 x) (u16_range x)).
  pose proof (Z.quot_le_mono (-32767) (fl_sin16 fl (u16 x)) 128 ltac:(lia) ltac:(lia)).
  pose proof (Z.quot_le_mono (fl_sin16 fl (u16 x)) 32767 128 ltac:(lia) ltac:(lia)).
  change (Z.quot (-32767) 128) with (-255) in *. change (Z.quot 32767 128) with 255 in *. lia.
Qed.

Lemma threshold_value fl x t : fl_ok fl -> is_byte t ->
  GetThresholdSin fl x t =
    if scaled_sine fl x <? t then 0 else (scaled_sine fl x - t) * 256 / (256 - t).
Proof.
  intros O [T1 T2]. unfold GetThresholdSin. fold (scaled_sine fl x).
  pose proof (scaled_range fl x O) as R. cbv zeta.
  replace (i16 (scaled_sine fl x)) with (scaled_sine fl x)
    by (unfold i16; cbv zeta; destruct (_ <? _) eqn:E; lia).
  destruct (scaled_sine fl x <? t) eqn:E; [reflexivity|].
  assert (0 <= (scaled_sine fl x - t) * 256) by lia.
  rewrite Z.quot_div_nonneg by lia.
  apply u8_id. split; [apply Z.div_pos; lia|]. apply Z.div_lt_upper_bound; nia.
Qed.

Theorem C45_range_and_zero : forall fl x t, fl_ok fl -> is_byte t ->
  0 <= GetThresholdSin fl x t <= 255 /\
  (GetThresholdSin fl x t = 0 <-> scaled_sine fl x <= t).
Proof.
  intros fl x t O B. rewrite threshold_value by assumption. destruct B as [T1 T2].
  pose proof (scaled_range fl x O) as R. destruct (_ <? _) eqn:E; [lia|].
  set (s := scaled_sine fl x) in *. clearbody s.
  assert (0 <= (s - t) * 256 / (256 - t)) by (apply Z.div_pos; lia).
  assert ((s - t) * 256 / (256 - t) < 256) by (apply Z.div_lt_upper_bound; nia).
  split; [lia|]. split; intros H1.
  - destruct (Z.le_gt_cases s t); [assumption|exfalso].
    assert (1 <= (s - t) * 256 / (256 - t)) by (apply Z.div_le_lower_bound; lia). lia.
  - replace s with t by lia. rewrite Z.sub_diag. apply Z.div_0_l; lia.
Qed.
Print Assumptions C45_range_and_zero.

Theorem C45_monotone : forall fl x y t, fl_ok fl -> is_byte t ->
  fl_sin16 fl (u16 x) <= fl_sin16 fl (u16 y) ->
  GetThresholdSin fl x t <= GetThresholdSin fl y t.
Proof.
  intros fl x y t O B L. rewrite !threshold_value by assumption. destruct B as [T1 T2].
  pose proof (scaled_range fl x O) as Rx. pose proof (scaled_range fl y O) as Ry.
  assert (scaled_sine fl x <= scaled_sine fl y) by (unfold scaled_sine; apply Z.quot_le_mono; lia).
  destruct (scaled_sine fl x <? t) eqn:E1, (scaled_sine fl y <? t) eqn:E2; try lia.
  - apply Z.div_pos; lia.
  - apply Z.div_le_mono; lia.
Qed.
Print Assumptions C45_monotone.

Theorem C45_antitone_in_threshold : forall fl x s t, fl_ok fl -> is_byte s -> is_byte t -> s <= t ->
  GetThresholdSin fl x t <= GetThresholdSin fl x s.
Proof.
  intros fl x s t O B1 B2 L. rewrite !threshold_value by assumption.
  destruct B1 as [S1 S2], B2 as [T1 T2].
  pose proof (scaled_range fl x O) as R. set (v := scaled_sine fl x) in *. clearbody v.
  destruct (v <? t) eqn:E1, (v <? s) eqn:E2; try lia.
  - apply Z.div_pos; lia.
  - apply Z.div_le_lower_bound; [lia|].
    pose proof (Z.div_mod ((v - t) * 256) (256 - t) ltac:(lia)).
    pose proof (Z.mod_pos_bound ((v - t) * 256) (256 - t) ltac:(lia)).
    set (q := (v - t) * 256 / (256 - t)) in *.
    assert (0 <= q) by (apply Z.div_pos; lia).
    assert (q <= 256) by nia.
    nia.
Qed.
Print Assumptions C45_antitone_in_threshold.

(** Without a threshold the scaled sine itself, cut at zero; the negative half
    is dark. *)
Theorem C45_no_threshold : forall fl x, fl_ok fl ->
  GetThresholdSin fl x 0 = Z.max 0 (scaled_sine fl x).
Proof.
  intros fl x O. rewrite threshold_value by (auto; unfold is_byte; lia).
  destruct (_ <? _) eqn:E; [lia|]. rewrite Z.sub_0_r, Z.div_mul by lia. lia.
Qed.
Print Assumptions C45_no_threshold.
Example C45_example : fl_ok fl_ref /\ GetThresholdSin fl_ref 16384 0 = 255 /\
  GetThresholdSin fl_ref 16384 200 = 251 /\ GetThresholdSin fl_ref 5000 200 = 0 /\
  GetThresholdSin fl_ref (-5000) 0 = 0.
Proof. split; [exact fl_ref_ok|]. vm_compute. auto. Qed.
