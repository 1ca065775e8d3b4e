(** C115, C116: what the pride flag and the spark draw and how they move; the
    stop light and the fireflies on the controller's own LEDs. *)
From Coq Require Import ZArith Lia List Bool.
From Coq Require Import ZifyBool.
From Verif Require Import CInt CIntFacts Packet NetMgr Fastled Maths Palette SpecColor PaletteFacts PropMath PropColor
  Device LedMgr SpecLed LedFacts RenderFacts Effects SpecEffect RgbFacts Show ShowFacts RsmRun PropShow PropAnim PropMotion.
Import ListNotations.
Open Scope Z_scope.
Ltac Zify.zify_post_hook ::= Z.div_mod_to_equations.

(** ** C115: pride *)

(** The colours of the six stripes: red, orange, yellow, green, blue, purple. *)
Definition flag : list chsv :=
  [mkHSV 0 255 255; mkHSV 24 255 252; mkHSV 38 255 255; mkHSV 83 237 160; mkHSV 154 247 175; mkHSV 206 201 219].

Lemma flag_colour st : 0 <= st <= 5 -> colour pride_palette st = nth (Z.to_nat st) flag (mkHSV 0 0 0).
Proof.
  intros R. assert (D : st = 0 \/ st = 1 \/ st = 2 \/ st = 3 \/ st = 4 \/ st = 5) by lia.
  destruct D as [->|[->|[->|[->|[->| ->]]]]]; reflexivity.
Qed.

Section Pride.
Variables (pl : platform) (fl : fastled) (o : offsets) (p : packet) (i k : Z) (s : strip).
Hypotheses (A : asks_for pl p i k) (Se : selects pl i 8) (W : wf_strip s).

Let pixel j t := current_pixel pl fl (built (builtin o)) p s j t.

(** Behind the fade a stripe has its pure colour. *)
Theorem C115_stripes_have_the_colours_of_the_flag : forall j t, 0 <= j < led_count s -> is_time t ->
  0 <= stripe s j t <= 5 /\
  (fade s <= into_stripe s j t -> pixel j t = Ok (fl_hsv2rgb fl (nth (Z.to_nat (stripe s j t)) flag (mkHSV 0 0 0)))).
Proof using A Se W.
  intros j t J T. destruct (C63_pride_stripes pl fl o p i k 8 s j t A Se eq_refl W J T) as [R E].
  split; [exact R|]. intros L. unfold pixel. rewrite E. destruct (into_stripe s j t <? fade s) eqn:F; [lia|].
  rewrite flag_colour by exact R. reflexivity.
Qed.

Lemma pride_same j j' t t' : 0 <= j < led_count s -> 0 <= j' < led_count s -> is_time t -> is_time t' ->
  pride_step s j t = pride_step s j' t' -> pixel j t = pixel j' t'.
Proof using A Se W.
  intros J J' T T' E. unfold pixel.
  destruct (C63_pride_stripes pl fl o p i k 8 s j t A Se eq_refl W J T) as [_ ->].
  destruct (C63_pride_stripes pl fl o p i k 8 s j' t' A Se eq_refl W J' T') as [_ ->].
  unfold stripe, into_stripe. rewrite E. reflexivity.
Qed.

(** The flag moves one LED towards the start of the strip every 384 ms; what
    leaves at the start comes in at the end. *)
Theorem C115_the_flag_moves : forall j t, FlagEnabled s Tiny = false -> 0 <= j < led_count s -> is_time t -> is_time (t + 384) ->
  pixel j (t + 384) = pixel ((j + 1) mod led_count s) t.
Proof using A Se W.
  intros j t F J T T'. apply pride_same; try assumption; [apply Z.mod_pos_bound; lia|].
  unfold pride_step. rewrite F. destruct (Z.eq_dec (j + 1) (led_count s)) as [E|E].
  - rewrite E, Z.mod_same by lia. replace (48 * j + (t + 384) / 8) with (48 * 0 + t / 8 + 1 * (48 * led_count s)) by lia.
    apply Z.mod_add. lia.
  - rewrite (Z.mod_small (j + 1)) by lia. f_equal. lia.
Qed.

(** All six colours are on the strip at every moment, each on an LED that shows
    nothing else. *)
Theorem C115_all_colours_at_all_times : forall t st, FlagEnabled s Tiny = false -> 7 <= led_count s -> is_time t -> 0 <= st <= 5 ->
  exists j, 0 <= j < led_count s /\ pixel j t = Ok (fl_hsv2rgb fl (nth (Z.to_nat st) flag (mkHSV 0 0 0))).
Proof using A Se W.
  intros t st F L T St. set (c := led_count s) in *.
  set (low := 8 * c * st + c). set (q := (low - t / 8 + 47) / 48).
  assert (Q : low <= 48 * q + t / 8 <= low + 47) by (unfold q; lia).
  exists (q mod c). assert (J : 0 <= q mod c < c) by (apply Z.mod_pos_bound; lia). split; [exact J|].
  assert (P : pride_step s (q mod c) t = 48 * q + t / 8).
  { unfold pride_step. rewrite F. fold c.
    assert (E : q = c * (q / c) + q mod c) by (apply Z.div_mod; lia).
    replace (48 * (q mod c) + t / 8) with (48 * q + t / 8 + (- (q / c)) * (48 * c)) by (generalize dependent (q / c); generalize (q mod c); generalize (t / 8); clear; intros a b d ->; ring).
    rewrite Z.mod_add by lia. apply Z.mod_small. unfold low in Q. nia. }
  destruct (C115_stripes_have_the_colours_of_the_flag (q mod c) t J T) as [_ H].
  assert (S : stripe s (q mod c) t = st).
  { unfold stripe. rewrite P. fold c. symmetry. apply Z.div_unique with (48 * q + t / 8 - 8 * c * st); unfold low in Q; lia. }
  rewrite S in H. apply H. unfold fade, into_stripe. rewrite F, P. fold c.
  replace ((48 * q + t / 8) mod (8 * c)) with (48 * q + t / 8 - 8 * c * st); [unfold low in Q; lia|].
  apply Z.mod_unique with st; unfold low in Q; lia.
Qed.

(** Tiny strips show one colour at a time on all LEDs, each for 32 ms per LED. *)
Theorem C115_tiny_strips_take_turns : forall j t, FlagEnabled s Tiny = true -> 0 <= j < led_count s -> is_time t ->
  (forall j', 0 <= j' < led_count s -> pixel j t = pixel j' t) /\
  (2 * t < 4294967296 -> stripe s j t = t / (32 * led_count s) mod 6).
Proof using A Se W.
  intros j t F J T. split.
  - intros j' J'. apply pride_same; try assumption. unfold pride_step. rewrite F. reflexivity.
  - intros B. destruct T as [T _]. unfold stripe, pride_step. rewrite F. rewrite (Z.mod_small (2 * t)) by lia.
    replace (48 * led_count s) with (8 * led_count s * 6) by lia. rewrite Z.rem_mul_r by lia.
    rewrite Z.add_comm, Z.mul_comm, Z.div_add_l by lia. rewrite (Z.div_small (_ mod (8 * _))) by (apply Z.mod_pos_bound; lia).
    rewrite Z.add_0_r. replace (2 * t / 8) with (t / 4) by lia. rewrite Z.div_div by lia. do 2 f_equal. lia.
Qed.
End Pride.
Print Assumptions C115_stripes_have_the_colours_of_the_flag.
Print Assumptions C115_the_flag_moves.
Print Assumptions C115_all_colours_at_all_times.
Print Assumptions C115_tiny_strips_take_turns.

Example C115_example : asks_for Arduino (effect_pkt 50 8 1 0) 8 0 /\ selects Arduino 8 8 /\
  let s := StripDescription 30 [] in wf_strip s /\ FlagEnabled s Tiny = false /\ led_count s = 30 /\
  stripe s 3 0 = 0 /\ into_stripe s 3 0 = 144 /\ stripe s 29 0 = 5 /\
  map (fun j => stripe s j 1000) [0; 5; 10; 15; 20; 25; 29] = [0; 1; 2; 3; 4; 5; 0] /\
  current_pixel Arduino fl_ref (built (builtin (mkOffsets 0 0 0))) (effect_pkt 50 8 1 0) s 29 384 =
  current_pixel Arduino fl_ref (built (builtin (mkOffsets 0 0 0))) (effect_pkt 50 8 1 0) s 0 0 /\
  current_pixel Arduino fl_ref (built (builtin (mkOffsets 0 0 0))) (effect_pkt 50 8 1 0) s 29 384 <>
  current_pixel Arduino fl_ref (built (builtin (mkOffsets 0 0 0))) (effect_pkt 50 8 1 0) s 28 384.
Proof.
  split; [apply effect_pkt_asks; unfold is_byte; lia|]. split; [split; [reflexivity|discriminate]|].
  cbv zeta. split; [apply StripDescription_wf|]. vm_compute. repeat split; try reflexivity; discriminate.
Qed.

(** ** C116: spark *)

Section Spark.
Variables (pl : platform) (fl : fastled) (o : offsets) (p : packet) (i k n : Z) (s : strip).
Hypotheses (OK : fl_ok fl) (A : asks_for pl p i k) (K : k < number_of_palettes) (Se : selects pl i n)
  (N : 19 <= n <= 22) (W : wf_strip s).

Let pixel j t := current_pixel pl fl (built (builtin o)) p s j t.

Lemma spark_is j t : pixel j t = Spark_GetRGB pl fl j t s p.
Proof using A Se N.
  unfold pixel, current_pixel. destruct (current_selected pl o p i k n A Se) as [-> _]. cbn [obind].
  assert (D : n = 19 \/ n = 20 \/ n = 21 \/ n = 22) by lia. destruct D as [->|[->|[->| ->]]]; reflexivity.
Qed.

(** [d] positions behind the head: the colour is the palette's, which runs round
    in 6144 ms, advanced by 14/256 of the palette per position. *)
Lemma spark_at j t d back : 0 <= j < led_count s ->
  spark_position (virtual_position s j) (virtual_count s) t (FlagEnabled s Circular) = Ok (d, back) ->
  -512 <= d < virtual_count s + 9 ->
  exists c, around fl k (t / 24 + 14 * d) c /\ pixel j t = Ok (lit fl c (tail back d)).
Proof using OK A K Se N W.
  intros J E D. rewrite spark_is. destruct (packet_palette_eval pl p i k A K) as [PP G]. fold (pal k) in PP, G.
  destruct (mirror_eval s j W J) as (ME & V1 & V2).
  destruct (around_ok fl k (t / 24 + 14 * d) OK G) as (c & Ar & _). exists c. split; [exact Ar|].
  unfold Spark_GetRGB. rewrite PP. cbn [obind]. rewrite ME. cbn [obind]. rewrite E. cbn [obind].
  assert (Q : u16 (u32 (Z.shiftl (u32 (t / 24 + d * 14)) 8)) = (t / 24 + 14 * d) mod 256 * 256) by (rewrite shl8; unfold u16, u32; lia).
  rewrite Q. unfold around in Ar. rewrite Ar. cbn [obind].
  assert (SB : spark_brightness d (virtual_count s) back = Ok (tail back d)).
  { unfold spark_brightness, tail. change (u8 (Z.of_nat (length brightnesses))) with 8. change brightnesses with [255; 255; 128; 96; 48; 32; 24; 16].
    destruct (d <? 0) eqn:E1; [destruct (0 <=? d) eqn:E2; [lia|reflexivity]|].
    destruct (0 <=? d) eqn:E2; [|lia]. cbn [andb].
    destruct (d <? virtual_count s + 8) eqn:E3.
    - destruct (d <? 8) eqn:E4; [|reflexivity].
      destruct back; rewrite (aget_nth _ _ 0) by (change (Z.of_nat (length [255; 255; 128; 96; 48; 32; 24; 16])) with 8; lia);
        [replace (8 - d - 1) with (7 - d) by lia|]; reflexivity.
    - destruct (d <? 8) eqn:E4; [lia|reflexivity]. }
  rewrite SB. cbn [obind]. apply with_v_lit. apply tail_byte.
Qed.

(** On a strip with two ends. *)
Theorem C116_spark_picture : forall j t, 0 <= j < led_count s -> FlagEnabled s Circular = false ->
  let d := fst (head (virtual_count s) t) - virtual_position s j in
  exists c, around fl k (t / 24 + 14 * d) c /\ pixel j t = Ok (lit fl c (tail (snd (head (virtual_count s) t)) d)).
Proof using OK A K Se N W.
  intros j t J F d. destruct (mirror_eval s j W J) as (ME & V1 & V2). pose proof W as [WC _].
  assert (M : 0 <= t * (virtual_count s + 8) mod 4294967296 / 3000 mod (2 * (virtual_count s + 8)) < 2 * (virtual_count s + 8)) by (apply Z.mod_pos_bound; lia).
  apply spark_at; [exact J| |].
  - rewrite F. unfold spark_position. change (u8 (Z.of_nat (length brightnesses))) with 8. cbv zeta. unfold umod.
    destruct ((virtual_count s + 8) * 2 =? 0) eqn:E0; [lia|]. cbn [obind]. unfold d, head. cbv zeta.
    rewrite (Z.mul_comm (virtual_count s + 8) 2). unfold u32.
    set (m := t * (virtual_count s + 8) mod 4294967296 / 3000 mod (2 * (virtual_count s + 8))) in *. clearbody m.
    rewrite (i16_id m) by lia. destruct (virtual_count s + 8 <? m) eqn:E1; cbn [fst snd].
    + replace (virtual_count s + 8 - (m - (virtual_count s + 8))) with (2 * (virtual_count s + 8) - m) by lia.
      rewrite (i16_id (2 * (virtual_count s + 8) - m)) by lia. rewrite i16_id by lia. reflexivity.
    + rewrite i16_id by lia. reflexivity.
  - unfold d, head. cbv zeta.
    set (m := t * (virtual_count s + 8) mod 4294967296 / 3000 mod (2 * (virtual_count s + 8))) in *. clearbody m.
    destruct (virtual_count s + 8 <? m) eqn:E1; cbn [fst]; lia.
Qed.

(** On a circle the head is here: it runs towards the start, one turn in 3 s. *)
Definition ring_head (c t : Z) : Z := (- (t * c / 3000)) mod c.

Theorem C116_spark_on_a_circle : forall j t, 0 <= j < led_count s -> FlagEnabled s Circular = true ->
  0 <= t -> t * virtual_count s < 4294967296 ->
  let d := (virtual_position s j - ring_head (virtual_count s) t) mod virtual_count s in
  exists c, around fl k (t / 24 + 14 * d) c /\ pixel j t = Ok (lit fl c (tail false d)).
Proof using OK A K Se N W.
  intros j t J F T B d. destruct (mirror_eval s j W J) as (ME & V1 & V2). pose proof W as [WC _].
  assert (D : d = (t * virtual_count s / 3000 + virtual_position s j) mod virtual_count s).
  { unfold d, ring_head. rewrite Zminus_mod_idemp_r. f_equal. lia. }
  assert (R : 0 <= d < virtual_count s) by (unfold d; apply Z.mod_pos_bound; lia).
  apply spark_at; [exact J| |lia].
  rewrite F. unfold spark_position. cbv zeta. unfold umod. destruct (virtual_count s =? 0) eqn:E0; [lia|]. cbn [obind].
  assert (T0 : 0 <= t * virtual_count s) by nia.
  rewrite (u32_id (t * virtual_count s)) by lia. rewrite u32_id by lia. rewrite <- D. rewrite i16_id by lia. reflexivity.
Qed.
End Spark.
Print Assumptions C116_spark_picture.
Print Assumptions C116_spark_on_a_circle.

Theorem C116_the_head_goes_round c t : 0 < c < 256 -> 0 <= t ->
  (ring_head c (t + 1) = ring_head c t \/ ring_head c (t + 1) = (ring_head c t - 1) mod c) /\
  ring_head c (t + 3000) = ring_head c t.
Proof.
  intros C T. unfold ring_head. split.
  - replace ((t + 1) * c) with (t * c + c) by ring. assert (P : 0 <= t * c) by nia. set (x := t * c) in *. clearbody x.
    assert (D : (x + c) / 3000 = x / 3000 \/ (x + c) / 3000 = x / 3000 + 1) by lia. destruct D as [->| ->]; [left; reflexivity|right].
    rewrite Zminus_mod_idemp_l. f_equal. lia.
  - replace ((t + 3000) * c) with (t * c + c * 3000) by ring. rewrite Z.div_add by lia.
    replace (- (t * c / 3000 + c)) with (- (t * c / 3000) + (-1) * c) by ring. apply Z.mod_add. lia.
Qed.
Print Assumptions C116_the_head_goes_round.

(** Between the ends the head moves at most one position per ms (C62) and takes 3
    s from the start beyond the end and 3 s back: whenever the head is at the
    start it is beyond the end 3 s later. *)
Theorem C116_there_and_back c t : 0 < c < 256 -> 0 <= t -> (t + 6000) * (c + 8) < 4294967296 ->
  head c (t + 6000) = head c t /\
  fst (head c (t + 3000)) = c + 8 - fst (head c t).
Proof.
  intros C T B. unfold head. cbv zeta.
  assert (P : 0 <= t * (c + 8)) by nia.
  rewrite (Z.mod_small ((t + 6000) * (c + 8))), (Z.mod_small ((t + 3000) * (c + 8))), (Z.mod_small (t * (c + 8))) by nia.
  replace ((t + 6000) * (c + 8)) with (t * (c + 8) + (2 * (c + 8)) * 3000) by ring.
  replace ((t + 3000) * (c + 8)) with (t * (c + 8) + (c + 8) * 3000) by ring.
  rewrite !Z.div_add by lia. set (x := t * (c + 8) / 3000). assert (X : 0 <= x) by (unfold x; lia). clearbody x. set (l := c + 8) in *. assert (L : 8 < l) by lia. clearbody l.
  split.
  - replace (x + 2 * l) with (x + 1 * (2 * l)) by ring. rewrite Z.mod_add by lia. reflexivity.
  - pose proof (Z.mod_pos_bound x (2 * l) ltac:(lia)) as M.
    assert (E : (x + l) mod (2 * l) = if x mod (2 * l) <? l then x mod (2 * l) + l else x mod (2 * l) - l).
    { rewrite <- (Zplus_mod_idemp_l x). set (m := x mod (2 * l)) in *. clearbody m. destruct (m <? l) eqn:E.
      - apply Z.mod_small. lia.
      - replace (m + l) with (m - l + 1 * (2 * l)) by ring. rewrite Z.mod_add by lia. apply Z.mod_small. lia. }
    rewrite E. set (m := x mod (2 * l)) in *. clearbody m. clear E.
    destruct (m <? l) eqn:E1; [destruct (l <? m + l) eqn:E2; destruct (l <? m) eqn:E3; cbn [fst]; lia|].
    destruct (l <? m - l) eqn:E2; destruct (l <? m) eqn:E3; cbn [fst]; lia.
Qed.
Print Assumptions C116_there_and_back.

Example C116_example : asks_for Arduino (effect_pkt 50 19 1 8) 19 8 /\ selects Arduino 19 19 /\
  head 30 0 = (0, false) /\ head 30 1500 = (19, false) /\ head 30 3000 = (38, false) /\ head 30 4500 = (19, true) /\
  ring_head 30 0 = 0 /\ ring_head 30 1000 = 20 /\
  let s := StripDescription 30 [Circular] in wf_strip s /\ FlagEnabled s Circular = true /\
  current_pixel Arduino fl_ref (built (builtin (mkOffsets 0 0 0))) (effect_pkt 50 19 1 8) s 20 1000 <> Ok (mkRGB 0 0 0) /\
  current_pixel Arduino fl_ref (built (builtin (mkOffsets 0 0 0))) (effect_pkt 50 19 1 8) s 19 1000 = Ok (mkRGB 0 0 0).
Proof.
  split; [apply effect_pkt_asks; unfold is_byte; lia|]. split; [split; [reflexivity|discriminate]|].
  do 6 (split; [reflexivity|]). cbv zeta. split; [apply StripDescription_wf|]. vm_compute. repeat split; try reflexivity; discriminate.
Qed.

(** ** The controller's LEDs *)

(** C72.  On the controller's strip the stop light stands still: red on the first
    fifth and one LED more, half amber on the third fifth, green on the rest
    after the fourth; the LEDs between are dark. *)
Theorem C72_stop_light_on_the_controller : forall pl fl o p i k s j t,
  asks_for pl p i k -> selects pl i 28 -> wf_strip s -> 0 <= j < led_count s ->
  FlagEnabled s Tiny = false -> FlagEnabled s Controller = true ->
  let fifth := led_count s / 5 in
  current_pixel pl fl (built (builtin o)) p s j t =
    Ok (if j <=? fifth then fl_hsv2rgb fl (signal_colour StopRed)
        else if (2 * fifth <? j) && (j <=? 3 * fifth) then
          let c := fl_hsv2rgb fl (signal_colour Amber) in mkRGB (red c / 2) (green c / 2) (blue c / 2)
        else if 4 * fifth <? j then fl_hsv2rgb fl (signal_colour GoGreen)
        else mkRGB 0 0 0).
Proof.
  intros pl fl o p i k s j t A Se [C _] J F1 F2 fifth.
  unfold current_pixel. destruct (current_selected pl o p i k 28 A Se) as [-> _]. cbn [obind].
  change (GetRGB pl fl (effect_number o 28) j t s p) with (StopLight_GetRGB fl j t s).
  unfold StopLight_GetRGB. cbv zeta. rewrite F1, F2. rewrite (u16_id (led_count s / 5)) by lia. fold fifth.
  rewrite !(Z.mul_comm fifth). destruct (j <=? fifth); [reflexivity|].
  destruct ((2 * fifth <? j) && (j <=? 3 * fifth)); [reflexivity|]. destruct (4 * fifth <? j); reflexivity.
Qed.
Print Assumptions C72_stop_light_on_the_controller.

(** C61.  On the controller's strip the odd LEDs are dark, and the even ones blink
    with offsets that do not depend on the device: 210, 328, 288 and 128 ms for
    the first four, none for the others (up to LED 31; beyond, the shift in the
    code is undefined). *)
Definition controller_offset (j : Z) : Z :=
  if j =? 0 then 210 else if j =? 2 then 328 else if j =? 4 then 288 else if j =? 6 then 128 else 0.

Theorem C61_fireflies_on_the_controller : forall pl fl o p i k n s j t,
  fl_ok fl -> asks_for pl p i k -> k < number_of_palettes -> selects pl i n -> n = 5 \/ n = 6 ->
  is_time t -> FlagEnabled s Controller = true -> 0 <= j < 32 ->
  exists c, around fl k (t / 1024) c /\
    current_pixel pl fl (built (builtin o)) p s j t =
      Ok (if j mod 2 =? 1 then mkRGB 0 0 0 else lit fl c (blink fl (rhythm (controller_offset j) t))).
Proof.
  intros pl fl o p i k n s j t OK A K Se C T F J.
  set (s0 := mkStrip (led_count s) 0). set (o' := mkOffsets 0 (controller_offset j) 0).
  assert (V : valid_offset o').
  { unfold valid_offset, o', controller_offset. cbn [firefly_offset].
    destruct (j =? 0); [lia|]. destruct (j =? 2); [lia|]. destruct (j =? 4); [lia|]. destruct (j =? 6); lia. }
  destruct (C61_offset_fades_in_and_out pl fl o' p i k n s0 j t OK A K Se C T V eq_refl) as (c & G & E).
  exists c. split.
  { unfold around, pal. rewrite <- G. f_equal. destruct T. lia. }
  assert (CE : forall o s, current_pixel pl fl (built (builtin o)) p s j t = Firefly_GetRGB pl fl (firefly_offset o) j t s p).
  { intros o1 s1. unfold current_pixel. destruct (current_selected pl o1 p i k n A Se) as [-> _]. destruct C as [->| ->]; reflexivity. }
  rewrite CE in *. unfold Firefly_GetRGB at 1. rewrite F. cbn [andb].
  destruct (j mod 2 =? 1) eqn:M; [reflexivity|].
  unfold lit. change (firefly_offset o') with (controller_offset j) in E. rewrite <- E. unfold Firefly_GetRGB. replace (FlagEnabled s0 Controller) with false by reflexivity. cbn [andb].
  assert (Sh : (v <- shl32 (kBlinkPeriod + 1234) j ;; Ok (v mod (kBlinkPeriod / 2))) = Ok (controller_offset j)).
  { assert (D : j = 0 \/ j = 2 \/ j = 4 \/ j = 6 \/ j = 8 \/ j = 10 \/ j = 12 \/ j = 14 \/ j = 16 \/ j = 18 \/ j = 20 \/ j = 22 \/ j = 24 \/ j = 26 \/ j = 28 \/ j = 30) by lia.
    clear -D. repeat destruct D as [D|D]; subst j; reflexivity. }
  rewrite Sh. reflexivity.
Qed.
Print Assumptions C61_fireflies_on_the_controller.

Example C61_controller_example :
  let s := StripDescription 16 [Controller] in wf_strip s /\ FlagEnabled s Controller = true /\ FlagEnabled s Tiny = false /\
  map controller_offset [0; 2; 4; 6; 8; 10; 12; 14] = [210; 328; 288; 128; 0; 0; 0; 0] /\
  map (fun j => current_pixel Arduino fl_ref (built (builtin (mkOffsets 0 0 0))) (effect_pkt 50 28 1 0) s j 0) [3; 4; 6] =
  [Ok (mkRGB 255 0 0); Ok (mkRGB 0 0 0); Ok (mkRGB 0 0 0)].
Proof. split; [apply StripDescription_wf|]. vm_compute. auto. Qed.
