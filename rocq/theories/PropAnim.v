(** C61-C63 and C69-C74: how the animations move. *)
From Coq Require Import ZArith Lia List Bool.
From Coq Require Import ZifyBool.
From Verif Require Import CInt CIntFacts Packet NetMgr Fastled Maths Palette SpecColor PaletteFacts PropMath PropColor
  Device LedMgr SpecLed LedFacts RenderFacts Effects SpecEffect RgbFacts Show ShowFacts RsmRun PropShow.
Import ListNotations.
Open Scope Z_scope.
Ltac Zify.zify_post_hook ::= Z.div_mod_to_equations.

(** ** C61: firefly *)

(** A device's firefly offset: drawn from 0..511. *)
Definition valid_offset (o : offsets) : Prop := 0 <= firefly_offset o < 512.

Theorem C61_offsets_are_valid : forall pl raw,
  exists v, draw_firefly_offset pl raw = Ok v /\ 0 <= v < 512.
Proof.
  intros pl raw. unfold draw_firefly_offset. change (kBlinkPeriod / 2) with 512. unfold random2. destruct pl.
  - change (512 =? 0) with false. cbv iota. cbn [obind]. eexists. split; [reflexivity|].
    pose proof (Z.mod_pos_bound (Z.of_N raw) 512 ltac:(lia)). unfold u32, u16. lia.
  - change (512 <=? 0) with false. cbv iota. cbn [obind]. eexists. split; [reflexivity|].
    pose proof (Z.mod_pos_bound (Z.of_N raw) (512 - 0) ltac:(lia)). unfold u32. lia.
Qed.
Print Assumptions C61_offsets_are_valid.

(** The three 20 s phases: 0 coming together, 1 together, 2 drifting apart. *)
Definition phase (t : Z) : Z := t / 20000 mod 3.

Lemma phase_range t : 0 <= phase t <= 2.
Proof. unfold phase. lia. Qed.
Lemma i8_phase t : i8 (t / kPeriodMs mod 3) = phase t.
Proof. unfold phase, kPeriodMs. pose proof (phase_range t). unfold phase in *. rewrite i8_id; lia. Qed.

Theorem C61_together_in_the_middle_phase : forall pl fl o o' p i k n s j t,
  asks_for pl p i k -> selects pl i n -> n = 5 \/ n = 6 ->
  is_time t -> phase t = 1 -> (FlagEnabled s Controller = true -> j < 32) ->
  current_pixel pl fl (built (builtin o)) p s j t = current_pixel pl fl (built (builtin o')) p s j t /\
  (* and all LEDs of all strips of all devices are alike, but for the odd ones of
     controller strips *)
  forall s' j', (FlagEnabled s Controller = false \/ j mod 2 = 0) ->
    (FlagEnabled s' Controller = false \/ (j' mod 2 = 0 /\ j' < 32)) ->
    current_pixel pl fl (built (builtin o)) p s j t = current_pixel pl fl (built (builtin o')) p s' j' t.
Proof.
  intros pl fl o o' p i k n s j t A Se C T Ph L.
  assert (FT : forall off, firefly_time off t = t).
  { intros off. unfold firefly_time. rewrite i8_phase, Ph. reflexivity. }
  assert (E : forall o s j, FlagEnabled s Controller = false \/ (j mod 2 = 0 /\ j < 32) ->
     Firefly_GetRGB pl fl (firefly_offset o) j t s p =
     (palette <- packet_palette pl p ;;
      color <- GetGradient fl palette (u16 (u32 (Z.shiftl (t / kBlinkPeriod) 8))) true ;;
      rgb_of fl (with_v color ((let curve := fl_sin16 fl (u16 (u32 (t * kSinMultiplier))) in if curve <? 0 then 0 else curve) / 256)))).
  { intros o1 s1 j1 Q. unfold Firefly_GetRGB. destruct (FlagEnabled s1 Controller) eqn:F.
    - destruct Q as [Q|[Q1 Q2]]; [discriminate|]. cbn [andb]. rewrite Q1. change (0 =? 1) with false. cbv iota.
      unfold shl32. destruct (32 <=? j1) eqn:E; [lia|]. cbn [obind]. rewrite FT. reflexivity.
    - cbn [andb obind]. rewrite FT. reflexivity. }
  assert (CE : forall o s j, current_pixel pl fl (built (builtin o)) p s j t = Firefly_GetRGB pl fl (firefly_offset o) j t s p).
  { intros. unfold current_pixel. destruct (current_selected pl o0 p i k n A Se) as [-> _]. destruct C as [->| ->]; reflexivity. }
  rewrite !CE. split.
  - destruct (FlagEnabled s Controller) eqn:F; [|rewrite !E by auto; reflexivity].
    destruct (Z.eq_dec (j mod 2) 1) as [M|M].
    + unfold Firefly_GetRGB. rewrite F, M. reflexivity.
    + rewrite !E by (right; split; [lia|auto]). reflexivity.
  - intros s' j' Q Q'. rewrite !CE. rewrite (E o s j), (E o' s' j'); auto.
    destruct (FlagEnabled s Controller) eqn:F; [|auto]. destruct Q as [Q|Q]; [discriminate|]. right. auto.
Qed.
Print Assumptions C61_together_in_the_middle_phase.

(** How far (in ms) a device is from the common rhythm at time [t]: its full
    offset at the start of phase 0, going down linearly to 0; 0 in phase 1; up
    again linearly in phase 2.  Small offsets run late, large ones early. *)
Definition lag (off t : Z) : Z :=
  let into := t mod 20000 in
  if phase t =? 0 then off * (20000 - into) / 20000
  else if phase t =? 1 then 0
  else off * into / 20000.
Definition rhythm (off t : Z) : Z := if off <? 256 then t - lag off t else t + lag off t.

(** Brightness of a blink at time [t] of the common rhythm, period 1024 ms. *)
Definition blink (fl : fastled) (t : Z) : Z := Z.max 0 (fl_sin16 fl (t * 64 mod 65536)) / 256.

Theorem C61_offset_fades_in_and_out : forall pl fl o p i k n s j t,
  fl_ok fl -> asks_for pl p i k -> k < number_of_palettes -> selects pl i n -> n = 5 \/ n = 6 ->
  is_time t -> valid_offset o -> FlagEnabled s Controller = false ->
  exists common, (* hue and saturation: the same on all devices *)
    GetGradient fl (nth (Z.to_nat k) palettes []) (t / 1024 * 256 mod 65536) true = Ok common /\
    current_pixel pl fl (built (builtin o)) p s j t =
      Ok (fl_hsv2rgb fl (mkHSV (hue common) (sat common) (blink fl (rhythm (firefly_offset o) t)))).
Proof.
  intros pl fl o p i k n s j t OK A K Se C [T1 T2] [O1 O2] F.
  destruct (packet_palette_eval pl p i k A K) as [PP G].
  assert (GP : u16 (u32 (Z.shiftl (t / kBlinkPeriod) 8)) = t / 1024 * 256 mod 65536).
  { change kBlinkPeriod with 1024. rewrite Z.shiftl_mul_pow2 by lia. change (2 ^ 8) with 256. unfold u16, u32. lia. }
  pose proof G as (N & Cn & Fw).
  destruct (gradient_ok fl (nth (Z.to_nat k) palettes []) (t / 1024 * 256 mod 65536) true OK ltac:(lia) Fw ltac:(lia)) as (c & E & W).
  exists c. split; [exact E|].
  assert (FF : Firefly_GetRGB pl fl (firefly_offset o) j t s p =
     Ok (fl_hsv2rgb fl (mkHSV (hue c) (sat c) (blink fl (rhythm (firefly_offset o) t))))).
  { unfold Firefly_GetRGB. rewrite F. cbn [andb obind]. rewrite PP. cbn [obind]. rewrite GP, E. cbn [obind].
    unfold rgb_of, with_v. f_equal. f_equal. f_equal.
    assert (R : u16 (u32 (firefly_time (firefly_offset o) t * kSinMultiplier)) = rhythm (firefly_offset o) t * 64 mod 65536).
    { unfold firefly_time. rewrite i8_phase. unfold rhythm, lag. change kPeriodMs with 20000.
      change (kBlinkPeriod / 4) with 256. change kSinMultiplier with 64.
      assert (PS : u32 (t - u32 (t / 20000 * 20000)) = t mod 20000).
      { unfold u32. lia. }
      rewrite PS. rewrite (u32_id (20000 - t mod 20000)) by lia.
      assert (B1 : 0 <= firefly_offset o * (20000 - t mod 20000) <= 512 * 20000) by nia.
      assert (B2 : 0 <= firefly_offset o * (t mod 20000) <= 512 * 20000) by nia.
      rewrite (u32_id (firefly_offset o * (20000 - t mod 20000))), (u32_id (firefly_offset o * (t mod 20000))) by lia.
      set (x := firefly_offset o * (20000 - t mod 20000) / 20000) in *. set (y := firefly_offset o * (t mod 20000) / 20000) in *.
      clearbody x y. clear B1 B2 PS E GP. unfold u16, u32.
      destruct (phase t =? 0); [destruct (firefly_offset o <? 256); lia|].
      destruct (phase t =? 1); [destruct (firefly_offset o <? 256); lia|].
      destruct (firefly_offset o <? 256); lia. }
    rewrite R. unfold blink. set (x := rhythm (firefly_offset o) t * 64 mod 65536).
    assert (X : 0 <= x < 65536) by (subst x; lia). pose proof (ok_sin16 _ OK x X) as S.
    replace (if fl_sin16 fl x <? 0 then 0 else fl_sin16 fl x) with (Z.max 0 (fl_sin16 fl x))
      by (destruct (fl_sin16 fl x <? 0) eqn:Q; lia).
    rewrite u8_id; lia. }
  unfold current_pixel. destruct (current_selected pl o p i k n A Se) as [-> _]. cbn [obind].
  destruct C as [->| ->]; exact FF.
Qed.
Print Assumptions C61_offset_fades_in_and_out.

Example C61_example :
  asks_for Host (effect_pkt 50 5 1 7) 5 7 /\ selects Host 5 5 /\ phase 25000 = 1 /\ phase 70000 = 0 /\
  lag 200 60000 = 200 /\ lag 200 70000 = 100 /\ lag 200 79999 = 0 /\ lag 200 119999 = 199 /\
  rhythm 200 70000 = 69900 /\ rhythm 400 70000 = 70200.
Proof.
  split; [apply effect_pkt_asks; unfold is_byte; lia|]. split; [split; [reflexivity|lia]|]. vm_compute. auto 10.
Qed.

(** ** C62: spark *)

Lemma i16_id x : -32768 <= x < 32768 -> i16 x = x.
Proof. intros H. unfold i16. cbv zeta. destruct (x mod 65536 <? 32768) eqn:E; lia. Qed.

(** On a mirrored strip positions count from the nearer end. *)
Definition virtual_position (s : strip) (j : Z) : Z :=
  if FlagEnabled s Mirrored then Z.min j (led_count s - 1 - j) else j.
Definition virtual_count (s : strip) : Z :=
  if FlagEnabled s Mirrored then (led_count s + 1) / 2 else led_count s.

Lemma mirror_eval s j : wf_strip s -> 0 <= j < led_count s ->
  maybe_mirror s j = Ok (virtual_position s j, virtual_count s) /\
  0 <= virtual_position s j < virtual_count s /\ 0 < virtual_count s <= led_count s.
Proof.
  intros [C _] J. unfold maybe_mirror, virtual_position, virtual_count. destruct (FlagEnabled s Mirrored).
  - rewrite C43_mirror_is_distance_to_nearer_end by lia. split; [reflexivity|]. lia.
  - split; [reflexivity|]. lia.
Qed.

(** Brightness [d] positions behind the head: eight lit positions.  On the way
    back the tail is turned round. *)
Definition tail (back : bool) (d : Z) : Z :=
  if (0 <=? d) && (d <? 8) then
    nth (Z.to_nat (if back then 7 - d else d)) [255; 255; 128; 96; 48; 32; 24; 16] 0
  else 0.

Lemma tail_byte back d : is_byte (tail back d).
Proof.
  unfold tail, is_byte. destruct ((0 <=? d) && (d <? 8)) eqn:E; [|lia].
  set (l := [255; 255; 128; 96; 48; 32; 24; 16]).
  assert (Ind : (Z.to_nat (if back then 7 - d else d) < length l)%nat) by (cbn [length l]; destruct back; lia).
  apply (nth_In l 0) in Ind. cbn [In l] in Ind. lia.
Qed.

(** The head at time [t] on a strip of [c] virtual positions: it runs from 0 to
    c + 8 and back, c + 8 positions in 3 s.  The product of time and length is
    taken modulo 2^32. *)
Definition head (c t : Z) : Z * bool :=
  let l := c + 8 in
  let m := (t * l mod 4294967296) / 3000 mod (2 * l) in
  if l <? m then (2 * l - m, true) else (m, false).

Theorem C62_spark_tail : forall pl fl o p i k n s j t,
  fl_ok fl -> asks_for pl p i k -> k < number_of_palettes -> selects pl i n -> 19 <= n <= 22 ->
  wf_strip s -> 0 <= j < led_count s -> FlagEnabled s Circular = false ->
  exists h sa, is_byte h /\ is_byte sa /\
    current_pixel pl fl (built (builtin o)) p s j t =
      Ok (fl_hsv2rgb fl (mkHSV h sa
        (tail (snd (head (virtual_count s) t)) (fst (head (virtual_count s) t) - virtual_position s j)))).
Proof.
  intros pl fl o p i k n s j t OK A K Se N W J F.
  destruct (packet_palette_eval pl p i k A K) as [PP G]. pose proof G as (Nn & Cn & Fw).
  destruct (mirror_eval s j W J) as (ME & V1 & V2). pose proof W as [WC _].
  set (c := virtual_count s) in *. set (x := virtual_position s j) in *.
  assert (E : exists h sa, is_byte h /\ is_byte sa /\ Spark_GetRGB pl fl j t s p =
     Ok (fl_hsv2rgb fl (mkHSV h sa (tail (snd (head c t)) (fst (head c t) - x))))).
  { unfold Spark_GetRGB. rewrite PP. cbn [obind]. rewrite ME. cbn [obind]. rewrite F.
    unfold spark_position. change (u8 (Z.of_nat (length brightnesses))) with 8. cbv zeta.
    unfold umod. destruct ((c + 8) * 2 =? 0) eqn:E0; [lia|]. cbn [obind].
    assert (M : u32 (t * (c + 8)) / 3000 mod ((c + 8) * 2) = t * (c + 8) mod 4294967296 / 3000 mod (2 * (c + 8))).
    { unfold u32. rewrite (Z.mul_comm (c + 8) 2). reflexivity. }
    rewrite M. unfold head. cbv zeta.
    set (m := t * (c + 8) mod 4294967296 / 3000 mod (2 * (c + 8))).
    assert (B : 0 <= m < 2 * (c + 8)) by (apply Z.mod_pos_bound; lia). clearbody m. clear M.
    rewrite (i16_id m) by lia.
    assert (SB : forall d back, -512 <= d < c + 8 + 1 -> (d < 8 -> d < c + 8) -> spark_brightness d c back = Ok (tail back d)).
    { intros d back D D2. unfold spark_brightness, tail. change (u8 (Z.of_nat (length brightnesses))) with 8. change brightnesses with [255; 255; 128; 96; 48; 32; 24; 16].
      destruct (d <? 0) eqn:E1; [destruct (0 <=? d) eqn:E2; [lia|reflexivity]|].
      destruct (0 <=? d) eqn:E2; [|lia]. cbn [andb].
      destruct (d <? c + 8) eqn:E3.
      - destruct (d <? 8) eqn:E4; [|reflexivity].
        destruct back; rewrite (aget_nth _ _ 0) by (change (Z.of_nat (length [255; 255; 128; 96; 48; 32; 24; 16])) with 8; lia);
          [replace (8 - d - 1) with (7 - d) by lia|]; reflexivity.
      - destruct (d <? 8) eqn:E4; [lia|reflexivity]. }
    assert (FIN : forall d back, -512 <= d < c + 8 + 1 -> 
       exists h sa, is_byte h /\ is_byte sa /\
       (hsv <- GetGradient fl (nth (Z.to_nat k) palettes []) (u16 (u32 (Z.shiftl (u32 (t / 24 + d * 14)) 8))) true ;;
        v <- spark_brightness d c back ;; rgb_of fl (with_v hsv v)) = Ok (fl_hsv2rgb fl (mkHSV h sa (tail back d)))).
    { intros d back D.
      destruct (gradient_ok fl (nth (Z.to_nat k) palettes []) (u16 (u32 (Z.shiftl (u32 (t / 24 + d * 14)) 8))) true OK ltac:(lia) Fw (u16_range _)) as (q & -> & Wq).
      exists (hue q), (sat q). destruct Wq as (W1 & W2 & W3). split; [assumption|]. split; [assumption|]. cbn [obind].
      rewrite SB by lia. cbn [obind]. unfold rgb_of, with_v. rewrite u8_id; [reflexivity | apply tail_byte]. }
    destruct (c + 8 <? m) eqn:E1; cbn [fst snd obind].
    - replace (c + 8 - (m - (c + 8))) with (2 * (c + 8) - m) by lia. rewrite (i16_id (2 * (c + 8) - m)) by lia.
      rewrite (i16_id (2 * (c + 8) - m - x)) by lia. apply FIN. lia.
    - rewrite (i16_id (m - x)) by lia. apply FIN. lia. }
  destruct E as (h & sa & H1 & H2 & E). exists h, sa. split; [assumption|]. split; [assumption|].
  unfold current_pixel. destruct (current_selected pl o p i k n A Se) as [-> _]. cbn [obind].
  assert (Q : n = 19 \/ n = 20 \/ n = 21 \/ n = 22) by lia. destruct Q as [->|[->|[->| ->]]]; exact E.
Qed.
Print Assumptions C62_spark_tail.

(** Circular strips: the tail runs round; [h] is where it starts. *)
Theorem C62_spark_tail_circular : forall pl fl o p i k n s t,
  fl_ok fl -> asks_for pl p i k -> k < number_of_palettes -> selects pl i n -> 19 <= n <= 22 ->
  wf_strip s -> FlagEnabled s Circular = true ->
  exists start, forall j, 0 <= j < led_count s ->
  exists h sa, is_byte h /\ is_byte sa /\
    current_pixel pl fl (built (builtin o)) p s j t =
      Ok (fl_hsv2rgb fl (mkHSV h sa (tail false ((start + virtual_position s j) mod virtual_count s)))).
Proof.
  intros pl fl o p i k n s t OK A K Se N W F.
  destruct (packet_palette_eval pl p i k A K) as [PP G]. pose proof G as (Nn & Cn & Fw). pose proof W as [WC _].
  set (c := virtual_count s) in *.
  (* when start + position passes 2^32 the remainder would jump, but it cannot *)
  exists (u32 (t * c) / 3000). intros j J.
  destruct (mirror_eval s j W J) as (ME & V1 & V2). fold c in ME, V1, V2. set (x := virtual_position s j) in *.
  assert (E : exists h sa, is_byte h /\ is_byte sa /\ Spark_GetRGB pl fl j t s p =
     Ok (fl_hsv2rgb fl (mkHSV h sa (tail false ((u32 (t * c) / 3000 + x) mod c))))).
  { unfold Spark_GetRGB. rewrite PP. cbn [obind]. rewrite ME. cbn [obind]. rewrite F.
    unfold spark_position. cbv zeta. unfold umod. destruct (c =? 0) eqn:E0; [lia|]. cbn [obind].
    pose proof (u32_range (t * c)) as UR. rewrite (u32_id (u32 (t * c) / 3000 + x)) by lia.
    set (d := (u32 (t * c) / 3000 + x) mod c). assert (D : 0 <= d < c) by (apply Z.mod_pos_bound; lia). clearbody d.
    rewrite (i16_id d) by lia.
    destruct (gradient_ok fl (nth (Z.to_nat k) palettes []) (u16 (u32 (Z.shiftl (u32 (t / 24 + d * 14)) 8))) true OK ltac:(lia) Fw (u16_range _)) as (q & -> & Wq).
    exists (hue q), (sat q). destruct Wq as (W1 & W2 & W3). split; [assumption|]. split; [assumption|]. cbn [obind].
    assert (SB : spark_brightness d c false = Ok (tail false d)).
    { unfold spark_brightness, tail. change (u8 (Z.of_nat (length brightnesses))) with 8. change brightnesses with [255; 255; 128; 96; 48; 32; 24; 16].
      destruct (d <? 0) eqn:E1; [lia|]. destruct (0 <=? d) eqn:E2; [|lia]. cbn [andb].
      destruct (d <? c + 8) eqn:E3; [|lia]. destruct (d <? 8) eqn:E4; [|reflexivity].
      rewrite (aget_nth _ _ 0) by (change (Z.of_nat (length [255; 255; 128; 96; 48; 32; 24; 16])) with 8; lia). reflexivity. }
    rewrite SB. cbn [obind]. unfold rgb_of, with_v. rewrite u8_id; [reflexivity | apply tail_byte]. }
  destruct E as (h & sa & H1 & H2 & E). exists h, sa. split; [assumption|]. split; [assumption|].
  unfold current_pixel. destruct (current_selected pl o p i k n A Se) as [-> _]. cbn [obind].
  assert (Q : n = 19 \/ n = 20 \/ n = 21 \/ n = 22) by lia. destruct Q as [->|[->|[->| ->]]]; exact E.
Qed.
Print Assumptions C62_spark_tail_circular.

(** At most eight adjacent virtual positions are lit. *)
Theorem C62_at_most_eight : forall pl fl o p i k n s j1 j2 t,
  fl_ok fl -> asks_for pl p i k -> k < number_of_palettes -> selects pl i n -> 19 <= n <= 22 ->
  wf_strip s -> 0 <= j1 < led_count s -> 0 <= j2 < led_count s -> FlagEnabled s Circular = false ->
  current_pixel pl fl (built (builtin o)) p s j1 t <> Ok (mkRGB 0 0 0) ->
  current_pixel pl fl (built (builtin o)) p s j2 t <> Ok (mkRGB 0 0 0) ->
  Z.abs (virtual_position s j1 - virtual_position s j2) < 8.
Proof.
  intros pl fl o p i k n s j1 j2 t OK A K Se N W J1 J2 F.
  destruct (C62_spark_tail pl fl o p i k n s j1 t OK A K Se N W J1 F) as (h1 & s1 & B1 & B2 & ->).
  destruct (C62_spark_tail pl fl o p i k n s j2 t OK A K Se N W J2 F) as (h2 & s2 & B3 & B4 & ->).
  set (hd := fst (head (virtual_count s) t)). set (b := snd (head (virtual_count s) t)).
  assert (X : forall h sa d, is_byte h -> is_byte sa -> Ok (fl_hsv2rgb fl (mkHSV h sa (tail b d))) <> Ok (mkRGB 0 0 0) -> 0 <= d < 8).
  { intros h sa d Bh Bs Q. destruct (Z.lt_ge_cases d 0) as [L|L]; [|destruct (Z.lt_ge_cases d 8); [lia|]];
    exfalso; apply Q; f_equal; unfold tail;
    (destruct ((0 <=? d) && (d <? 8)) eqn:E; [lia|]); apply ok_hsv2rgb_off; assumption. }
  intros Q1 Q2. apply X in Q1; auto. apply X in Q2; auto. lia.
Qed.
Print Assumptions C62_at_most_eight.

(** The head moves smoothly: by at most one position per ms, except where the
    32-bit product of time and length wraps. *)
Theorem C62_head_moves_smoothly : forall c t, 0 < c < 256 -> 0 <= t -> (t + 1) * (c + 8) < 4294967296 ->
  Z.abs (fst (head c (t + 1)) - fst (head c t)) <= 1.
Proof.
  intros c t C T B. unfold head. cbv zeta.
  assert (B0 : 0 <= t * (c + 8)) by nia. assert (B1 : 0 <= (t + 1) * (c + 8)) by nia.
  assert (B2 : t * (c + 8) < 4294967296) by nia.
  rewrite (Z.mod_small ((t + 1) * (c + 8))), (Z.mod_small (t * (c + 8))) by lia.
  replace ((t + 1) * (c + 8)) with (t * (c + 8) + (c + 8)) by ring.
  set (x := t * (c + 8)) in *. clearbody x. set (l := c + 8) in *. assert (L : 8 < l < 264) by lia. clearbody l.
  assert (D : (x + l) / 3000 = x / 3000 \/ (x + l) / 3000 = x / 3000 + 1) by lia.
  destruct D as [->| ->]; [destruct (l <? x / 3000 mod (2 * l)); cbn [fst]; lia|].
  generalize (x / 3000). intros y.
  assert (E : (y + 1) mod (2 * l) = y mod (2 * l) + 1 \/ ((y + 1) mod (2 * l) = 0 /\ y mod (2 * l) = 2 * l - 1)).
  { pose proof (Z.mod_pos_bound y (2 * l) ltac:(lia)) as R.
    rewrite <- Z.add_mod_idemp_l by lia.
    destruct (Z.eq_dec (y mod (2 * l)) (2 * l - 1)) as [Q|Q].
    - right. split; [|assumption]. rewrite Q. replace (2 * l - 1 + 1) with (2 * l) by lia. apply Z.mod_same. lia.
    - left. apply Z.mod_small. lia. }
  pose proof (Z.mod_pos_bound y (2 * l) ltac:(lia)) as R.
  set (m := y mod (2 * l)) in *. clearbody m. set (m' := (y + 1) mod (2 * l)) in *. clearbody m'.
  destruct (l <? m') eqn:E1, (l <? m) eqn:E2; cbn [fst]; lia.
Qed.
Print Assumptions C62_head_moves_smoothly.

Theorem C62_head_jumps_refuted : exists c t, 0 < c < 256 /\ 0 <= t < 4294967295 /\
  Z.abs (fst (head c (t + 1)) - fst (head c t)) > 50.
Proof. exists 52, 71582788. vm_compute. repeat split; congruence. Qed.
Print Assumptions C62_head_jumps_refuted.

Example C62_example :
  asks_for Host (effect_pkt 50 19 1 7) 19 7 /\ selects Host 19 19 /\
  wf_strip (StripDescription 30 [Mirrored]) /\ FlagEnabled (StripDescription 30 [Mirrored]) Circular = false /\
  FlagEnabled (StripDescription 30 [Circular]) Circular = true /\
  head 15 1500 = (11, false) /\ head 15 4500 = (12, true) /\ tail false 0 = 255 /\ tail false 7 = 16 /\ tail true 0 = 16.
Proof.
  split; [apply effect_pkt_asks; unfold is_byte; lia|]. split; [split; [reflexivity|lia]|].
  split; [apply StripDescription_wf|]. vm_compute. auto 10.
Qed.

(** ** C63: pride *)

(** Where LED [j] is in the pattern at time [t]: the stripe (0..5) and how far
    into the stripe, in steps of which there are 8 per LED.  On tiny strips all
    LEDs are like the first and time runs twice as fast. *)
Definition pride_step (s : strip) (j t : Z) : Z :=
  (if FlagEnabled s Tiny then 2 * t mod 4294967296 / 8 else 48 * j + t / 8) mod (48 * led_count s).
Definition stripe (s : strip) (j t : Z) : Z := pride_step s j t / (8 * led_count s).
Definition into_stripe (s : strip) (j t : Z) : Z := pride_step s j t mod (8 * led_count s).
(** Length of the fade at the start of a stripe. *)
Definition fade (s : strip) : Z := if FlagEnabled s Tiny then led_count s / 2 else led_count s.
(** The colour a stripe fades in from: the stripe before; but stripe 0 starts
    from colour 3 rather than 5. *)
Definition fades_from (st : Z) : Z := if st =? 0 then 3 else st - 1.

Theorem C63_pride_stripes : forall pl fl o p i k n s j t,
  asks_for pl p i k -> selects pl i n -> n = 8 ->
  wf_strip s -> 0 <= j < led_count s -> is_time t ->
  0 <= stripe s j t <= 5 /\
  current_pixel pl fl (built (builtin o)) p s j t =
    Ok (fl_hsv2rgb fl
      (if into_stripe s j t <? fade s
       then fl_blend fl (colour pride_palette (fades_from (stripe s j t))) (colour pride_palette (stripe s j t))
              (into_stripe s j t * 255 / fade s)
       else colour pride_palette (stripe s j t))).
Proof.
  intros pl fl o p i k n s j t A Se -> [C _] J [T1 T2].
  assert (N : pride_palette <> []) by discriminate.
  assert (ST : 0 <= stripe s j t <= 5).
  { unfold stripe, pride_step. set (x := if FlagEnabled s Tiny then _ else _). clearbody x.
    set (c := led_count s) in *. clearbody c. pose proof (Z.mod_pos_bound x (48 * c) ltac:(lia)) as R.
    split; [apply Z.div_pos; lia|]. assert (x mod (48 * c) / (8 * c) < 6); [|lia]. apply Z.div_lt_upper_bound; lia. }
  split; [exact ST|].
  assert (E : Pride_GetRGB fl j t s = Ok (fl_hsv2rgb fl
      (if into_stripe s j t <? fade s
       then fl_blend fl (colour pride_palette (fades_from (stripe s j t))) (colour pride_palette (stripe s j t))
              (into_stripe s j t * 255 / fade s)
       else colour pride_palette (stripe s j t)))).
  { unfold Pride_GetRGB. change (Size pride_palette) with 6. change depth_multiplier with 8. change fade_fract with 8. cbv zeta.
    set (c := led_count s) in *.
    rewrite (u16_id (c * 8)) by lia. rewrite Z.div_mul by lia. rewrite (u16_id c) by lia.
    assert (V : u32 ((if FlagEnabled s Tiny then 0 else j) * 8 * 6 + (if FlagEnabled s Tiny then u32 (t * 2) else t) / 8) mod (c * 8 * 6) =
                pride_step s j t).
    { unfold pride_step. replace (c * 8 * 6) with (48 * led_count s) by (fold c; lia). destruct (FlagEnabled s Tiny).
      - rewrite u32_id; [|unfold u32; lia]. f_equal. unfold u32. rewrite (Z.mul_comm t 2). lia.
      - rewrite u32_id by lia. f_equal. lia. }
    unfold umod at 1. destruct (c * 8 * 6 =? 0) eqn:E0; [lia|]. cbn [obind]. rewrite V. clear V.
    assert (PS : 0 <= pride_step s j t < 48 * c) by (unfold pride_step; fold c; apply Z.mod_pos_bound; lia).
    rewrite (u16_id (pride_step s j t)) by lia.
    unfold udiv at 1. destruct (c * 8 =? 0) eqn:E1; [lia|]. cbn [obind].
    unfold umod at 1. change (6 =? 0) with false. cbn [obind].
    replace (pride_step s j t / (c * 8)) with (stripe s j t) by (unfold stripe; fold c; f_equal; lia).
    rewrite (Z.mod_small (stripe s j t) 6) by lia. rewrite (u8_id (stripe s j t)) by lia.
    unfold umod at 1. rewrite E1. cbn [obind].
    replace (pride_step s j t mod (c * 8)) with (into_stripe s j t) by (unfold into_stripe; fold c; f_equal; lia).
    assert (IS : 0 <= into_stripe s j t < 8 * c) by (unfold into_stripe; fold c; apply Z.mod_pos_bound; lia).
    replace (if FlagEnabled s Tiny then c / 2 else c) with (fade s) by reflexivity.
    assert (FD : 0 <= fade s <= c) by (unfold fade; fold c; destruct (FlagEnabled s Tiny); lia).
    rewrite !GetColor_eval by exact N. cbn [obind].
    destruct (into_stripe s j t <? fade s) eqn:E2; [|reflexivity].
    unfold udiv. destruct (fade s =? 0) eqn:E3; [lia|]. cbn [obind].
    unfold rgb_of. f_equal. f_equal.
    rewrite (u8_id (into_stripe s j t * 255 / fade s)).
    - f_equal. unfold fades_from. destruct (stripe s j t =? 0) eqn:E4.
      + replace (stripe s j t) with 0 by lia. reflexivity.
      + rewrite u8_id by lia. reflexivity.
    - split; [apply Z.div_pos; nia|]. apply Z.div_lt_upper_bound; nia. }
  unfold current_pixel. destruct (current_selected pl o p i k 8 A Se) as [-> _]. exact E.
Qed.
Print Assumptions C63_pride_stripes.

(** So the pattern does not fade smoothly from the last stripe to the first:
    the LED just before the border shows colour 5, the one just after almost
    colour 3. *)
Theorem C63_smooth_at_the_seam_refuted :
  exists s j t, wf_strip s /\ 0 <= j < led_count s /\ is_time t /\
    stripe s j t = 5 /\ stripe s j (t + 8) = 0 /\ into_stripe s j (t + 8) = 0 /\
    fades_from (stripe s j (t + 8)) <> 5 /\
    Pride_GetRGB fl_ref j t s = Ok (ref_hsv2rgb (colour pride_palette 5)) /\
    Pride_GetRGB fl_ref j (t + 8) s = Ok (ref_hsv2rgb (colour pride_palette 3)).
Proof.
  exists (StripDescription 10 []), 0, 3832.
  split; [apply StripDescription_wf|]. unfold is_time. vm_compute. repeat split; congruence.
Qed.
Print Assumptions C63_smooth_at_the_seam_refuted.
Example C63_example :
  asks_for Arduino (effect_pkt 50 8 1 0) 8 0 /\ selects Arduino 8 8 /\
  let s := StripDescription 10 [] in
  stripe s 3 0 = 1 /\ into_stripe s 3 0 = 64 /\ stripe s 3 160 = 2 /\ into_stripe s 3 160 = 4.
Proof.
  split; [apply effect_pkt_asks; unfold is_byte; lia|]. split; [split; [reflexivity|discriminate]|].
  vm_compute. auto.
Qed.

(** ** C69: animations repeat *)

(** Period in ms of an effect number; 0 means no short period is claimed. *)
Definition repeats_after (n : Z) : Z :=
  if (0 <=? n) && (n <=? 3) then 4096        (* colour cycle, contrast bumps *)
  else if (9 <=? n) && (n <=? 12) then 20480 (* rainbow bumps *)
  else if (13 <=? n) && (n <=? 16) then 4096 (* rainbow *)
  else if (23 <=? n) && (n <=? 27) then 5000 (* swinging lights *)
  else if n =? 28 then 16384                 (* stop light *)
  else 0.

Lemma shl8 x : Z.shiftl x 8 = x * 256.
Proof. rewrite Z.shiftl_mul_pow2 by lia. reflexivity. Qed.
Lemma i16_mod x y : x mod 65536 = y mod 65536 -> i16 x = i16 y.
Proof. intros E. unfold i16. cbv zeta. rewrite E. reflexivity. Qed.
Lemma land7 x y m : 0 <= m < 8 -> x mod 8 = y mod 8 -> Z.land x m = Z.land y m.
Proof.
  intros M E.
  assert (H : forall z, Z.land z m = Z.land (z mod 8) m).
  { intros z. change 8 with (2 ^ 3). rewrite <- Z.land_ones by lia. rewrite <- Z.land_assoc. f_equal.
    change (Z.ones 3) with 7. assert (C : m = 0 \/ m = 1 \/ m = 2 \/ m = 3 \/ m = 4 \/ m = 5 \/ m = 6 \/ m = 7) by lia.
    destruct C as [->|[->|[->|[->|[->|[->|[->| ->]]]]]]]; reflexivity. }
  rewrite H, (H y), E. reflexivity.
Qed.

Lemma same_ColorCycle pl fl j t t' s p : t / 16 mod 256 = t' / 16 mod 256 ->
  ColorCycle_GetRGB pl fl j t s p = ColorCycle_GetRGB pl fl j t' s p.
Proof.
  intros E. unfold ColorCycle_GetRGB. rewrite !shl8.
  replace (u8 (t' / 16)) with (u8 (t / 16)) by exact E.
  replace (u16 (u32 (t' / 16 * 256))) with (u16 (u32 (t / 16 * 256))) by (unfold u16, u32; lia). reflexivity.
Qed.
Lemma same_Rainbow pl fl j t t' s p : t / 16 mod 256 = t' / 16 mod 256 ->
  Rainbow_GetRGB pl fl j t s p = Rainbow_GetRGB pl fl j t' s p.
Proof.
  intros E. unfold Rainbow_GetRGB. rewrite !shl8.
  replace (u8 (t' / 16)) with (u8 (t / 16)) by exact E.
  replace (u8 (u32 (t' / 16 + j * 8))) with (u8 (u32 (t / 16 + j * 8))) by (unfold u8, u32; lia).
  replace (u16 (u32 (t' / 16 * 256))) with (u16 (u32 (t / 16 * 256))) by (unfold u16, u32; lia).
  replace (u16 (u32 (u32 (t' / 16 + j * 8) * 256))) with (u16 (u32 (u32 (t / 16 + j * 8) * 256))) by (unfold u16, u32; lia).
  reflexivity.
Qed.
Lemma same_ContrastBumps pl fl j t t' s p : t mod 4096 = t' mod 4096 ->
  ContrastBumps_GetRGB pl fl j t s p = ContrastBumps_GetRGB pl fl j t' s p.
Proof.
  intros E. unfold ContrastBumps_GetRGB.
  destruct (packet_palette pl p) as [q| |]; cbn [obind]; try reflexivity.
  destruct (maybe_mirror s j) as [[x c]| |]; cbn [obind]; try reflexivity.
  destruct (if FlagEnabled s Circular then _ else _) as [off| |]; cbn [obind]; try reflexivity.
  cbv zeta. rewrite !shl8.
  replace (i16 (u32 (u32 (- u32 (t' / 16 + u8 off)) * 256))) with (i16 (u32 (u32 (- u32 (t / 16 + u8 off)) * 256)))
    by (apply i16_mod; unfold u32; lia).
  replace (u16 (u32 (t' * 16))) with (u16 (u32 (t * 16))) by (unfold u16, u32; lia). reflexivity.
Qed.
Lemma same_RainbowBumps pl fl j t t' s p : t / 16 mod 256 = t' / 16 mod 256 -> t / 10 mod 256 = t' / 10 mod 256 ->
  RainbowBumps_GetRGB pl fl j t s p = RainbowBumps_GetRGB pl fl j t' s p.
Proof.
  intros E1 E2. unfold RainbowBumps_GetRGB.
  destruct (packet_palette pl p) as [q| |]; cbn [obind]; try reflexivity.
  destruct (maybe_mirror s j) as [[x c]| |]; cbn [obind]; try reflexivity.
  destruct (if FlagEnabled s Circular then _ else _) as [off| |]; cbn [obind]; try reflexivity.
  cbv zeta. rewrite !shl8.
  replace (i16 (u32 (u32 (- u32 (t' / 16 - u8 off * 3)) * 256))) with (i16 (u32 (u32 (- u32 (t / 16 - u8 off * 3)) * 256)))
    by (apply i16_mod; unfold u32; lia).
  replace (u16 (u32 (u32 (t' / 10 + u8 off) * 256))) with (u16 (u32 (u32 (t / 10 + u8 off) * 256))) by (unfold u16, u32; lia). reflexivity.
Qed.
Lemma same_Swinging pl fl j t t' s p : t mod 5000 = t' mod 5000 ->
  Swinging_GetRGB pl fl j t s p = Swinging_GetRGB pl fl j t' s p.
Proof. intros E. unfold Swinging_GetRGB, kPeriod. rewrite E. reflexivity. Qed.
Lemma same_StopLight fl j t t' s : t mod 16384 = t' mod 16384 ->
  StopLight_GetRGB fl j t s = StopLight_GetRGB fl j t' s.
Proof.
  intros E. unfold StopLight_GetRGB. cbv zeta.
  assert (S : forall x, Z.shiftr x 11 = x / 2048) by (intros; rewrite Z.shiftr_div_pow2 by lia; reflexivity).
  rewrite (S t), (S t'). rewrite (land7 (t / 2048) (t' / 2048) 4), (land7 (t / 2048) (t' / 2048) 3) by lia. reflexivity.
Qed.

Theorem C69_animations_repeat : forall pl fl o p i k n s j t,
  asks_for pl p i k -> selects pl i n -> 0 < repeats_after n ->
  0 <= t -> t + repeats_after n < 4294967296 ->
  current_pixel pl fl (built (builtin o)) p s j (t + repeats_after n) = current_pixel pl fl (built (builtin o)) p s j t.
Proof.
  intros pl fl o p i k n s j t A Se R T B. unfold current_pixel. destruct (current_selected pl o p i k n A Se) as [-> N]. cbn [obind]. clear Se B.
  revert n N R. apply (below35 (fun n => 0 < repeats_after n ->
    GetRGB pl fl (effect_number o n) j (t + repeats_after n) s p = GetRGB pl fl (effect_number o n) j t s p)).
  repeat (apply Forall_cons; [|]); try apply Forall_nil; intros R; try (vm_compute in R; discriminate R);
    match goal with |- context [repeats_after ?m] =>
      let v := eval vm_compute in (repeats_after m) in change (repeats_after m) with v end;
    unfold GetRGB, effect_number; cbn [Z.of_nat Z.to_nat Pos.to_nat Pos.iter_op Nat.add nth app];
  first [ apply same_ColorCycle; lia | apply same_ContrastBumps; lia | apply same_RainbowBumps; lia
        | apply same_Rainbow; lia | apply same_Swinging; lia | apply same_StopLight; lia ].
Qed.
Print Assumptions C69_animations_repeat.

(** Those with a power of two for a period also run on smoothly when the 32-bit
    network time wraps. *)
Theorem C69_no_seam_when_time_wraps : forall pl fl o p i k n s j t,
  asks_for pl p i k -> selects pl i n -> repeats_after n = 4096 \/ repeats_after n = 16384 ->
  0 <= t ->
  current_pixel pl fl (built (builtin o)) p s j (u32 t) = current_pixel pl fl (built (builtin o)) p s j t.
Proof.
  intros pl fl o p i k n s j t A Se R T. unfold current_pixel. destruct (current_selected pl o p i k n A Se) as [-> N]. cbn [obind]. clear Se.
  revert n N R. apply (below35 (fun n => repeats_after n = 4096 \/ repeats_after n = 16384 ->
    GetRGB pl fl (effect_number o n) j (u32 t) s p = GetRGB pl fl (effect_number o n) j t s p)).
  repeat (apply Forall_cons; [|]); try apply Forall_nil; intros R;
    try (vm_compute in R; destruct R as [R|R]; discriminate R); clear R;
    unfold GetRGB, effect_number; cbn [Z.of_nat Z.to_nat Pos.to_nat Pos.iter_op Nat.add nth app]; unfold u32;
  first [ apply same_ColorCycle; lia | apply same_ContrastBumps; lia
        | apply same_Rainbow; lia | apply same_StopLight; lia ].
Qed.
Print Assumptions C69_no_seam_when_time_wraps.

(** The swinging lights do jump then. *)
Theorem C69_swinging_lights_jump_refuted : exists p s j t,
  asks_for Arduino p 23 0 /\ wf_strip s /\ 0 <= j < led_count s /\ 4294967296 <= t < 4294967296 + 5000 /\
  current_pixel Arduino fl_ref (built (builtin (mkOffsets 0 0 0))) p s j (u32 t) <>
  current_pixel Arduino fl_ref (built (builtin (mkOffsets 0 0 0))) p s j t.
Proof.
  exists (effect_pkt 50 23 1 0), (StripDescription 30 []), 15, 4294967296.
  split; [apply effect_pkt_asks; unfold is_byte; lia|]. split; [apply StripDescription_wf|].
  split; [vm_compute; split; congruence|]. split; [lia|]. vm_compute. discriminate.
Qed.
Print Assumptions C69_swinging_lights_jump_refuted.
Example C69_example :
  asks_for Host (effect_pkt 50 9 1 7) 9 7 /\ selects Host 9 9 /\ repeats_after 9 = 20480 /\ repeats_after 28 = 16384.
Proof.
  split; [apply effect_pkt_asks; unfold is_byte; lia|]. split; [split; [reflexivity|lia]|]. split; reflexivity.
Qed.

(** ** C70: mirrored strips are symmetric *)

(** The effects concerned: contrast bumps, rainbow bumps, spark,
    swinging lights; and fire when the strip is not circular. *)
Definition mirrors (s : strip) (n : Z) : Prop :=
  2 <= n <= 3 \/ 9 <= n <= 12 \/ 19 <= n <= 27 \/ (n = 4 /\ FlagEnabled s Circular = false).

Theorem C70_mirrored_strips_are_symmetric : forall pl fl o p i k n s j t,
  asks_for pl p i k -> selects pl i n -> mirrors s n ->
  wf_strip s -> FlagEnabled s Mirrored = true -> 0 <= j < led_count s ->
  current_pixel pl fl (built (builtin o)) p s (led_count s - 1 - j) t = current_pixel pl fl (built (builtin o)) p s j t.
Proof.
  intros pl fl o p i k n s j t A Se M W F J.
  unfold current_pixel. destruct (current_selected pl o p i k n A Se) as [-> N]. cbn [obind]. clear Se.
  assert (MM : maybe_mirror s (led_count s - 1 - j) = maybe_mirror s j).
  { destruct (mirror_eval s j W J) as [-> _]. destruct (mirror_eval s (led_count s - 1 - j) W ltac:(lia)) as [-> _].
    unfold virtual_position. rewrite F. f_equal. f_equal. lia. }
  revert n N M. apply (below35 (fun n => mirrors s n ->
    GetRGB pl fl (effect_number o n) (led_count s - 1 - j) t s p = GetRGB pl fl (effect_number o n) j t s p)).
  unfold mirrors.
  repeat (apply Forall_cons; [|]); try apply Forall_nil; intros M; try (exfalso; lia);
    unfold GetRGB, effect_number; cbn [Z.of_nat Z.to_nat Pos.to_nat Pos.iter_op Nat.add nth app];
  first [ unfold ContrastBumps_GetRGB; rewrite MM; reflexivity
        | unfold RainbowBumps_GetRGB; rewrite MM; reflexivity
        | unfold Spark_GetRGB; rewrite MM; reflexivity
        | unfold Swinging_GetRGB; rewrite MM; reflexivity
        | idtac ].
  assert (C : FlagEnabled s Circular = false) by (destruct M as [M|[M|[M|[_ M]]]]; [lia|lia|lia|exact M]).
  unfold Fire_GetRGB. rewrite MM, C. destruct (maybe_mirror s j) as [[x c]| |]; reflexivity.
Qed.
Print Assumptions C70_mirrored_strips_are_symmetric.

(** Circular mirrored strips burn differently on the two sides. *)
Theorem C70_circular_fire_is_not_refuted : exists p s j t,
  asks_for Arduino p 4 0 /\ wf_strip s /\ FlagEnabled s Mirrored = true /\ 0 <= j < led_count s /\ is_time t /\
  current_pixel Arduino fl_ref (built (builtin (mkOffsets 0 0 0))) p s (led_count s - 1 - j) t <>
  current_pixel Arduino fl_ref (built (builtin (mkOffsets 0 0 0))) p s j t.
Proof.
  exists (effect_pkt 50 4 1 0), (StripDescription 30 [Mirrored; Circular]), 5, 100.
  split; [apply effect_pkt_asks; unfold is_byte; lia|]. split; [apply StripDescription_wf|].
  split; [reflexivity|]. split; [vm_compute; split; congruence|]. split; [unfold is_time; lia|]. vm_compute. discriminate.
Qed.
Print Assumptions C70_circular_fire_is_not_refuted.

(** ** C71: rorschach is symmetric about the middle of every strip *)
Theorem C71_rorschach_symmetric : forall pl fl o p i k n s d t,
  asks_for pl p i k -> selects pl i n -> n = 17 \/ n = 18 ->
  let middle := led_count s / 2 in
  current_pixel pl fl (built (builtin o)) p s (middle - d) t = current_pixel pl fl (built (builtin o)) p s (middle + d) t.
Proof.
  intros pl fl o p i k n s d t A Se C. cbv zeta.
  unfold current_pixel. destruct (current_selected pl o p i k n A Se) as [-> N]. cbn [obind]. clear Se N.
  assert (E : Rorschach_GetRGB pl fl (rorschach_offset o) (led_count s / 2 - d) t s p =
              Rorschach_GetRGB pl fl (rorschach_offset o) (led_count s / 2 + d) t s p).
  { unfold Rorschach_GetRGB. rewrite Z.shiftr_div_pow2 by lia. change (2 ^ 1) with 2.
    replace (Z.abs (led_count s / 2 - d - led_count s / 2)) with (Z.abs (led_count s / 2 + d - led_count s / 2)) by lia.
    reflexivity. }
  destruct C as [->| ->]; exact E.
Qed.
Print Assumptions C71_rorschach_symmetric.
Example C71_example : asks_for Host (effect_pkt 50 17 1 9) 17 9 /\ selects Host 17 17 /\ asks_for Host (effect_pkt 50 2 1 9) 2 9 /\
  mirrors (StripDescription 30 [Mirrored]) 2 /\ FlagEnabled (StripDescription 30 [Mirrored]) Mirrored = true.
Proof.
  split; [apply effect_pkt_asks; unfold is_byte; lia|]. split; [split; [reflexivity|lia]|].
  split; [apply effect_pkt_asks; unfold is_byte; lia|]. split; [left; lia|reflexivity].
Qed.

(** ** C72: stop light *)

Inductive signal := GoGreen | Amber | StopRed.
(** The sequence: green for 8192 ms, amber for 2048 ms, red for 6144 ms. *)
Definition signal_at (t : Z) : signal :=
  let x := t mod 16384 in
  if 8192 <=? x then GoGreen else if x <? 2048 then Amber else StopRed.
Definition signal_colour (g : signal) : chsv :=
  match g with GoGreen => mkHSV 102 255 255 | Amber => mkHSV 32 255 255 | StopRed => mkHSV 0 255 255 end.

Lemma stop_bits t : 0 <= t ->
  let x := Z.shiftr t 11 in
  (Z.land x 4 =? 0) = (t mod 16384 <? 8192) /\ ((Z.land x 4 =? 0) && (0 <? Z.land x 3) = (t mod 16384 <? 8192) && negb (t mod 16384 <? 2048)) /\
  ((Z.land x 4 =? 0) && (Z.land x 3 =? 0) = (t mod 16384 <? 2048)).
Proof.
  intros T. cbv zeta. rewrite Z.shiftr_div_pow2 by lia. change (2 ^ 11) with 2048.
  set (y := t / 2048 mod 8).
  assert (Y : y = 0 \/ y = 1 \/ y = 2 \/ y = 3 \/ y = 4 \/ y = 5 \/ y = 6 \/ y = 7) by (subst y; lia).
  rewrite (land7 (t / 2048) y 4), (land7 (t / 2048) y 3) by (subst y; lia).
  assert (M : y * 2048 <= t mod 16384 < y * 2048 + 2048) by (subst y; lia).
  generalize dependent (t mod 16384). clear T. clearbody y. intros z M.
  destruct Y as [->|[->|[->|[->|[->|[->|[->| ->]]]]]]];
  repeat match goal with |- context [Z.land ?a ?b] => let v := eval vm_compute in (Z.land a b) in change (Z.land a b) with v end; lia.
Qed.

Theorem C72_stop_light_sequence : forall pl fl o p i k s j t,
  asks_for pl p i k -> selects pl i 28 -> 0 <= t -> FlagEnabled s Tiny = true ->
  current_pixel pl fl (built (builtin o)) p s j t = Ok (fl_hsv2rgb fl (signal_colour (signal_at t))).
Proof.
  intros pl fl o p i k s j t A Se T F.
  unfold current_pixel. destruct (current_selected pl o p i k 28 A Se) as [-> _]. cbn [obind].
  change (GetRGB pl fl (effect_number o 28) j t s p) with (StopLight_GetRGB fl j t s).
  unfold StopLight_GetRGB. cbv zeta. rewrite F. destruct (stop_bits t T) as (B1 & B2 & B3). cbv zeta in *. rewrite B2, B3.
  unfold signal_at, signal_colour. cbv zeta. unfold rgb_of. f_equal. f_equal.
  destruct (t mod 16384 <? 8192) eqn:E1, (t mod 16384 <? 2048) eqn:E2, (8192 <=? t mod 16384) eqn:E3; try lia; reflexivity.
Qed.
Print Assumptions C72_stop_light_sequence.

(** On longer strips at every moment exactly one of the three lamps is bright:
    each LED belongs to one lamp or to none (dark), and is bright iff its lamp is
    on. *)
Definition lamp_of (s : strip) (j : Z) : option signal :=
  let d := 8 * Z.abs (led_count s / 2 - j) in (* eighths of the length from the middle *)
  let l := led_count s in
  if d <? l then None
  else if (l <? d) && (d <? 2 * l) then Some StopRed
  else if (2 * l <? d) && (d <? 3 * l) then Some Amber
  else if 3 * l <? d then Some GoGreen
  else None.
Definition dimmed (c : chsv) : chsv := mkHSV (hue c) (sat c) 32.
Definition same_signal (a b : signal) : bool :=
  match a, b with GoGreen, GoGreen | Amber, Amber | StopRed, StopRed => true | _, _ => false end.

Theorem C72_one_lamp_at_a_time : forall pl fl o p i k s j t,
  asks_for pl p i k -> selects pl i 28 -> 0 <= t -> wf_strip s -> 0 <= j < led_count s ->
  FlagEnabled s Tiny = false -> FlagEnabled s Controller = false ->
  current_pixel pl fl (built (builtin o)) p s j t =
    Ok (match lamp_of s j with
        | None => mkRGB 0 0 0
        | Some g => fl_hsv2rgb fl (if same_signal g (signal_at t) then signal_colour g else dimmed (signal_colour g))
        end).
Proof.
  intros pl fl o p i k s j t A Se T [C _] J F1 F2.
  unfold current_pixel. destruct (current_selected pl o p i k 28 A Se) as [-> _]. cbn [obind].
  change (GetRGB pl fl (effect_number o 28) j t s p) with (StopLight_GetRGB fl j t s).
  unfold StopLight_GetRGB. cbv zeta. rewrite F1, F2. destruct (stop_bits t T) as (B1 & B2 & B3). cbv zeta in *. rewrite B2, B3, B1.
  rewrite (Z.shiftr_div_pow2 (led_count s) 1) by lia. change (2 ^ 1) with 2.
  rewrite !Z.shiftl_mul_pow2 by lia. change (2 ^ 8) with 256. change (2 ^ (8 - 3)) with 32.
  rewrite (u16_id (led_count s * 32)) by lia. rewrite (u16_id (Z.abs (led_count s / 2 - j) * 256)) by lia.
  unfold lamp_of. cbv zeta. set (d := Z.abs (led_count s / 2 - j)). set (l := led_count s).
  replace (d * 256 <? l * 32) with (8 * d <? l) by lia.
  destruct (8 * d <? l) eqn:E1; [reflexivity|].
  replace ((l * 32 <? d * 256) && (d * 256 <? l * 32 * 2)) with ((l <? 8 * d) && (8 * d <? 2 * l)) by lia.
  assert (S : forall g, same_signal g (signal_at t) =
     match g with StopRed => (t mod 16384 <? 8192) && negb (t mod 16384 <? 2048) | Amber => t mod 16384 <? 2048
                | GoGreen => negb (t mod 16384 <? 8192) end).
  { intros g. unfold signal_at. cbv zeta.
    destruct (8192 <=? t mod 16384) eqn:Q1, (t mod 16384 <? 2048) eqn:Q2, (t mod 16384 <? 8192) eqn:Q3; try lia; destruct g; reflexivity. }
  destruct ((l <? 8 * d) && (8 * d <? 2 * l)) eqn:E2.
  { rewrite S. destruct (_ && negb _); reflexivity. }
  replace ((l * 32 * 2 <? d * 256) && (d * 256 <? l * 32 * 3)) with ((2 * l <? 8 * d) && (8 * d <? 3 * l)) by lia.
  destruct ((2 * l <? 8 * d) && (8 * d <? 3 * l)) eqn:E3.
  { rewrite S. destruct (t mod 16384 <? 2048); reflexivity. }
  replace (l * 32 * 3 <? d * 256) with (3 * l <? 8 * d) by lia.
  destruct (3 * l <? 8 * d) eqn:E4; [|reflexivity].
  rewrite S. destruct (t mod 16384 <? 8192); reflexivity.
Qed.
Print Assumptions C72_one_lamp_at_a_time.
Example C72_example :
  asks_for Host (effect_pkt 50 28 1 0) 28 0 /\ selects Host 28 28 /\
  map signal_at [0; 2047; 2048; 8191; 8192; 16383; 16384] = [Amber; Amber; StopRed; StopRed; GoGreen; GoGreen; Amber] /\
  map (lamp_of (StripDescription 20 [])) [0; 4; 6; 9; 13; 19] = [Some GoGreen; Some Amber; Some StopRed; None; Some StopRed; Some GoGreen].
Proof.
  split; [apply effect_pkt_asks; unfold is_byte; lia|]. split; [split; [reflexivity|lia]|]. split; reflexivity.
Qed.

(** ** C73: blinking *)

(** Half the value on strips that are not bright. *)
Definition by_brightness (s : strip) (c : chsv) : chsv :=
  if FlagEnabled s Bright then c else mkHSV (hue c) (sat c) (val c / 2).

Lemma by_brightness_eq s c : wf_hsv c -> (if FlagEnabled s Bright then c else with_v c (val c / 2)) = by_brightness s c.
Proof.
  intros (_ & _ & [V1 V2]). unfold by_brightness, with_v. destruct (FlagEnabled s Bright); [reflexivity|].
  rewrite u8_id by lia. reflexivity.
Qed.

(** Lit one third of the time, all LEDs alike, in a colour of the palette's
    gradient; dark for two thirds. *)
Theorem C73_blink_one_third : forall pl fl o p i k n t, fl_ok fl ->
  asks_for pl p i k -> k < number_of_palettes -> selects pl i n -> 29 <= n <= 32 -> is_time t ->
  exists c, GetGradient fl (nth (Z.to_nat k) palettes []) (t / 4 * 23 mod 65536) true = Ok c /\
  forall s j, current_pixel pl fl (built (builtin o)) p s j t =
    Ok (if t mod (3 * blink_speed n) <? blink_speed n then fl_hsv2rgb fl (by_brightness s c) else mkRGB 0 0 0).
Proof.
  intros pl fl o p i k n t OK A K Se N [T1 T2].
  destruct (packet_palette_eval pl p i k A K) as [PP (Nn & Cn & Fw)].
  destruct (gradient_ok fl (nth (Z.to_nat k) palettes []) (t / 4 * 23 mod 65536) true OK ltac:(lia) Fw ltac:(lia)) as (c & G & W).
  exists c. split; [exact G|]. intros s j.
  unfold current_pixel. destruct (current_selected pl o p i k n A Se) as [-> _]. cbn [obind].
  assert (E : forall s j, GetRGB pl fl (effect_number o n) j t s p = SimpleBlink_GetRGB pl fl (blink_speed n) j t s p).
  { assert (D : n = 29 \/ n = 30 \/ n = 31 \/ n = 32) by lia. destruct D as [->|[->|[->| ->]]]; reflexivity. }
  assert (V : 0 < blink_speed n).
  { assert (D : n = 29 \/ n = 30 \/ n = 31 \/ n = 32) by lia. destruct D as [->|[->|[->| ->]]]; vm_compute; reflexivity. }
  rewrite !E. set (v := blink_speed n) in *. clearbody v.
  unfold SimpleBlink_GetRGB, udiv. destruct (v =? 0) eqn:E0; [lia|]. cbn [obind].
  assert (R : (t / v mod 3 =? 0) = (t mod (3 * v) <? v)).
  { rewrite (Z.mul_comm 3 v). rewrite Z.rem_mul_r by lia. pose proof (Z.mod_pos_bound t v V) as B1.
    pose proof (Z.mod_pos_bound (t / v) 3 ltac:(lia)) as B2. generalize dependent (t mod v). generalize dependent (t / v mod 3). intros. nia. }
  rewrite R. destruct (t mod (3 * v) <? v); [|reflexivity].
  rewrite PP. cbn [obind]. replace (u16 (u32 (t / 4 * 23))) with (t / 4 * 23 mod 65536) by (unfold u16, u32; lia).
  rewrite G. cbn [obind]. rewrite by_brightness_eq by exact W. reflexivity.
Qed.
Print Assumptions C73_blink_one_third.
Example C73_example : asks_for Host (effect_pkt 50 32 1 0) 32 0 /\ selects Host 32 32 /\ blink_speed 32 = 300 /\ 1000 mod (3 * blink_speed 32) = 100.
Proof.
  split; [apply effect_pkt_asks; unfold is_byte; lia|]. split; [split; [reflexivity|lia]|]. split; reflexivity.
Qed.

(** ** C74: showing a palette *)

(** On strips with at least as many LEDs as the palette has colours (and for
    palettes of five or more colours on all strips) the picture stands still,
    starts with the palette's first colour, and LED [j] shows the palette's
    gradient at the fraction [j] / length. *)
Theorem C74_palette_display : forall pl fl o p i k, fl_ok fl ->
  asks_for pl p i k -> k < number_of_palettes -> selects pl i 33 ->
  let pal := nth (Z.to_nat k) palettes [] in
  forall s j t, wf_strip s -> 0 <= j < led_count s -> count pal <= led_count s \/ 5 <= count pal ->
  exists c, GetGradient fl pal (j * 65536 / led_count s) true = Ok c /\
    current_pixel pl fl (built (builtin o)) p s j t = Ok (fl_hsv2rgb fl (by_brightness s c)) /\
    (j = 0 -> c = colour pal 0).
Proof.
  intros pl fl o p i k OK A K Se pal s j t [WC _] J Q.
  destruct (packet_palette_eval pl p i k A K) as [PP (Nn & Cn & Fw)]. fold pal in PP, Nn, Cn, Fw.
  assert (R : 0 <= j * 65536 / led_count s < 65536).
  { split; [apply Z.div_pos; lia|]. apply Z.div_lt_upper_bound; nia. }
  destruct (gradient_ok fl pal (j * 65536 / led_count s) true OK ltac:(lia) Fw R) as (c & G & W).
  exists c. split; [exact G|]. split.
  - unfold current_pixel. destruct (current_selected pl o p i k 33 A Se) as [-> _]. cbn [obind].
    change (GetRGB pl fl (effect_number o 33) j t s p) with (DisplayColorPalette_GetRGB pl fl j t s p).
    unfold DisplayColorPalette_GetRGB. rewrite PP. cbn [obind].
    assert (SZ : Size pal = count pal) by (unfold Size, psize, count in *; rewrite u8_id; lia).
    rewrite SZ. destruct ((led_count s <? count pal) && (count pal <=? 4)) eqn:E; [lia|].
    rewrite (u32_id (j * 65536)) by lia. unfold udiv. destruct (led_count s =? 0) eqn:E1; [lia|]. cbn [obind].
    rewrite (u16_id (j * 65536 / led_count s)) by lia. rewrite G. cbn [obind]. rewrite by_brightness_eq by exact W. reflexivity.
  - intros ->. change (0 * 65536) with 0 in G. rewrite Z.div_0_l in G by lia.
    assert (C1 : 1 <= count pal) by (unfold count; destruct pal; [congruence | cbn [length]; lia]).
    destruct (Z.eq_dec (count pal) 1) as [C2|C2].
    + clearbody pal. destruct pal as [|x [|y l]]; [congruence| |unfold count in C2; cbn [length] in C2; lia].
      cbn in G. injection G as <-. reflexivity.
    + rewrite (proj1 (PropColor.C47_every_colour_shown fl pal true ltac:(split; [lia|]; split; [unfold segments; lia|assumption]))) in G.
      injection G as <-. reflexivity.
Qed.
Print Assumptions C74_palette_display.
Example C74_example :
  asks_for Host (effect_pkt 50 33 1 8) 33 8 /\ selects Host 33 33 /\ 8 < number_of_palettes /\
  count (nth (Z.to_nat 8) palettes []) = 3 /\ wf_strip (StripDescription 30 []).
Proof.
  split; [apply effect_pkt_asks; unfold is_byte; lia|]. split; [split; [reflexivity|lia]|].
  split; [reflexivity|]. split; [reflexivity|]. apply StripDescription_wf.
Qed.
