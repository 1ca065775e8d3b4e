(** C98-C102: what the rainbow, the colour cycle, the two bump effects, the
    noise effects and the swinging lights draw, and how the pictures move. *)
From Coq Require Import ZArith Lia List Bool.
From Coq Require Import ZifyBool.
From Verif Require Import CInt CIntFacts Packet NetMgr Fastled Maths Palette SpecColor PaletteFacts PropMath PropColor
  Device LedMgr SpecLed LedFacts RenderFacts Effects SpecEffect RgbFacts Show ShowFacts RsmRun PropShow PropAnim.
Import ListNotations.
Open Scope Z_scope.
Ltac Zify.zify_post_hook ::= Z.div_mod_to_equations.

(** Built-in palette number [k]. *)
Definition pal (k : Z) : palette := nth (Z.to_nat k) palettes [].

(** Colour [c] at brightness [v]. *)
Definition lit (fl : fastled) (c : chsv) (v : Z) : rgb := fl_hsv2rgb fl (mkHSV (hue c) (sat c) v).

(** [c] is the colour at [x] 256ths of the way around palette number [k]. *)
Definition around (fl : fastled) (k x : Z) (c : chsv) : Prop :=
  GetGradient fl (pal k) (x mod 256 * 256) true = Ok c.

Lemma around_ok fl k x : fl_ok fl -> good (pal k) -> exists c, around fl k x c /\ wf_hsv c.
Proof. intros OK (N & C & F). apply gradient_ok; auto; lia. Qed.
Lemma around_single fl k x c : count (pal k) = 1 -> (around fl k x c <-> c = colour (pal k) 0).
Proof.
  intros C. unfold around. destruct (pal k) as [|a [|b l]]; unfold count in C; cbn [length] in C; try lia.
  cbn. split; [intros H; injection H; auto | intros ->; reflexivity].
Qed.
Lemma size_is p : good p -> Size p = count p.
Proof. intros (N & C & F). unfold Size, psize, count in *. apply u8_id. lia. Qed.
Lemma first_colour p : good p -> GetColor p 0 = Ok (colour p 0).
Proof. intros (N & C & F). apply GetColor_eval; auto; lia. Qed.
Lemma count_pos p : good p -> 1 <= count p <= 6.
Proof. intros (N & C & F). unfold count in *. destruct p; [congruence|cbn [length] in *; lia]. Qed.
Lemma with_v_lit fl c v : is_byte v -> rgb_of fl (with_v c v) = Ok (lit fl c v).
Proof. intros B. unfold rgb_of, with_v, lit. unfold is_byte in B. rewrite u8_id by lia. reflexivity. Qed.

(** ** C98: rainbow *)

Section Rainbow.
Variables (pl : platform) (fl : fastled) (o : offsets) (p : packet) (i k n : Z).
Hypotheses (OK : fl_ok fl) (A : asks_for pl p i k) (K : k < number_of_palettes) (Se : selects pl i n)
  (N : 13 <= n <= 16).

Let pixel s j t := current_pixel pl fl (built (builtin o)) p s j t.

Lemma rainbow_is s j t : pixel s j t = Rainbow_GetRGB pl fl j t s p.
Proof using A Se N.
  unfold pixel, current_pixel. destruct (current_selected pl o p i k n A Se) as [-> _]. cbn [obind].
  assert (D : n = 13 \/ n = 14 \/ n = 15 \/ n = 16) by lia. destruct D as [->|[->|[->| ->]]]; reflexivity.
Qed.

(** Where on the palette LED [j] is at time [t], in 256ths. *)
Definition rainbow_place (s : strip) (j t : Z) : Z := if FlagEnabled s Tiny then t / 16 else t / 16 + 8 * j.

(** Brightness: steady for palettes of several colours; a one-colour palette
    makes the brightness run through FastLED's cubic wave instead. *)
Definition rainbow_brightness (fl : fastled) (s : strip) (k j t : Z) : Z :=
  if 2 <=? count (pal k) then if FlagEnabled s Bright then 255 else 128
  else if FlagEnabled s Tiny then val (colour (pal k) 0)
  else let wave := fl_cubicwave8 fl (rainbow_place s j t mod 256) in
       if FlagEnabled s Bright then wave else wave * 2 / 3.

Theorem C98_rainbow_picture : forall s j t, is_time t -> 0 <= j < 65536 ->
  exists c, around fl k (rainbow_place s j t) c /\ pixel s j t = Ok (lit fl c (rainbow_brightness fl s k j t)).
Proof using OK A K Se N.
  intros s j t [T1 T2] J. rewrite rainbow_is. destruct (packet_palette_eval pl p i k A K) as [PP G]. fold (pal k) in PP, G.
  destruct (around_ok fl k (rainbow_place s j t) OK G) as (c & Ar & W). exists c. split; [exact Ar|].
  unfold Rainbow_GetRGB, rainbow_brightness. rewrite PP. cbn [obind]. rewrite (size_is _ G).
  pose proof (count_pos _ G) as CP.
  assert (E1 : u16 (u32 (Z.shiftl (t / 16) 8)) = t / 16 mod 256 * 256) by (rewrite shl8; unfold u16, u32; lia).
  assert (E2 : u16 (u32 (Z.shiftl (u32 (t / 16 + j * 8)) 8)) = (t / 16 + 8 * j) mod 256 * 256)
    by (rewrite shl8; unfold u16, u32; lia).
  assert (E3 : u8 (u32 (t / 16 + j * 8)) = (t / 16 + 8 * j) mod 256) by (unfold u8, u32; lia).
  pose proof (ok_cubicwave8 _ OK ((t / 16 + 8 * j) mod 256) ltac:(unfold is_byte; lia)) as [B1 B2].
  unfold rainbow_place in *. destruct (count (pal k) <? 2) eqn:E; destruct (2 <=? count (pal k)) eqn:E'; try lia.
  - assert (C : c = colour (pal k) 0) by (eapply around_single; [|exact Ar]; lia).
    destruct (FlagEnabled s Tiny).
    + assert (Ar' : around fl k (fl_cubicwave8 fl (u8 (t / 16))) c) by (apply around_single; [lia|exact C]).
      unfold around in Ar'.
      pose proof (ok_cubicwave8 _ OK (u8 (t / 16)) ltac:(unfold is_byte, u8; lia)) as [B3 B4].
      rewrite shl8. rewrite u16_id by lia. rewrite Z.mod_small in Ar' by lia. rewrite Ar'. cbn [obind].
      unfold rgb_of, lit. rewrite <- C. destruct c; reflexivity.
    + rewrite (first_colour _ G). cbn [obind]. rewrite E3, <- C.
      apply with_v_lit. unfold is_byte. destruct (FlagEnabled s Bright); lia.
  - unfold around in Ar. destruct (FlagEnabled s Tiny).
    + rewrite E1, Ar. cbn [obind]. apply with_v_lit. unfold is_byte. destruct (FlagEnabled s Bright); lia.
    + rewrite E2, Ar. cbn [obind]. apply with_v_lit. unfold is_byte. destruct (FlagEnabled s Bright); lia.
Qed.

(** The picture moves towards the start of the strip, one LED in 128 ms: what
    an LED shows now its predecessor shows 128 ms later. *)
Theorem C98_rainbow_moves : forall s j t, 0 <= t -> t + 128 < 4294967296 -> 0 <= j < 65535 ->
  FlagEnabled s Tiny = false ->
  pixel s (j + 1) t = pixel s j (t + 128).
Proof using A Se N.
  intros s j t T1 T2 J F. rewrite !rainbow_is. unfold Rainbow_GetRGB. rewrite F.
  replace (u8 (u32 ((t + 128) / 16 + j * 8))) with (u8 (u32 (t / 16 + (j + 1) * 8))) by (unfold u8, u32; lia).
  replace (u16 (u32 (Z.shiftl (u32 ((t + 128) / 16 + j * 8)) 8))) with (u16 (u32 (Z.shiftl (u32 (t / 16 + (j + 1) * 8)) 8)))
    by (rewrite !shl8; unfold u16, u32; lia).
  reflexivity.
Qed.

(** It repeats every 32 LEDs; on tiny strips all LEDs are alike. *)
Theorem C98_rainbow_repeats_along_the_strip : forall s j t,
  pixel s (j + 32) t = pixel s j t /\
  (FlagEnabled s Tiny = true -> forall j', pixel s j' t = pixel s j t).
Proof using A Se N.
  intros s j t. split.
  - rewrite !rainbow_is. unfold Rainbow_GetRGB.
    replace (u8 (u32 (t / 16 + (j + 32) * 8))) with (u8 (u32 (t / 16 + j * 8))) by (unfold u8, u32; lia).
    replace (u16 (u32 (Z.shiftl (u32 (t / 16 + (j + 32) * 8)) 8))) with (u16 (u32 (Z.shiftl (u32 (t / 16 + j * 8)) 8)))
      by (rewrite !shl8; unfold u16, u32; lia). reflexivity.
  - intros F j'. rewrite !rainbow_is. unfold Rainbow_GetRGB. rewrite F. reflexivity.
Qed.

(** With a one-colour palette a tiny strip stands still: the wave computed there
    is used as a position on the palette, not as a brightness. *)
Theorem C98_tiny_one_colour_stands_still : forall s j j' t t', is_time t -> is_time t' ->
  0 <= j < 65536 -> 0 <= j' < 65536 -> FlagEnabled s Tiny = true -> count (pal k) = 1 ->
  pixel s j t = pixel s j' t' /\ pixel s j t = Ok (fl_hsv2rgb fl (colour (pal k) 0)).
Proof using OK A K Se N.
  intros s j j' t t' T T' J J' F C.
  assert (H : forall j t, is_time t -> 0 <= j < 65536 -> pixel s j t = Ok (fl_hsv2rgb fl (colour (pal k) 0))).
  { intros x y Y X. destruct (C98_rainbow_picture s x y Y X) as (c & Ar & ->). unfold rainbow_brightness.
    rewrite C, F. change (2 <=? 1) with false. cbv iota. apply around_single in Ar; [|exact C]. subst c.
    unfold lit. destruct (colour (pal k) 0); reflexivity. }
  rewrite !H by assumption. auto.
Qed.
End Rainbow.
Print Assumptions C98_rainbow_picture.
Print Assumptions C98_rainbow_moves.
Print Assumptions C98_rainbow_repeats_along_the_strip.
Print Assumptions C98_tiny_one_colour_stands_still.

(** The premise of the author's wave is wrong: a tiny strip does not show it. *)
Theorem C98_tiny_wave_refuted : exists k, k < number_of_palettes /\ count (pal k) = 1 /\
  forall fl s, fl_ok fl -> FlagEnabled s Tiny = true ->
  forall t t', is_time t -> is_time t' ->
  current_pixel Arduino fl (built (builtin (mkOffsets 0 0 0))) (effect_pkt 50 13 1 k) s 0 t =
  current_pixel Arduino fl (built (builtin (mkOffsets 0 0 0))) (effect_pkt 50 13 1 k) s 0 t'.
Proof.
  exists 3. split; [reflexivity|]. split; [reflexivity|]. intros fl s OK F t t' T T'.
  eapply (C98_tiny_one_colour_stands_still Arduino fl (mkOffsets 0 0 0) (effect_pkt 50 13 1 3) 13 3 13);
    auto; try lia; try reflexivity.
  - apply effect_pkt_asks; unfold is_byte; lia.
  - split; [reflexivity|discriminate].
Qed.
Print Assumptions C98_tiny_wave_refuted.

Example C98_example :
  asks_for Arduino (effect_pkt 50 13 1 8) 13 8 /\ selects Arduino 13 13 /\ count (pal 8) = 3 /\
  let s := StripDescription 30 [] in
  rainbow_place s 3 1000 = 86 /\ rainbow_brightness fl_ref s 8 3 1000 = 128 /\
  current_pixel Arduino fl_ref (built (builtin (mkOffsets 0 0 0))) (effect_pkt 50 13 1 8) s 3 1000 = Ok (mkRGB 0 113 15) /\
  current_pixel Arduino fl_ref (built (builtin (mkOffsets 0 0 0))) (effect_pkt 50 13 1 8) s 2 1128 = Ok (mkRGB 0 113 15) /\
  current_pixel Arduino fl_ref (built (builtin (mkOffsets 0 0 0))) (effect_pkt 50 13 1 8) s 2 1000 <> Ok (mkRGB 0 113 15).
Proof.
  split; [apply effect_pkt_asks; unfold is_byte; lia|]. split; [split; [reflexivity|discriminate]|].
  vm_compute. repeat split; try reflexivity; discriminate.
Qed.

(** ** C99: colour cycle *)

(** All LEDs alike; the whole palette in 4096 ms; a one-colour palette swells
    and fades instead. *)
Theorem C99_colour_cycle_picture : forall pl fl o p i k n t, fl_ok fl ->
  asks_for pl p i k -> k < number_of_palettes -> selects pl i n -> 0 <= n <= 1 -> is_time t ->
  exists c, around fl k (t / 16) c /\
  forall s j, current_pixel pl fl (built (builtin o)) p s j t =
    Ok (lit fl c
         (if 2 <=? count (pal k) then if FlagEnabled s Bright then val c else val c / 2
          else let wave := fl_cubicwave8 fl (t / 16 mod 256) in
               if FlagEnabled s Bright then wave else wave * 2 / 3)).
Proof.
  intros pl fl o p i k n t OK A K Se N [T1 T2].
  destruct (packet_palette_eval pl p i k A K) as [PP G]. fold (pal k) in PP, G.
  destruct (around_ok fl k (t / 16) OK G) as (c & Ar & W). exists c. split; [exact Ar|]. intros s j.
  unfold current_pixel. destruct (current_selected pl o p i k n A Se) as [-> _]. cbn [obind].
  assert (E : GetRGB pl fl (effect_number o n) j t s p = ColorCycle_GetRGB pl fl j t s p)
    by (assert (D : n = 0 \/ n = 1) by lia; destruct D as [->| ->]; reflexivity).
  rewrite E. unfold ColorCycle_GetRGB. rewrite PP. cbn [obind]. rewrite (size_is _ G).
  pose proof (ok_cubicwave8 _ OK (t / 16 mod 256) ltac:(unfold is_byte; lia)) as [B1 B2].
  replace (u8 (t / 16)) with (t / 16 mod 256) by reflexivity.
  replace (u16 (u32 (Z.shiftl (t / 16) 8))) with (t / 16 mod 256 * 256) by (rewrite shl8; unfold u16, u32; lia).
  destruct (count (pal k) <? 2) eqn:E1; destruct (2 <=? count (pal k)) eqn:E2; try lia.
  - pose proof (count_pos _ G). rewrite (first_colour _ G). cbn [obind].
    apply around_single in Ar; [|lia]. rewrite <- Ar. apply with_v_lit. unfold is_byte. destruct (FlagEnabled s Bright); lia.
  - unfold around in Ar. rewrite Ar. cbn [obind]. destruct W as (W1 & W2 & W3). destruct (FlagEnabled s Bright).
    + unfold rgb_of, lit. destruct c; reflexivity.
    + apply with_v_lit. unfold is_byte in *. lia.
Qed.
Print Assumptions C99_colour_cycle_picture.
Example C99_example :
  asks_for Host (effect_pkt 50 1 1 8) 1 8 /\ selects Host 1 1 /\ 8 < number_of_palettes /\
  current_pixel Host fl_ref (built (builtin (mkOffsets 0 0 0))) (effect_pkt 50 1 1 8) (StripDescription 30 [Bright]) 3 1360 =
  current_pixel Host fl_ref (built (builtin (mkOffsets 0 0 0))) (effect_pkt 50 1 1 8) (StripDescription 7 [Bright; Mirrored]) 6 1360.
Proof.
  split; [apply effect_pkt_asks; unfold is_byte; lia|]. split; [split; [reflexivity|lia]|]. split; [reflexivity|].
  vm_compute. reflexivity.
Qed.

(** ** C100: bumps *)

(** The hump of FastLED's sine at [x] 256ths of a period: 0 in the negative
    half, up to 255 in the positive one. *)
Definition hump (fl : fastled) (x : Z) : Z := Z.max 0 (Z.quot (fl_sin16 fl (x mod 256 * 256)) 128).

Lemma hump_range fl x : fl_ok fl -> 0 <= hump fl x <= 255.
Proof.
  intros OK. unfold hump. pose proof (ok_sin16 _ OK (x mod 256 * 256) ltac:(lia)).
  pose proof (Z.quot_le_mono (fl_sin16 fl (x mod 256 * 256)) 32767 128 ltac:(lia) ltac:(lia)).
  change (Z.quot 32767 128) with 255 in *. lia.
Qed.

Lemma hump_eval fl x y : fl_ok fl -> x mod 65536 = y mod 256 * 256 -> GetThresholdSin fl (i16 x) 0 = hump fl y.
Proof.
  intros OK E. rewrite C45_no_threshold by exact OK. unfold scaled_sine, hump.
  replace (u16 (i16 x)) with (y mod 256 * 256); [reflexivity|].
  rewrite <- E. unfold u16, i16. cbv zeta. destruct (x mod 65536 <? 32768) eqn:F; lia.
Qed.
Lemma hump_period fl x y : x mod 256 = y mod 256 -> hump fl x = hump fl y.
Proof. intros E. unfold hump. rewrite E. reflexivity. Qed.

(** Offset of an LED in 256ths of a period: once around a circle, or [step] per
    LED, counted from the nearer end of a mirrored strip. *)
Definition shift (s : strip) (step j : Z) : Z :=
  if FlagEnabled s Circular then virtual_position s j * 255 / virtual_count s else step * virtual_position s j.

Lemma circle_offset x c : 0 <= x < c -> 0 <= x * 255 / c < 255.
Proof. intros H. split; [apply Z.div_pos; lia|]. apply Z.div_lt_upper_bound; nia. Qed.

Lemma shift_eval s step j (f : Z -> outcome rgb) : wf_strip s -> 0 <= j < led_count s ->
  ('(led_index, count) <- maybe_mirror s j ;;
   offset <- (if FlagEnabled s Circular then udiv (led_index * 255) count else Ok (led_index * step)) ;;
   f offset) = f (shift s step j).
Proof.
  intros W J. destruct (mirror_eval s j W J) as (-> & V & C). cbn [obind]. unfold shift.
  destruct (FlagEnabled s Circular).
  - unfold udiv. destruct (virtual_count s =? 0) eqn:E; [lia|]. reflexivity.
  - cbn [obind]. rewrite Z.mul_comm. reflexivity.
Qed.

(** Contrast bumps: a background of one colour at brightness 64 and, a quarter
    of the palette further, brighter humps running along it. *)
Theorem C100_contrast_bumps_picture : forall pl fl o p i k n t, fl_ok fl ->
  asks_for pl p i k -> k < number_of_palettes -> selects pl i n -> 2 <= n <= 3 -> is_time t ->
  exists ground bump,
    GetGradient fl (pal k) (t * 16 mod 65536) true = Ok ground /\
    GetGradient fl (pal k) ((t * 16 + 16384) mod 65536) true = Ok bump /\
  forall s j, wf_strip s -> 0 <= j < led_count s ->
    let h := hump fl (- (t / 16 + shift s 24 j)) in
    current_pixel pl fl (built (builtin o)) p s j t =
      Ok (if h =? 0 then lit fl ground 64 else lit fl bump (96 + h / 2)) /\
    96 + h / 2 <= 223.
Proof.
  intros pl fl o p i k n t OK A K Se N [T1 T2].
  destruct (packet_palette_eval pl p i k A K) as [PP G]. fold (pal k) in PP, G.
  destruct G as (Nn & Cn & Fw).
  destruct (gradient_ok fl (pal k) (t * 16 mod 65536) true OK ltac:(lia) Fw ltac:(lia)) as (c & Ec & _).
  destruct (gradient_ok fl (pal k) ((t * 16 + 16384) mod 65536) true OK ltac:(lia) Fw ltac:(lia)) as (d & Ed & _).
  exists c, d. split; [exact Ec|]. split; [exact Ed|]. intros s j W J. cbv zeta.
  pose proof (hump_range fl (- (t / 16 + shift s 24 j)) OK) as HR.
  split; [|lia].
  unfold current_pixel. destruct (current_selected pl o p i k n A Se) as [-> _]. cbn [obind].
  assert (E : GetRGB pl fl (effect_number o n) j t s p = ContrastBumps_GetRGB pl fl j t s p)
    by (assert (D : n = 2 \/ n = 3) by lia; destruct D as [->| ->]; reflexivity).
  rewrite E. unfold ContrastBumps_GetRGB. rewrite PP. cbn [obind]. cbv zeta.
  rewrite (shift_eval s 24 j) by assumption.
  rewrite (hump_eval fl _ (- (t / 16 + shift s 24 j)) OK) by (rewrite shl8; unfold u32, u8; lia).
  replace (u16 (u32 (t * 16))) with (t * 16 mod 65536) by (unfold u16, u32; lia).
  replace (u16 (t * 16 mod 65536 + 16384)) with ((t * 16 + 16384) mod 65536) by (unfold u16; lia).
  set (h := hump fl _) in *. clearbody h. destruct (h =? 0).
  - rewrite Ec. cbn [obind]. apply with_v_lit. unfold is_byte; lia.
  - rewrite Ed. cbn [obind]. unfold qadd8. replace (Z.min 255 (h / 2 + 96)) with (96 + h / 2) by lia.
    apply with_v_lit. unfold is_byte; lia.
Qed.
Print Assumptions C100_contrast_bumps_picture.

(** Rainbow bumps: the palette lies along the strip, and dark gaps run over it. *)
Theorem C100_rainbow_bumps_picture : forall pl fl o p i k n s j t, fl_ok fl ->
  asks_for pl p i k -> k < number_of_palettes -> selects pl i n -> 9 <= n <= 12 -> is_time t ->
  wf_strip s -> 0 <= j < led_count s ->
  exists c, around fl k (t / 10 + shift s 8 j) c /\
    current_pixel pl fl (built (builtin o)) p s j t =
      Ok (lit fl c (hump fl (3 * (shift s 8 j mod 256) - t / 16))).
Proof.
  intros pl fl o p i k n s j t OK A K Se N [T1 T2] W J.
  destruct (packet_palette_eval pl p i k A K) as [PP G]. fold (pal k) in PP, G.
  destruct (around_ok fl k (t / 10 + shift s 8 j) OK G) as (c & Ar & _). exists c. split; [exact Ar|]. unfold around in Ar.
  unfold current_pixel. destruct (current_selected pl o p i k n A Se) as [-> _]. cbn [obind].
  assert (E : GetRGB pl fl (effect_number o n) j t s p = RainbowBumps_GetRGB pl fl j t s p)
    by (assert (D : n = 9 \/ n = 10 \/ n = 11 \/ n = 12) by lia; destruct D as [->|[->|[->| ->]]]; reflexivity).
  rewrite E. unfold RainbowBumps_GetRGB. rewrite PP. cbn [obind]. cbv zeta.
  rewrite (shift_eval s 8 j) by assumption.
  replace (u16 (u32 (Z.shiftl (u32 (t / 10 + u8 (shift s 8 j))) 8))) with ((t / 10 + shift s 8 j) mod 256 * 256)
    by (rewrite shl8; unfold u16, u32, u8; lia).
  rewrite Ar. cbn [obind].
  rewrite (hump_eval fl _ (3 * (shift s 8 j mod 256) - t / 16) OK) by (rewrite shl8; unfold u32, u8; lia).
  apply with_v_lit. pose proof (hump_range fl (3 * (shift s 8 j mod 256) - t / 16) OK). unfold is_byte. lia.
Qed.
Print Assumptions C100_rainbow_bumps_picture.

(** How the humps move on a strip that is neither mirrored nor circular: those
    of contrast bumps towards the start, those of rainbow bumps towards the end,
    both one LED in 384 ms. *)
Theorem C100_humps_move : forall fl s j t, FlagEnabled s Circular = false -> FlagEnabled s Mirrored = false ->
  hump fl (- (t / 16 + shift s 24 (j + 1))) = hump fl (- ((t + 384) / 16 + shift s 24 j)) /\
  hump fl (3 * (shift s 8 (j + 1) mod 256) - (t + 384) / 16) = hump fl (3 * (shift s 8 j mod 256) - t / 16).
Proof.
  intros fl s j t F1 F2. unfold shift, virtual_position. rewrite F1, F2. split; apply hump_period; lia.
Qed.
Print Assumptions C100_humps_move.

(** On a mirrored strip the bumps run towards the two ends or to the middle. *)
Example C100_example :
  asks_for Host (effect_pkt 50 2 1 8) 2 8 /\ selects Host 2 2 /\
  let s := StripDescription 30 [] in let m := StripDescription 30 [Mirrored] in
  shift s 24 3 = 72 /\ shift m 24 26 = 72 /\ shift (StripDescription 30 [Circular]) 24 3 = 25 /\
  hump fl_ref (- (1000 / 16 + shift s 24 1)) = 0 /\ hump fl_ref (- (1000 / 16 + shift s 24 5)) = 246 /\
  current_pixel Host fl_ref (built (builtin (mkOffsets 0 0 0))) (effect_pkt 50 2 1 8) s 1 1000 = Ok (mkRGB 11 53 0) /\
  current_pixel Host fl_ref (built (builtin (mkOffsets 0 0 0))) (effect_pkt 50 2 1 8) s 5 1000 = Ok (mkRGB 0 116 103).
Proof.
  split; [apply effect_pkt_asks; unfold is_byte; lia|]. split; [split; [reflexivity|lia]|].
  vm_compute. auto 10.
Qed.

(** ** C101: fire, lightning, Rorschach *)

Lemma noise_byte fl x y : 0 <= perlinNoise fl x y < 256.
Proof. unfold perlinNoise. cbv zeta. apply u8_range. Qed.

Lemma fire_gradient : gradient_palette fire_palette false.
Proof.
  split; [vm_compute; discriminate|]. split; [vm_compute; discriminate|].
  unfold fire_palette. repeat (apply Forall_cons; [unfold wf_hsv, is_byte; cbn [hue sat val]; lia|]). apply Forall_nil.
Qed.

(** Fire is never anything but red to yellow, strong in colour and neither black
    nor glaring, on every strip and at every moment; the packet's palette does
    not matter. *)
Theorem C101_fire_colours : forall pl fl o p i k s j t, fl_ok fl ->
  asks_for pl p i k -> selects pl i 4 -> wf_strip s -> 0 <= j < led_count s ->
  exists c, current_pixel pl fl (built (builtin o)) p s j t = Ok (fl_hsv2rgb fl c) /\
    0 <= hue c <= 35 /\ 200 <= sat c <= 255 /\ 8 <= val c <= 192.
Proof.
  intros pl fl o p i k s j t OK A Se W J.
  unfold current_pixel. destruct (current_selected pl o p i k 4 A Se) as [-> _]. cbn [obind].
  change (GetRGB pl fl (effect_number o 4) j t s p) with (Fire_GetRGB fl (fire_offset o) j t s).
  unfold Fire_GetRGB. destruct (mirror_eval s j W J) as (-> & V & C). cbn [obind]. cbv zeta.
  assert (G : forall noise, exists c, (color <- GetGradient fl fire_palette (u16 (Z.shiftl (u8 noise) 8)) false ;; rgb_of fl color) = Ok (fl_hsv2rgb fl c) /\
    0 <= hue c <= 35 /\ 200 <= sat c <= 255 /\ 8 <= val c <= 192).
  { intros noise. pose proof (u8_range noise) as B. rewrite shl8. rewrite u16_id by lia. set (b := u8 noise) in *. clearbody b.
    destruct (C48_between_neighbours fl fire_palette false (b * 256) OK fire_gradient ltac:(lia)) as (c & -> & Wf & Bs & Bv & Bh).
    cbn [obind]. exists c. split; [reflexivity|]. unfold left_colour, right_colour in *.
    change (seglen fire_palette false) with 21845 in *.
    assert (D : b * 256 / 21845 = 0 \/ b * 256 / 21845 = 1 \/ b * 256 / 21845 = 2) by lia.
    assert (X : colour fire_palette 0 = mkHSV 0 255 8 /\ colour fire_palette 1 = mkHSV 23 249 45 /\
                colour fire_palette 2 = mkHSV 30 246 113 /\ colour fire_palette 3 = mkHSV 35 200 192) by (vm_compute; auto).
    destruct X as (X0 & X1 & X2 & X3).
    destruct D as [D|[D|D]]; rewrite D in *;
      [change (0 + 1) with 1 in * | change (1 + 1) with 2 in * | change (2 + 1) with 3 in *];
      rewrite ?X0, ?X1, ?X2, ?X3 in *; cbn [hue sat val] in *; specialize (Bh ltac:(lia)); unfold between in *; lia. }
  destruct (FlagEnabled s Circular); [|cbn [obind]; apply G].
  unfold GetPosOnCircle, udiv. destruct (virtual_count s =? 0) eqn:E; [lia|]. cbn [obind]. apply G.
Qed.
Print Assumptions C101_fire_colours.

(** Lightning: an LED is black, or it flashes with brightness above 160 in a
    colour of the palette.  Which of the two is decided by the noise at 64 units
    per LED and one unit per 6 ms. *)
Theorem C101_lightning_picture : forall pl fl o p i k s j t, fl_ok fl ->
  asks_for pl p i k -> k < number_of_palettes -> selects pl i 7 -> is_time t -> 0 <= j ->
  let noise := perlinNoise fl (64 * j) (t / 6) in
  exists c, GetGradient fl (pal k) (((noise - 160) * 512 + t) mod 65536) true = Ok c /\
  current_pixel pl fl (built (builtin o)) p s j t = Ok (if 160 <? noise then lit fl c noise else mkRGB 0 0 0).
Proof.
  intros pl fl o p i k s j t OK A K Se [T1 T2] J. cbv zeta.
  destruct (packet_palette_eval pl p i k A K) as [PP (Nn & Cn & Fw)]. fold (pal k) in PP, Nn, Cn, Fw.
  pose proof (noise_byte fl (64 * j) (t / 6)) as B.
  assert (Ej : Z.shiftl j 6 = 64 * j) by (rewrite Z.shiftl_mul_pow2 by lia; change (2 ^ 6) with 64; lia).
  unfold current_pixel. destruct (current_selected pl o p i k 7 A Se) as [-> _]. cbn [obind].
  change (GetRGB pl fl (effect_number o 7) j t s p) with (Lightning_GetRGB pl fl j t s p).
  unfold Lightning_GetRGB. rewrite PP, Ej. cbn [obind]. cbv zeta. set (noise := perlinNoise fl (64 * j) (t / 6)) in *. clearbody noise.
  replace (u16 (u32 ((noise - 160) * 512 + t))) with (((noise - 160) * 512 + t) mod 65536) by (unfold u16, u32; lia).
  destruct (gradient_ok fl (pal k) (((noise - 160) * 512 + t) mod 65536) true OK ltac:(lia) Fw ltac:(lia)) as (c & E & Wh & Ws & Wv).
  exists c. split; [exact E|]. rewrite E. cbn [obind]. destruct (160 <? noise).
  - apply with_v_lit. unfold is_byte. lia.
  - rewrite with_v_lit by (unfold is_byte; lia). unfold lit. rewrite ok_hsv2rgb_off by assumption. reflexivity.
Qed.
Print Assumptions C101_lightning_picture.

(** Rorschach: the noise at LED [j] is read as brightness of a one-colour
    palette, or as a place between the first and the last colour of a larger
    one. *)
Definition blot (fl : fastled) (s : strip) (offset j t : Z) : Z :=
  let d := Z.abs (j - led_count s / 2) in
  let time := u32 (t + offset) / 8 in
  perlinNoise fl (u32 (32 * u16 (- d) + time)) (u32 (4 * u16 (- d) + time)).

Theorem C101_rorschach_picture : forall pl fl o p i k n s j t, fl_ok fl ->
  asks_for pl p i k -> k < number_of_palettes -> selects pl i n -> 17 <= n <= 18 -> is_time t ->
  let noise := blot fl s (rorschach_offset o) j t in
  if 2 <=? count (pal k) then
    exists c, GetGradient fl (pal k) (noise * 256) false = Ok c /\
    current_pixel pl fl (built (builtin o)) p s j t =
      Ok (lit fl c (if FlagEnabled s Bright then val c else val c / 2))
  else current_pixel pl fl (built (builtin o)) p s j t = Ok (lit fl (colour (pal k) 0) noise).
Proof.
  intros pl fl o p i k n s j t OK A K Se N [T1 T2]. cbv zeta.
  destruct (packet_palette_eval pl p i k A K) as [PP G]. fold (pal k) in PP, G. pose proof G as (Nn & Cn & Fw).
  unfold current_pixel. destruct (current_selected pl o p i k n A Se) as [-> _]. cbn [obind].
  assert (E : GetRGB pl fl (effect_number o n) j t s p = Rorschach_GetRGB pl fl (rorschach_offset o) j t s p)
    by (assert (D : n = 17 \/ n = 18) by lia; destruct D as [->| ->]; reflexivity).
  rewrite E. clear E. unfold Rorschach_GetRGB. rewrite PP. cbn [obind]. cbv zeta. rewrite (size_is _ G).
  rewrite (Z.shiftr_div_pow2 (led_count s)) by lia. change (2 ^ 1) with 2.
  rewrite (Z.shiftr_div_pow2 (u32 (t + rorschach_offset o))) by lia. change (2 ^ 3) with 8.
  rewrite !Z.shiftl_mul_pow2 by lia. change (2 ^ 5) with 32. change (2 ^ 2) with 4.
  set (d := u16 (- Z.abs (j - led_count s / 2))).
  assert (Eb : perlinNoise fl (u32 (d * 32 + u32 (t + rorschach_offset o) / 8)) (u32 (u32 (t + rorschach_offset o) / 8 + d * 4)) =
               blot fl s (rorschach_offset o) j t).
  { unfold blot. cbv zeta. fold d. f_equal; f_equal; lia. }
  rewrite Eb. pose proof (noise_byte fl (u32 (d * 32 + u32 (t + rorschach_offset o) / 8)) (u32 (u32 (t + rorschach_offset o) / 8 + d * 4))) as B.
  rewrite Eb in B. set (noise := blot fl s (rorschach_offset o) j t) in *. clearbody noise.
  destruct (count (pal k) <? 2) eqn:E1; destruct (2 <=? count (pal k)) eqn:E2; try lia.
  - rewrite (first_colour _ G). cbn [obind]. unfold MAX_UINT8. destruct (255 <? noise) eqn:E3; [lia|].
    apply with_v_lit. unfold is_byte; lia.
  - destruct (gradient_ok fl (pal k) (noise * 256) false OK ltac:(lia) Fw ltac:(lia)) as (c & Ec & Wh & Ws & Wv).
    exists c. split; [exact Ec|]. change (2 ^ 8) with 256. rewrite u16_id by lia. rewrite Ec. cbn [obind].
    destruct (FlagEnabled s Bright).
    + unfold rgb_of, lit. destruct c; reflexivity.
    + apply with_v_lit. unfold is_byte in *; lia.
Qed.
Print Assumptions C101_rorschach_picture.
Example C101_example :
  asks_for Host (effect_pkt 50 7 1 8) 7 8 /\ selects Host 7 7 /\
  asks_for Host (effect_pkt 50 18 1 8) 18 8 /\ selects Host 18 18 /\
  asks_for Host (effect_pkt 50 4 1 8) 4 8 /\ selects Host 4 4 /\
  let s := StripDescription 30 [] in
  perlinNoise fl_ref (64 * 3) (1000 / 6) = 88 /\ perlinNoise fl_ref (64 * 6) (1000 / 6) = 212 /\
  blot fl_ref s 0 3 1000 = 88 /\
  current_pixel Host fl_ref (built (builtin (mkOffsets 0 0 0))) (effect_pkt 50 7 1 8) s 6 1000 = Ok (mkRGB 0 147 64) /\
  current_pixel Host fl_ref (built (builtin (mkOffsets 0 0 0))) (effect_pkt 50 18 1 8) s 3 1000 = Ok (mkRGB 28 99 0).
Proof.
  split; [apply effect_pkt_asks; unfold is_byte; lia|]. split; [split; [reflexivity|lia]|].
  split; [apply effect_pkt_asks; unfold is_byte; lia|]. split; [split; [reflexivity|lia]|].
  split; [apply effect_pkt_asks; unfold is_byte; lia|]. split; [split; [reflexivity|lia]|].
  vm_compute. auto 10.
Qed.

(** ** C102: swinging lights *)

(** As many lights as the palette has colours swing along the strip, a period of
    5 s, each a fraction of a period ahead of the one before.  The strip is a
    line of length 65535. *)
Definition light_place (fl : fastled) (colours m t : Z) : Z :=
  32767 + fl_sin16 fl ((m * 65535 / colours + t mod 5000 * 65535 / 5000) mod 65536).
Definition led_place (s : strip) (j : Z) : Z :=
  if FlagEnabled s Tiny && negb (FlagEnabled s Circular) then 0
  else virtual_position s j * 65535 / virtual_count s.

(** What light number [m] throws on LED [j]: its colour, full where the light is
    and falling off linearly to nothing a fifth of the strip away. *)
Definition glow (fl : fastled) (q : palette) (s : strip) (j t m : Z) : rgb :=
  let distance := Z.abs (light_place fl (count q) m t - led_place s j) in
  lit fl (colour q m) (Z.max 0 (13107 - distance) * val (colour q m) / 13107).

(** Light adds up, each channel stopping at 255. *)
Definition mixed (l : list rgb) : rgb :=
  let sum f := Z.min 255 (fold_right (fun c a => f c + a) 0 l) in
  mkRGB (sum red) (sum green) (sum blue).
Definition numbers (q : palette) : list Z := map Z.of_nat (seq 0 (length q)).

Lemma colour_wf q m : good q -> wf_hsv (colour q m).
Proof.
  intros (N & C & F). unfold colour. rewrite Forall_forall in F. apply F, nth_In.
  assert (0 < count q) by (unfold count; destruct q; [congruence|cbn [length]; lia]).
  pose proof (Z.mod_pos_bound m (count q) ltac:(lia)). unfold count in *. lia.
Qed.

Lemma glow_wf fl q s j t m : fl_ok fl -> good q -> wf_rgb (glow fl q s j t m).
Proof.
  intros OK G. unfold glow, lit. cbv zeta. pose proof (colour_wf q m G) as (H & S & V).
  apply ok_hsv2rgb; [exact OK|]. split; [exact H|]. split; [exact S|]. cbn [val]. unfold is_byte in *.
  set (d := Z.max 0 _). assert (0 <= d <= 13107) by (subst d; lia). clearbody d. nia.
Qed.

Lemma swing_eval fl q s j t : fl_ok fl -> good q -> 0 <= led_place s j < 65536 ->
  forall todo m acc, Z.of_nat (m + todo) <= count q -> wf_rgb acc ->
  swing_loop fl todo (Z.of_nat m) q (t mod 5000 * 65535 / 5000) (led_place s j) acc =
  Ok (mixed (acc :: map (fun m => glow fl q s j t m) (map Z.of_nat (seq m todo)))).
Proof.
  intros OK G L. pose proof (count_pos q G) as CP. induction todo as [|todo IH]; intros m acc M [(R1 & R2) [(G1 & G2) (B1 & B2)]].
  - cbn [swing_loop seq map]. unfold mixed. cbn [fold_right]. destruct acc as [r g b]. cbn [red green blue] in *.
    do 2 f_equal; lia.
  - cbn [swing_loop]. rewrite (size_is q G). unfold udiv. destruct (count q =? 0) eqn:E0; [lia|]. cbn [obind].
    unfold MAX_UINT16. rewrite (u32_id (Z.of_nat m * 65535)) by lia.
    assert (O : 0 <= Z.of_nat m * 65535 / count q < 65536) by (split; [apply Z.div_pos; lia|apply Z.div_lt_upper_bound; nia]).
    rewrite (u16_id (Z.of_nat m * 65535 / count q)) by lia.
    assert (Ep : u16 (fl_sin16 fl (u16 (Z.of_nat m * 65535 / count q + t mod 5000 * 65535 / 5000)) + 65535 / 2) =
                 light_place fl (count q) (Z.of_nat m) t).
    { unfold light_place. change (65535 / 2) with 32767.
      replace (u16 (Z.of_nat m * 65535 / count q + t mod 5000 * 65535 / 5000))
        with ((Z.of_nat m * 65535 / count q + t mod 5000 * 65535 / 5000) mod 65536) by reflexivity.
      pose proof (ok_sin16 _ OK ((Z.of_nat m * 65535 / count q + t mod 5000 * 65535 / 5000) mod 65536) ltac:(lia)).
      rewrite u16_id by lia. lia. }
    rewrite Ep.
    assert (PL : 0 <= light_place fl (count q) (Z.of_nat m) t <= 65534).
    { unfold light_place. pose proof (ok_sin16 _ OK ((Z.of_nat m * 65535 / count q + t mod 5000 * 65535 / 5000) mod 65536) ltac:(lia)). lia. }
    assert (St : (color <- (if i32 (Z.abs (light_place fl (count q) (Z.of_nat m) t - led_place s j) - SPREAD) <? 0 then
                  modifier <- GetColor q (u8 (Z.of_nat m)) ;;
                  let modifier := with_v modifier (Z.quot (- i32 (Z.abs (light_place fl (count q) (Z.of_nat m) t - led_place s j) - SPREAD) * val modifier) SPREAD) in
                  Ok (addInPlace fl modifier acc)
                else Ok acc) ;; Ok color) =
              Ok (mixed [acc; glow fl q s j t (Z.of_nat m)])).
    { pose proof (colour_wf q (Z.of_nat m) G) as (CH & CS & (CV1 & CV2)).
      pose proof (glow_wf fl q s j t (Z.of_nat m) OK G) as W. unfold glow, mixed in *. cbv zeta in *.
      set (d := Z.abs (light_place fl (count q) (Z.of_nat m) t - led_place s j)) in *.
      assert (D : 0 <= d <= 65535) by lia. clearbody d.
      unfold SPREAD. replace (i32 (d - 13107)) with (d - 13107)
        by (unfold i32; cbv zeta; destruct ((d - 13107) mod 4294967296 <? 2147483648) eqn:F; lia).
      cbn [fold_right]. destruct acc as [r g b]. cbn [red green blue] in *.
      destruct (d - 13107 <? 0) eqn:F.
      - rewrite GetColor_eval by apply G. cbn [obind]. rewrite (u8_id (Z.of_nat m)) by lia.
        replace (Z.max 0 (13107 - d)) with (- (d - 13107)) in * by lia.
        set (x := - (d - 13107)) in *. assert (X : 0 < x <= 13107) by (subst x; lia). clearbody x.
        assert (P : 0 <= x * val (colour q (Z.of_nat m))) by nia.
        rewrite Z.quot_div_nonneg by lia.
        assert (V : 0 <= x * val (colour q (Z.of_nat m)) / 13107 < 256)
          by (split; [apply Z.div_pos; lia|apply Z.div_lt_upper_bound; nia]).
        unfold with_v. rewrite u8_id by lia. unfold addInPlace, lit in *.
        destruct (fl_hsv2rgb fl _) as [r' g' b']. cbn [red green blue] in *. unfold wf_rgb, is_byte, qadd8 in *. cbn [red green blue] in *.
        do 2 f_equal; lia.
      - cbn [obind]. replace (Z.max 0 (13107 - d)) with 0 by lia. rewrite Z.mul_0_l, Z.div_0_l by lia.
        unfold lit. rewrite ok_hsv2rgb_off by assumption. cbn [red green blue]. do 2 f_equal; lia. }
    replace (Z.of_nat m + 1) with (Z.of_nat (m + 1)) by lia.
    destruct (if i32 _ <? 0 then _ else Ok acc) as [acc'| |]; cbn [obind] in *; try discriminate St.
    injection St as ->.
    pose proof (glow_wf fl q s j t (Z.of_nat m) OK G) as [(R3 & R4) [(G3 & G4) (B3 & B4)]].
    rewrite IH.
    + rewrite Nat.add_1_r. cbn [seq map]. f_equal. unfold mixed at 1 3. cbn [fold_right]. unfold mixed. cbn [fold_right red green blue].
      assert (Pos : forall f, (forall c, wf_rgb c -> 0 <= f c) -> forall l,
         0 <= fold_right (fun c a => f c + a) 0 (map (fun m => glow fl q s j t m) l)).
      { intros f Hf l. induction l as [|x l IHl]; cbn [map fold_right]; [lia|].
        pose proof (Hf _ (glow_wf fl q s j t x OK G)). lia. }
      set (l := map Z.of_nat (seq (S m) todo)).
      pose proof (Pos red ltac:(intros ? [[? ?] _]; assumption) l). pose proof (Pos green ltac:(intros ? [_ [[? ?] _]]; assumption) l).
      pose proof (Pos blue ltac:(intros ? [_ [_ [? ?]]]; assumption) l).
      f_equal; lia.
    + lia.
    + unfold mixed. cbn [fold_right]. unfold wf_rgb, is_byte. cbn [red green blue]. lia.
Qed.

Theorem C102_swinging_picture : forall pl fl o p i k n s j t, fl_ok fl ->
  asks_for pl p i k -> k < number_of_palettes -> selects pl i n -> 23 <= n <= 27 -> is_time t ->
  wf_strip s -> 0 <= j < led_count s ->
  current_pixel pl fl (built (builtin o)) p s j t = Ok (mixed (map (glow fl (pal k) s j t) (numbers (pal k)))).
Proof.
  intros pl fl o p i k n s j t OK A K Se N [T1 T2] W J.
  destruct (packet_palette_eval pl p i k A K) as [PP G]. fold (pal k) in PP, G.
  unfold current_pixel. destruct (current_selected pl o p i k n A Se) as [-> _]. cbn [obind].
  assert (E : GetRGB pl fl (effect_number o n) j t s p = Swinging_GetRGB pl fl j t s p)
    by (assert (D : n = 23 \/ n = 24 \/ n = 25 \/ n = 26 \/ n = 27) by lia; destruct D as [->|[->|[->|[->| ->]]]]; reflexivity).
  rewrite E. clear E.
  assert (F : forall f : Z -> outcome rgb,
    (' (led_index, num_leds) <-
      (if FlagEnabled s Tiny && negb (FlagEnabled s Circular) then Ok (0, 50) else maybe_mirror s j) ;;
     led_pos <- udiv (u32 (led_index * MAX_UINT16)) num_leds ;; f (u16 led_pos)) = f (led_place s j) /\
    0 <= led_place s j < 65536).
  { intros f. destruct (mirror_eval s j W J) as (-> & V & C). unfold led_place, udiv, MAX_UINT16. destruct W as [WC _].
    destruct (FlagEnabled s Tiny && negb (FlagEnabled s Circular)); cbn [obind].
    - split; [reflexivity|lia].
    - destruct (virtual_count s =? 0) eqn:E0; [lia|]. cbn [obind]. rewrite u32_id by lia.
      assert (R : 0 <= virtual_position s j * 65535 / virtual_count s < 65536)
        by (split; [apply Z.div_pos; lia|apply Z.div_lt_upper_bound; nia]).
      rewrite u16_id by lia. auto. }
  unfold Swinging_GetRGB. cbv zeta.
  destruct (F (fun led_pos => palette <- packet_palette pl p ;;
     swing_loop fl (Z.to_nat (Size palette)) 0 palette (u16 (u32 (t mod kPeriod * MAX_UINT16) / kPeriod)) led_pos (mkRGB 0 0 0))) as [F1 F2].
  rewrite F1. clear F F1. rewrite PP. cbn [obind]. rewrite (size_is _ G). unfold kPeriod, MAX_UINT16.
  replace (u16 (u32 (t mod 5000 * 65535) / 5000)) with (t mod 5000 * 65535 / 5000) by (unfold u16, u32; lia).
  pose proof (swing_eval fl (pal k) s j t OK G F2 (length (pal k)) 0 (mkRGB 0 0 0)) as Sw.
  replace (Z.to_nat (count (pal k))) with (length (pal k)) by (unfold count; lia).
  change 0 with (Z.of_nat 0) at 1. rewrite Sw.
  - reflexivity.
  - unfold count. lia.
  - apply black_wf.
Qed.
Print Assumptions C102_swinging_picture.

(** An LED no light is near is black, one at which a light stands shows at least
    that light's colour, and nothing is ever brighter than all lights together. *)
Theorem C102_dark_between_lights : forall pl fl o p i k n s j t, fl_ok fl ->
  asks_for pl p i k -> k < number_of_palettes -> selects pl i n -> 23 <= n <= 27 -> is_time t ->
  wf_strip s -> 0 <= j < led_count s ->
  (forall m, 0 <= m < count (pal k) -> 13107 <= Z.abs (light_place fl (count (pal k)) m t - led_place s j)) ->
  current_pixel pl fl (built (builtin o)) p s j t = Ok (mkRGB 0 0 0).
Proof.
  intros pl fl o p i k n s j t OK A K Se N T W J H. rewrite (C102_swinging_picture pl fl o p i k n) by assumption. f_equal.
  destruct (packet_palette_eval pl p i k A K) as [_ G]. fold (pal k) in G.
  assert (Z0 : map (glow fl (pal k) s j t) (numbers (pal k)) = map (fun _ => mkRGB 0 0 0) (numbers (pal k))).
  { apply map_ext_in. intros m M. unfold numbers in M. apply in_map_iff in M. destruct M as (x & <- & X). apply in_seq in X.
    unfold glow. cbv zeta. specialize (H (Z.of_nat x) ltac:(unfold count; lia)).
    rewrite Z.max_l by lia. rewrite Z.mul_0_l, Z.div_0_l by lia.
    pose proof (colour_wf (pal k) (Z.of_nat x) G) as (CH & CS & _). unfold lit. apply ok_hsv2rgb_off; assumption. }
  rewrite Z0. generalize (numbers (pal k)). intros l. unfold mixed.
  assert (S0 : forall f : rgb -> Z, f (mkRGB 0 0 0) = 0 -> fold_right (fun c a => f c + a) 0 (map (fun _ : Z => mkRGB 0 0 0) l) = 0).
  { intros f F. induction l as [|x l IH]; cbn [map fold_right]; [reflexivity|]. rewrite F, IH. reflexivity. }
  rewrite !S0 by reflexivity. reflexivity.
Qed.
Print Assumptions C102_dark_between_lights.

Theorem C102_bright_at_a_light : forall pl fl o p i k n s j t m, fl_ok fl ->
  asks_for pl p i k -> k < number_of_palettes -> selects pl i n -> 23 <= n <= 27 -> is_time t ->
  wf_strip s -> 0 <= j < led_count s -> 0 <= m < count (pal k) ->
  light_place fl (count (pal k)) m t = led_place s j ->
  let full := fl_hsv2rgb fl (colour (pal k) m) in
  exists c, current_pixel pl fl (built (builtin o)) p s j t = Ok c /\
    red full <= red c /\ green full <= green c /\ blue full <= blue c.
Proof.
  intros pl fl o p i k n s j t m OK A K Se N T W J M H. cbv zeta. rewrite (C102_swinging_picture pl fl o p i k n) by assumption.
  eexists. split; [reflexivity|].
  destruct (packet_palette_eval pl p i k A K) as [_ G]. fold (pal k) in G.
  assert (I : In (fl_hsv2rgb fl (colour (pal k) m)) (map (glow fl (pal k) s j t) (numbers (pal k)))).
  { apply in_map_iff. exists m. split.
    - unfold glow. cbv zeta. rewrite H. rewrite Z.sub_diag. change (Z.abs 0) with 0. change (Z.max 0 (13107 - 0)) with 13107.
      rewrite Z.mul_comm, Z.div_mul by lia. unfold lit. destruct (colour (pal k) m); reflexivity.
    - unfold numbers. apply in_map_iff. exists (Z.to_nat m). split; [lia|]. apply in_seq. unfold count in M. lia. }
  assert (F : Forall wf_rgb (map (glow fl (pal k) s j t) (numbers (pal k)))).
  { apply Forall_forall. intros c C. apply in_map_iff in C. destruct C as (x & <- & _). apply glow_wf; assumption. }
  revert I F. generalize (map (glow fl (pal k) s j t) (numbers (pal k))). generalize (fl_hsv2rgb fl (colour (pal k) m)).
  intros c l I F.
  assert (Q : forall f, (forall c, wf_rgb c -> 0 <= f c <= 255) -> f c <= Z.min 255 (fold_right (fun c a => f c + a) 0 l)).
  { intros f Hf.
    assert (P : forall l, Forall wf_rgb l -> 0 <= fold_right (fun c a => f c + a) 0 l).
    { intros l0 F0. induction F0 as [|x l0 X F0 IH]; cbn [fold_right]; [lia|]. specialize (Hf x X). lia. }
    clear G H. induction l as [|x l IH]; [destruct I|]. inversion F; subst. cbn [fold_right]. specialize (P l ltac:(assumption)).
    pose proof (Hf x ltac:(assumption)). destruct I as [->|I]; [lia|]. specialize (IH I ltac:(assumption)). lia. }
  unfold mixed. cbn [red green blue]. repeat split; apply Q; intros ? [[? ?] [[? ?] [? ?]]]; unfold is_byte in *; lia.
Qed.
Print Assumptions C102_bright_at_a_light.
Example C102_example :
  asks_for Host (effect_pkt 50 23 1 8) 23 8 /\ selects Host 23 23 /\
  let s := StripDescription 30 [] in
  light_place fl_ref 3 0 0 = 32767 /\ led_place s 15 = 32767 /\ led_place s 0 = 0 /\
  current_pixel Host fl_ref (built (builtin (mkOffsets 0 0 0))) (effect_pkt 50 23 1 8) s 15 0 = Ok (mkRGB 255 0 0) /\
  current_pixel Host fl_ref (built (builtin (mkOffsets 0 0 0))) (effect_pkt 50 23 1 8) s 9 0 = Ok (mkRGB 0 0 0).
Proof.
  split; [apply effect_pkt_asks; unfold is_byte; lia|]. split; [split; [reflexivity|lia]|].
  vm_compute. auto 10.
Qed.

(** ** C103: police lights *)

(** A lamp that is on for the first [half] ms of every [2 * half]. *)
Definition first_half (half t : Z) : bool := t mod (2 * half) <? half.

Lemma bit_first_half v b t : 0 < v -> 0 <= t -> 0 <= b ->
  (Z.land (t / v) (2 ^ b) =? 0) = first_half (2 ^ b * v) t.
Proof.
  intros V T B. unfold first_half.
  assert (P : 0 < 2 ^ b) by (apply Z.pow_pos_nonneg; lia).
  assert (L : (Z.land (t / v) (2 ^ b) =? 0) = (t / v / 2 ^ b mod 2 =? 0)).
  { assert (Tb : Z.testbit (t / v) b = Z.odd (t / v / 2 ^ b)).
    { rewrite Z.testbit_odd, Z.shiftr_div_pow2 by lia. reflexivity. }
    rewrite Zmod_odd, <- Tb.
    destruct (Z.testbit (t / v) b) eqn:E.
    - destruct (Z.land (t / v) (2 ^ b) =? 0) eqn:F; [|reflexivity]. apply Z.eqb_eq in F.
      apply (f_equal (fun z => Z.testbit z b)) in F. rewrite Z.land_spec, E, Z.pow2_bits_true, Z.bits_0 in F by lia. discriminate.
    - replace (Z.land (t / v) (2 ^ b)) with 0; [reflexivity|]. symmetry. apply Z.bits_inj'. intros n N.
      rewrite Z.land_spec, Z.bits_0. destruct (Z.eq_dec n b) as [->|D]; [rewrite E; reflexivity|].
      rewrite Z.pow2_bits_false by lia. apply andb_false_r. }
  rewrite L. rewrite Z.div_div by lia. rewrite (Z.mul_comm v).
  set (w := 2 ^ b * v). assert (W : 0 < w) by (subst w; nia). clearbody w. clear L P.
  rewrite (Z.mul_comm 2 w). rewrite Z.rem_mul_r by lia.
  pose proof (Z.mod_pos_bound t w W). pose proof (Z.mod_pos_bound (t / w) 2 ltac:(lia)).
  generalize dependent (t mod w). generalize dependent (t / w mod 2). intros. nia.
Qed.

Definition red_light : rgb := mkRGB 255 0 0.
Definition blue_light : rgb := mkRGB 0 0 255.
Definition no_light : rgb := mkRGB 0 0 0.

(** On an ordinary strip (positions counted from the nearer end when mirrored)
    there are two bars: 14 LEDs at the start flash red, 13 LEDs at the end flash
    blue, the outer and the inner part of a bar in turn; everything between is
    dark.  The outer part of the blue bar is one LED shorter. *)
Theorem C103_police_bars : forall pl fl s p j t, wf_strip s -> 0 <= j < led_count s -> is_time t ->
  FlagEnabled s Controller = false -> FlagEnabled s Tiny = false -> 27 <= virtual_count s ->
  let x := virtual_position s j in
  let from_end := virtual_count s - 1 - x in
  GetRGB pl fl PoliceEffect j t s p = Ok
    (if x <? 14 then
       if first_half 60 t && Bool.eqb (x <? 7) (first_half 480 t) then red_light else no_light
     else if from_end <? 13 then
       if first_half 56 t && Bool.eqb (from_end <? 6) (first_half 448 t) then blue_light else no_light
     else no_light).
Proof.
  intros pl fl s p j t W J [T1 T2] C Ti V. cbv zeta. unfold GetRGB, Police_GetRGB. rewrite C, Ti. cbn [andb].
  destruct (mirror_eval s j W J) as (-> & X & _). cbn [obind].
  unfold red_speed, blue_speed, light_width. cbv zeta. change 32 with (2 ^ 5). change (Z.land (t / 15) 4) with (Z.land (t / 15) (2 ^ 2)). change (Z.land (t / 14) 4) with (Z.land (t / 14) (2 ^ 2)).
  rewrite ?(bit_first_half 15 5 t), ?(bit_first_half 14 5 t), ?(bit_first_half 15 2 t), ?(bit_first_half 14 2 t) by lia.
  change (2 ^ 5 * 15) with 480. change (2 ^ 5 * 14) with 448. change (2 ^ 2 * 15) with 60. change (2 ^ 2 * 14) with 56.
  change (14 / 2) with 7. fold red_light blue_light no_light. change police_red with red_light. change police_blue with blue_light. change police_off with no_light.
  set (x := virtual_position s j) in *. set (c := virtual_count s) in *. clearbody x c.
  destruct (first_half 60 t), (first_half 480 t), (first_half 56 t), (first_half 448 t); cbn [andb];
    destruct (x <? 7) eqn:E1; destruct (x <? 14) eqn:E2; destruct (c - 7 <? x) eqn:E3; destruct (c - 14 <? x) eqn:E4;
    destruct (c - 1 - x <? 13) eqn:E5; destruct (c - 1 - x <? 6) eqn:E6; cbn [Bool.eqb]; try reflexivity; lia.
Qed.
Print Assumptions C103_police_bars.

(** On the controller's strip the first third blinks red twice, then the last
    third blinks blue three times; never both. *)
Theorem C103_police_on_the_controller : forall pl fl s p j t, wf_strip s -> 0 <= j < led_count s -> is_time t ->
  FlagEnabled s Controller = true ->
  let ms := t mod 1000 in
  GetRGB pl fl PoliceEffect j t s p = Ok
    (if (3 * j + 2 <? led_count s) && (ms <? 400) && first_half 100 ms then red_light
     else if (2 * led_count s - 2 <=? 3 * j) && (400 <=? ms) && first_half 100 ms then blue_light
     else no_light).
Proof.
  intros pl fl s p j t [W _] J [T1 T2] C. cbv zeta. unfold GetRGB, Police_GetRGB. rewrite C.
  rewrite (u8_id (t / 100 mod 10)) by lia.
  assert (E0 : (t / 100 mod 10 <? 4) = (t mod 1000 <? 400)) by lia.
  assert (E1 : (t / 100 mod 10 mod 2 =? 0) = first_half 100 (t mod 1000)) by (unfold first_half; lia).
  assert (E2 : (j <? led_count s / 3) = (3 * j + 2 <? led_count s)) by lia.
  assert (E3 : (led_count s * 2 / 3 <=? j) = (2 * led_count s - 2 <=? 3 * j)) by lia.
  rewrite E0, E1, E2, E3. change police_red with red_light. change police_blue with blue_light. change police_off with no_light.
  destruct (t mod 1000 <? 400) eqn:F; destruct (400 <=? t mod 1000) eqn:F'; try lia;
  destruct (first_half 100 (t mod 1000)), (3 * j + 2 <? led_count s), (2 * led_count s - 2 <=? 3 * j); reflexivity.
Qed.
Print Assumptions C103_police_on_the_controller.

(** Tiny strips: all LEDs alike, red and blue in turn; mirrored ones show red on
    the second half and blue on the first, in turn. *)
Theorem C103_police_on_tiny_strips : forall pl fl s p j t, wf_strip s -> 0 <= j < led_count s -> is_time t ->
  FlagEnabled s Controller = false -> FlagEnabled s Tiny = true ->
  GetRGB pl fl PoliceEffect j t s p = Ok
    (if FlagEnabled s Mirrored then
       if led_count s / 2 <=? j
       then if first_half 480 t && first_half 60 t then red_light else no_light
       else if negb (first_half 480 t) && first_half 56 t then blue_light else no_light
     else if first_half 60 t then if first_half 480 t then red_light else blue_light else no_light).
Proof.
  intros pl fl s p j t W J [T1 T2] C Ti. unfold GetRGB, Police_GetRGB. rewrite C, Ti. cbn [andb].
  unfold red_speed, blue_speed, light_width. cbv zeta. change 32 with (2 ^ 5). change (Z.land (t / 15) 4) with (Z.land (t / 15) (2 ^ 2)). change (Z.land (t / 14) 4) with (Z.land (t / 14) (2 ^ 2)).
  rewrite ?(bit_first_half 15 5 t), ?(bit_first_half 14 5 t), ?(bit_first_half 15 2 t), ?(bit_first_half 14 2 t) by lia.
  change (2 ^ 5 * 15) with 480. change (2 ^ 5 * 14) with 448. change (2 ^ 2 * 15) with 60. change (2 ^ 2 * 14) with 56.
  change police_red with red_light. change police_blue with blue_light. change police_off with no_light.
  destruct (FlagEnabled s Mirrored) eqn:M.
  - destruct (led_count s / 2 <=? j); reflexivity.
  - destruct (mirror_eval s j W J) as (-> & _). cbn [obind]. reflexivity.
Qed.
Print Assumptions C103_police_on_tiny_strips.
Example C103_example :
  let s := StripDescription 60 [] in
  virtual_count s = 60 /\
  GetRGB Host fl_ref PoliceEffect 3 130 s (effect_pkt 50 0 1 0) = Ok red_light /\
  GetRGB Host fl_ref PoliceEffect 8 130 s (effect_pkt 50 0 1 0) = Ok no_light /\
  GetRGB Host fl_ref PoliceEffect 54 130 s (effect_pkt 50 0 1 0) = Ok blue_light /\
  GetRGB Host fl_ref PoliceEffect 53 130 s (effect_pkt 50 0 1 0) = Ok no_light.
Proof. vm_compute. auto. Qed.
