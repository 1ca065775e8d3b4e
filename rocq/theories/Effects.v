(** Model of the effects in /repo/lib/effect and of the noise functions in
    /repo/lib/math/Perlin.hpp.  Integer widths follow the C++ types: [int] is
    32 bits, operations with a uint32_t operand are modulo 2^32. *)
From Coq Require Import ZArith Lia List Bool.
From Verif Require Import CInt Packet Fastled Maths Palette Device.
Import ListNotations.
Open Scope Z_scope.

(** The effect classes.  The arguments are the data members set by the
    constructors: the random time offset of FireEffect and RorschachEffect
    (uint16_t), the random offset of FireflyEffect (0..511) and the speed of
    SimpleBlinkEffect (uint16_t). *)
Inductive effect :=
| ColorCycleEffect | ContrastBumpsEffect | FireEffect (offset : Z) | FireflyEffect (offset_ : Z)
| LightningEffect | PrideEffect | RainbowBumpsEffect | RainbowEffect | RorschachEffect (offset : Z)
| SparkEffect | SwingingLights | StopLightEffect | SimpleBlinkEffect (speed : Z)
| DisplayColorPaletteEffect | DarkEffect | ControlEffect | PoliceEffect.

Definition with_v (c : chsv) (v : Z) : chsv := mkHSV (hue c) (sat c) (u8 v).

Section Effects.
Variable pl : platform.
Variable fl : fastled.

(** The conversion CHSV -> CRGB. *)
Definition rgb_of (c : chsv) : outcome rgb := Ok (fl_hsv2rgb fl c).

(** ** Perlin.hpp *)

(** /repo/lib/math/Perlin.hpp line 9. *)
Definition tileHash (x y : Z) : Z := u16 (u32 (x + u32 (y * 7919))).

(** /repo/lib/math/Perlin.hpp lines 25-27 and the like: random16_set_seed
    followed by two random8().  That the seed stays changed afterwards is not
    modelled: the only other users of FastLED's generator are constructors. *)
Definition corner (x y : Z) : Z * Z :=
  let r1 := fl_random8 fl (tileHash x y) in
  let r2 := fl_random8 fl (snd r1) in
  (i8 (fst r1), i8 (fst r2)).

(** /repo/lib/math/Perlin.hpp lines 12-63; the constant [resolution] is 8. *)
Definition perlinNoise (x y : Z) : Z :=
  let ix := Z.shiftr x 8 in
  let iy := Z.shiftr y 8 in
  let fx := u16 (u32 (x - u32 (Z.shiftl ix 8))) in
  let fy := u16 (u32 (y - u32 (Z.shiftl iy 8))) in
  let aa := corner ix iy in
  let ab := corner ix (u32 (iy + 1)) in
  let ba := corner (u32 (ix + 1)) iy in
  let bb := corner (u32 (ix + 1)) (u32 (iy + 1)) in
  let aa_dot := i16 (Z.shiftr (fx * fst aa + fy * snd aa) 8) in
  let ab_dot := i16 (Z.shiftr (fx * fst ab + (-256 + fy) * snd ab) 8) in
  let ba_dot := i16 (Z.shiftr ((-256 + fx) * fst ba + fy * snd ba) 8) in
  let bb_dot := i16 (Z.shiftr ((-256 + fx) * fst bb + (-256 + fy) * snd bb) 8) in
  let v := i16 (fl_lerp15by8 fl (i16 (fl_lerp15by8 fl aa_dot ba_dot (fl_ease8 fl (u8 fx))))
                                (i16 (fl_lerp15by8 fl ab_dot bb_dot (fl_ease8 fl (u8 fx))))
                                (fl_ease8 fl (u8 fy))) in
  let v := i16 (v * 4) in
  let v := i16 (v + 128) in
  let v := if 256 <=? v then 255 else if v <? 0 then 0 else v in
  u8 v.

(** /repo/lib/math/Perlin.hpp lines 69-75. *)
Definition perlinNoisePolar (x y angle magnitude : Z) : Z :=
  let x_offset := Z.quot ((fl_cos8 fl angle - 128) * magnitude) 128 in
  let y_offset := Z.quot ((fl_sin8 fl angle - 128) * magnitude) 127 in
  perlinNoise (u32 (x + x_offset)) (u32 (y + y_offset)).

(** palettes()[setEffectPacket->readPaletteIndexFromSetEffect()] *)
Definition packet_palette (p : packet) : outcome palette :=
  i <- readPaletteIndexFromSetEffect pl p ;; aget palettes i.

(** Index and count after MirrorIndex when the strip is mirrored: e.g.
    /repo/lib/effect/ContrastBumpsEffect.cpp lines 14-17. *)
Definition maybe_mirror (s : strip) (led_index : Z) : outcome (Z * Z) :=
  if FlagEnabled s Mirrored then MirrorIndex led_index (led_count s) else Ok (led_index, led_count s).

(** ** The effects *)

(** /repo/lib/effect/ColorCycleEffect.cpp lines 7-32. *)
Definition ColorCycle_GetRGB (led_index time_ms : Z) (s : strip) (p : packet) : outcome rgb :=
  palette <- packet_palette p ;;
  if Size palette <? 2 then
    color <- GetColor palette 0 ;;
    let wave := fl_cubicwave8 fl (u8 (time_ms / 16)) in
    rgb_of (with_v color (if FlagEnabled s Bright then wave else wave * 2 / 3))
  else
    color <- GetGradient fl palette (u16 (u32 (Z.shiftl (time_ms / 16) 8))) true ;;
    rgb_of (if FlagEnabled s Bright then color else with_v color (val color / 2)).

(** /repo/lib/effect/ContrastBumpsEffect.cpp lines 7-37. *)
Definition ContrastBumps_GetRGB (led_index time_ms : Z) (s : strip) (p : packet) : outcome rgb :=
  palette <- packet_palette p ;;
  '(led_index, count) <- maybe_mirror s led_index ;;
  offset <- (if FlagEnabled s Circular then udiv (led_index * 255) count else Ok (led_index * 24)) ;;
  let offset := u8 offset in
  let sin := GetThresholdSin fl (i16 (u32 (Z.shiftl (u32 (- u32 (time_ms / 16 + offset))) 8))) 0 in
  let color_index := u16 (u32 (time_ms * 16)) in
  if sin =? 0 then
    color <- GetGradient fl palette color_index true ;;
    rgb_of (with_v color 64)
  else
    color <- GetGradient fl palette (u16 (color_index + 16384)) true ;;
    rgb_of (with_v color (qadd8 (sin / 2) 96)).

(** /repo/lib/effect/FireEffect.hpp lines 18-19. *)
Definition fire_palette : palette := [mkHSV 0 255 8; mkHSV 23 249 45; mkHSV 30 246 113; mkHSV 35 200 192].

(** /repo/lib/effect/FireEffect.cpp lines 13-44. *)
Definition Fire_GetRGB (offset led_index time_ms : Z) (s : strip) : outcome rgb :=
  let side_differentiator :=
    if FlagEnabled s Mirrored && (led_count s / 2 <? led_index) then 6789 else 0 in
  '(led_index, count) <- maybe_mirror s led_index ;;
  let time_ms := u32 (time_ms + offset) in
  noise <- (if FlagEnabled s Circular then
              '(angle, radius) <- GetPosOnCircle count led_index ;;
              Ok (perlinNoisePolar (time_ms / 8) side_differentiator angle radius / 4 * 3 +
                  perlinNoisePolar (u32 (time_ms / 2 + 1234567)) 0 angle radius / 4 * 1)
            else
              Ok (perlinNoise (led_index * 20) (time_ms / 8) / 4 * 3 +
                  perlinNoise (led_index * 10 + 1234) (u32 (time_ms / 2 + 1234567)) / 4 * 1)) ;;
  let noise := u8 noise in
  color <- GetGradient fl fire_palette (u16 (Z.shiftl noise 8)) false ;;
  rgb_of color.

(** /repo/lib/effect/FireflyEffect.hpp lines 19-23. *)
Definition kPeriodMs : Z := 20000.
Definition kSinMultiplier : Z := 64.
Definition kBlinkPeriod : Z := 65536 / kSinMultiplier.

(** A shift of a uint32_t: undefined from 32 on. *)
Definition shl32 (x n : Z) : outcome Z := if 32 <=? n then Undef else Ok (u32 (Z.shiftl x n)).

(** /repo/lib/effect/FireflyEffect.cpp lines 24-47: adjusted_time. *)
Definition firefly_time (offset time_ms : Z) : Z :=
  let phase := i8 ((time_ms / kPeriodMs) mod 3) in
  let period_start := u32 (time_ms / kPeriodMs * kPeriodMs) in
  let elapsed_in_period := u32 (time_ms - period_start) in
  let remaining_in_period := u32 (kPeriodMs - elapsed_in_period) in
  if phase =? 0 then
    if offset <? kBlinkPeriod / 4 then u32 (time_ms - u32 (offset * remaining_in_period) / kPeriodMs)
    else u32 (time_ms + u32 (offset * remaining_in_period) / kPeriodMs)
  else if phase =? 1 then time_ms
  else
    if offset <? kBlinkPeriod / 4 then u32 (time_ms - u32 (offset * elapsed_in_period) / kPeriodMs)
    else u32 (time_ms + u32 (offset * elapsed_in_period) / kPeriodMs).

(** /repo/lib/effect/FireflyEffect.cpp lines 12-59. *)
Definition Firefly_GetRGB (offset_ led_index time_ms : Z) (s : strip) (p : packet) : outcome rgb :=
  if FlagEnabled s Controller && (led_index mod 2 =? 1) then Ok (mkRGB 0 0 0)
  else
    offset <- (if FlagEnabled s Controller then
                 v <- shl32 (kBlinkPeriod + 1234) led_index ;; Ok (v mod (kBlinkPeriod / 2))
               else Ok offset_) ;;
    let curve := fl_sin16 fl (u16 (u32 (firefly_time offset time_ms * kSinMultiplier))) in
    let curve := if curve <? 0 then 0 else curve in
    palette <- packet_palette p ;;
    color <- GetGradient fl palette (u16 (u32 (Z.shiftl (time_ms / kBlinkPeriod) 8))) true ;;
    rgb_of (with_v color (curve / 256)).

(** /repo/lib/effect/LightningEffect.cpp lines 7-24. *)
Definition Lightning_GetRGB (led_index time_ms : Z) (s : strip) (p : packet) : outcome rgb :=
  palette <- packet_palette p ;;
  let noise := perlinNoise (Z.shiftl led_index 6) (time_ms / 6) in
  color <- GetGradient fl palette (u16 (u32 ((noise - 160) * 512 + time_ms))) true ;;
  rgb_of (with_v color (if 160 <? noise then noise else 0)).

(** /repo/lib/effect/PoliceEffect.hpp lines 18-24. *)
Definition light_width : Z := 14.
Definition red_speed : Z := 15.
Definition blue_speed : Z := 14.
Definition police_red : rgb := mkRGB 255 0 0.
Definition police_blue : rgb := mkRGB 0 0 255.
Definition police_off : rgb := mkRGB 0 0 0.

(** /repo/lib/effect/PoliceEffect.cpp lines 7-97.  (Not registered in the
    built-in table.) *)
Definition Police_GetRGB (led_index time_ms : Z) (s : strip) : outcome rgb :=
  let red_cycle := Z.land (time_ms / red_speed) 32 =? 0 in
  let blue_cycle := Z.land (time_ms / blue_speed) 32 =? 0 in
  let red_flash := Z.land (time_ms / red_speed) 4 =? 0 in
  let blue_flash := Z.land (time_ms / blue_speed) 4 =? 0 in
  if FlagEnabled s Controller then
    let phase := u8 ((time_ms / 100) mod 10) in
    if phase <? 4 then
      if led_index <? led_count s / 3 then Ok (if phase mod 2 =? 0 then police_red else police_off)
      else Ok police_off
    else
      if led_count s * 2 / 3 <=? led_index then Ok (if phase mod 2 =? 0 then police_blue else police_off)
      else Ok police_off
  else if FlagEnabled s Tiny && FlagEnabled s Mirrored then
    if led_count s / 2 <=? led_index then
      Ok (if red_cycle && red_flash then police_red else police_off)
    else
      Ok (if negb red_cycle && blue_flash then police_blue else police_off)
  else
    '(led_index, count) <- maybe_mirror s led_index ;;
    if FlagEnabled s Tiny then
      Ok (if red_flash then if red_cycle then police_red else police_blue else police_off)
    else if red_flash && (led_index <? light_width / 2) then
      Ok (if red_cycle then police_red else police_off)
    else if red_flash && (led_index <? light_width) then
      Ok (if red_cycle then police_off else police_red)
    else if blue_flash && (count - light_width / 2 <? led_index) then
      Ok (if blue_cycle then police_blue else police_off)
    else if blue_flash && (count - light_width <? led_index) then
      Ok (if blue_cycle then police_off else police_blue)
    else Ok police_off.

(** /repo/lib/effect/PrideEffect.hpp lines 19-26, with the constant expressions
    evaluated (integer division). *)
Definition pride_palette : palette :=
  [mkHSV (0 * 255 / 360) (100 * 255 / 100) (100 * 255 / 100);
   mkHSV (34 * 255 / 360) (100 * 255 / 100) (99 * 255 / 100);
   mkHSV (54 * 255 / 360) (100 * 255 / 100) (100 * 255 / 100);
   mkHSV (118 * 255 / 360) (93 * 255 / 100) (63 * 255 / 100);
   mkHSV (218 * 255 / 360) (97 * 255 / 100) (69 * 255 / 100);
   mkHSV (292 * 255 / 360) (79 * 255 / 100) (86 * 255 / 100)].

(** /repo/lib/effect/PrideEffect.cpp lines 7 and 10. *)
Definition depth_multiplier : Z := 8.
Definition fade_fract : Z := 8.

(** /repo/lib/effect/PrideEffect.cpp lines 12-37. *)
Definition Pride_GetRGB (led_index time_ms : Z) (s : strip) : outcome rgb :=
  let palette := pride_palette in
  let stripe_width := u16 (led_count s * depth_multiplier) in
  let fade_width := u16 (stripe_width / fade_fract) in
  let tiny := FlagEnabled s Tiny in
  let led_index := if tiny then 0 else led_index in
  let time_ms := if tiny then u32 (time_ms * 2) else time_ms in
  let fade_width := if tiny then fade_width / 2 else fade_width in
  v_index <- umod (u32 (led_index * depth_multiplier * Size palette + time_ms / 8)) (stripe_width * Size palette) ;;
  let v_index := u16 v_index in
  stripe <- udiv v_index stripe_width ;;
  stripe <- umod stripe (Size palette) ;;
  let color_index := u8 stripe in
  color_amount <- umod v_index stripe_width ;;
  if color_amount <? fade_width then
    from <- GetColor palette (u8 (color_index - 1)) ;;
    to <- GetColor palette color_index ;;
    amount <- udiv (color_amount * 255) fade_width ;;
    rgb_of (fl_blend fl from to (u8 amount))
  else
    color <- GetColor palette color_index ;;
    rgb_of color.

(** /repo/lib/effect/RainbowBumpsEffect.cpp lines 7-29. *)
Definition RainbowBumps_GetRGB (led_index time_ms : Z) (s : strip) (p : packet) : outcome rgb :=
  palette <- packet_palette p ;;
  '(led_index, count) <- maybe_mirror s led_index ;;
  offset <- (if FlagEnabled s Circular then udiv (led_index * 255) count else Ok (led_index * 8)) ;;
  let offset := u8 offset in
  color <- GetGradient fl palette (u16 (u32 (Z.shiftl (u32 (time_ms / 10 + offset)) 8))) true ;;
  rgb_of (with_v color
    (GetThresholdSin fl (i16 (u32 (Z.shiftl (u32 (- u32 (time_ms / 16 - offset * 3))) 8))) 0)).

(** /repo/lib/effect/RainbowEffect.cpp lines 5-40. *)
Definition Rainbow_GetRGB (led_index time_ms : Z) (s : strip) (p : packet) : outcome rgb :=
  let v := if FlagEnabled s Bright then 255 else 128 in
  palette <- packet_palette p ;;
  if Size palette <? 2 then
    if FlagEnabled s Tiny then
      color <- GetGradient fl palette (u16 (Z.shiftl (fl_cubicwave8 fl (u8 (time_ms / 16))) 8)) true ;;
      rgb_of color
    else
      color <- GetColor palette 0 ;;
      let wave := fl_cubicwave8 fl (u8 (u32 (time_ms / 16 + led_index * 8))) in
      rgb_of (with_v color (if FlagEnabled s Bright then wave else wave * 2 / 3))
  else if FlagEnabled s Tiny then
    color <- GetGradient fl palette (u16 (u32 (Z.shiftl (time_ms / 16) 8))) true ;;
    rgb_of (with_v color v)
  else
    color <- GetGradient fl palette (u16 (u32 (Z.shiftl (u32 (time_ms / 16 + led_index * 8)) 8))) true ;;
    rgb_of (with_v color v).

(** /repo/lib/effect/RorschachEffect.cpp lines 13-45.  [led_count >> 1] is a
    division by two; perlinNoise returns uint8_t, so the clamp of lines 33-35
    never applies. *)
Definition Rorschach_GetRGB (offset led_index time_ms : Z) (s : strip) (p : packet) : outcome rgb :=
  palette <- packet_palette p ;;
  let led_pos := u16 (- Z.abs (led_index - Z.shiftr (led_count s) 1)) in
  let time_ms := u32 (time_ms + offset) in
  let noise := perlinNoise (u32 (Z.shiftl led_pos 5 + Z.shiftr time_ms 3))
                           (u32 (Z.shiftr time_ms 3 + Z.shiftl led_pos 2)) in
  if Size palette <? 2 then
    let noise := if MAX_UINT8 <? noise then MAX_UINT8 else noise in
    color <- GetColor palette 0 ;;
    rgb_of (with_v color noise)
  else
    color <- GetGradient fl palette (u16 (Z.shiftl noise 8)) false ;;
    rgb_of (if FlagEnabled s Bright then color else with_v color (val color / 2)).

(** /repo/lib/effect/SimpleBlinkEffect.cpp lines 5-21. *)
Definition SimpleBlink_GetRGB (speed led_index time_ms : Z) (s : strip) (p : packet) : outcome rgb :=
  chunk <- udiv time_ms speed ;;
  if chunk mod 3 =? 0 then
    palette <- packet_palette p ;;
    color <- GetGradient fl palette (u16 (u32 (time_ms / 4 * 23))) true ;;
    rgb_of (if FlagEnabled s Bright then color else with_v color (val color / 2))
  else Ok (mkRGB 0 0 0).

(** /repo/lib/effect/SparkEffect.hpp line 19. *)
Definition brightnesses : list Z := [255; 255; 128; 96; 48; 32; 24; 16].

(** /repo/lib/effect/SparkEffect.cpp lines 20-34: relative_pos and reverse. *)
Definition spark_position (led_index count time_ms : Z) (circular : bool) : outcome (Z * bool) :=
  let pulse_size := u8 (Z.of_nat (length brightnesses)) in
  if circular then
    pos <- umod (u32 (u32 (time_ms * count) / 3000 + led_index)) count ;;
    Ok (i16 pos, false)
  else
    pos <- umod (u32 (time_ms * (count + pulse_size)) / 3000) ((count + pulse_size) * 2) ;;
    let pos := i16 pos in
    let reverse := count + pulse_size <? pos in
    let pos := if reverse then i16 ((count + pulse_size) - (pos - (count + pulse_size))) else pos in
    Ok (i16 (pos - led_index), reverse).

(** /repo/lib/effect/SparkEffect.cpp lines 37-50: the brightness. *)
Definition spark_brightness (relative_pos count : Z) (reverse : bool) : outcome Z :=
  let pulse_size := u8 (Z.of_nat (length brightnesses)) in
  if relative_pos <? 0 then Ok 0
  else if relative_pos <? count + pulse_size then
    if relative_pos <? pulse_size then
      if reverse then aget brightnesses (pulse_size - relative_pos - 1)
      else aget brightnesses relative_pos
    else Ok 0
  else Ok 0.

(** /repo/lib/effect/SparkEffect.cpp lines 7-53. *)
Definition Spark_GetRGB (led_index time_ms : Z) (s : strip) (p : packet) : outcome rgb :=
  palette <- packet_palette p ;;
  '(led_index, count) <- maybe_mirror s led_index ;;
  '(relative_pos, reverse) <- spark_position led_index count time_ms (FlagEnabled s Circular) ;;
  hsv <- GetGradient fl palette (u16 (u32 (Z.shiftl (u32 (time_ms / 24 + relative_pos * 14)) 8))) true ;;
  v <- spark_brightness relative_pos count reverse ;;
  rgb_of (with_v hsv v).

(** /repo/lib/effect/StopLightEffect.hpp lines 18-23. *)
Definition stop_red : chsv := mkHSV HUE_RED 255 255.
Definition stop_dimRed : chsv := mkHSV HUE_RED 255 32.
Definition stop_amber : chsv := mkHSV 32 255 255.
Definition stop_dimAmber : chsv := mkHSV 32 255 32.
Definition stop_green : chsv := mkHSV 102 255 255.
Definition stop_dimGreen : chsv := mkHSV 102 255 32.

(** /repo/lib/effect/StopLightEffect.cpp lines 5-65.  [amber / 2] converts the
    colour to CRGB first (CHSV has no division). *)
Definition StopLight_GetRGB (led_index time_ms : Z) (s : strip) : outcome rgb :=
  let led_pos := u16 (Z.shiftl (Z.abs (Z.shiftr (led_count s) 1 - led_index)) 8) in
  let time_ms := Z.shiftr time_ms 11 in
  let is_red := (Z.land time_ms 4 =? 0) && (0 <? Z.land time_ms 3) in
  let is_amber := (Z.land time_ms 4 =? 0) && (Z.land time_ms 3 =? 0) in
  let is_green := negb (Z.land time_ms 4 =? 0) in
  if FlagEnabled s Tiny then
    rgb_of (if is_red then stop_red else if is_amber then stop_amber else stop_green)
  else if FlagEnabled s Controller then
    let segment := u16 (led_count s / 5) in
    if led_index <=? segment then rgb_of stop_red
    else if (segment * 2 <? led_index) && (led_index <=? segment * 3) then
      c <- rgb_of stop_amber ;; Ok (crgb_div c 2)
    else if segment * 4 <? led_index then rgb_of stop_green
    else Ok (mkRGB 0 0 0)
  else
    let segment := u16 (Z.shiftl (led_count s) (8 - 3)) in
    if led_pos <? segment then Ok (mkRGB 0 0 0)
    else if (segment <? led_pos) && (led_pos <? segment * 2) then
      rgb_of (if is_red then stop_red else stop_dimRed)
    else if (segment * 2 <? led_pos) && (led_pos <? segment * 3) then
      rgb_of (if is_amber then stop_amber else stop_dimAmber)
    else if segment * 3 <? led_pos then
      rgb_of (if is_green then stop_green else stop_dimGreen)
    else Ok (mkRGB 0 0 0).

(** /repo/lib/effect/SwingingLights.cpp line 6: MAX_UINT16 * 0.2 converted to
    uint16_t; the exact product is the integer 13107. *)
Definition SPREAD : Z := 13107.
(** /repo/lib/effect/SwingingLights.hpp line 18. *)
Definition kPeriod : Z := 5000.

(** /repo/lib/effect/SwingingLights.cpp lines 11-17. *)
Definition addInPlace (value : chsv) (result : rgb) : rgb :=
  let color := fl_hsv2rgb fl value in
  mkRGB (qadd8 (red result) (red color)) (qadd8 (green result) (green color)) (qadd8 (blue result) (blue color)).

(** /repo/lib/effect/SwingingLights.cpp lines 43-55: the loop, [todo] iterations
    left. *)
Fixpoint swing_loop (todo : nat) (i : Z) (pal : palette) (angle led_pos : Z) (color : rgb) : outcome rgb :=
  match todo with
  | O => Ok color
  | S todo' =>
      light_offset <- udiv (u32 (i * MAX_UINT16)) (Size pal) ;;
      let light_offset := u16 light_offset in
      let light_pos := u16 (fl_sin16 fl (u16 (light_offset + angle)) + MAX_UINT16 / 2) in
      let dist := i32 (Z.abs (light_pos - led_pos) - SPREAD) in
      color <- (if dist <? 0 then
                  modifier <- GetColor pal (u8 i) ;;
                  let modifier := with_v modifier (Z.quot (- dist * val modifier) SPREAD) in
                  Ok (addInPlace modifier color)
                else Ok color) ;;
      swing_loop todo' (i + 1) pal angle led_pos color
  end.

(** /repo/lib/effect/SwingingLights.cpp lines 19-58. *)
Definition Swinging_GetRGB (led_index time_ms : Z) (s : strip) (p : packet) : outcome rgb :=
  '(led_index, num_leds) <-
    (if FlagEnabled s Tiny && negb (FlagEnabled s Circular) then Ok (0, 50) else maybe_mirror s led_index) ;;
  let angle := u16 (u32 (time_ms mod kPeriod * MAX_UINT16) / kPeriod) in
  led_pos <- udiv (u32 (led_index * MAX_UINT16)) num_leds ;;
  let led_pos := u16 led_pos in
  palette <- packet_palette p ;;
  swing_loop (Z.to_nat (Size palette)) 0 palette angle led_pos (mkRGB 0 0 0).

(** /repo/lib/effect/DisplayColorPaletteEffect.cpp lines 5-22. *)
Definition DisplayColorPalette_GetRGB (led_index time_ms : Z) (s : strip) (p : packet) : outcome rgb :=
  palette <- packet_palette p ;;
  color <- (if (led_count s <? Size palette) && (Size palette <=? 4) then
              GetGradient fl palette (u16 (u32 (time_ms / 2 * 23))) true
            else
              pos <- udiv (u32 (led_index * 65536)) (led_count s) ;;
              GetGradient fl palette (u16 pos) true) ;;
  rgb_of (if FlagEnabled s Bright then color else with_v color (val color / 2)).

(** /repo/lib/effect/ControlEffect.cpp lines 5-13. *)
Definition Control_GetRGB (p : packet) : outcome rgb := readRgbFromSetControl pl p.

(** /repo/lib/effect/DarkEffect.cpp lines 5-13. *)
Definition Dark_GetRGB : outcome rgb := Ok (mkRGB 0 0 0).

(** The virtual call effect->GetRGB(led_index, time_ms, strip, packet). *)
Definition GetRGB (e : effect) (led_index time_ms : Z) (s : strip) (p : packet) : outcome rgb :=
  match e with
  | ColorCycleEffect => ColorCycle_GetRGB led_index time_ms s p
  | ContrastBumpsEffect => ContrastBumps_GetRGB led_index time_ms s p
  | FireEffect offset => Fire_GetRGB offset led_index time_ms s
  | FireflyEffect offset_ => Firefly_GetRGB offset_ led_index time_ms s p
  | LightningEffect => Lightning_GetRGB led_index time_ms s p
  | PrideEffect => Pride_GetRGB led_index time_ms s
  | RainbowBumpsEffect => RainbowBumps_GetRGB led_index time_ms s p
  | RainbowEffect => Rainbow_GetRGB led_index time_ms s p
  | RorschachEffect offset => Rorschach_GetRGB offset led_index time_ms s p
  | SparkEffect => Spark_GetRGB led_index time_ms s p
  | SwingingLights => Swinging_GetRGB led_index time_ms s p
  | StopLightEffect => StopLight_GetRGB led_index time_ms s
  | SimpleBlinkEffect speed => SimpleBlink_GetRGB speed led_index time_ms s p
  | DisplayColorPaletteEffect => DisplayColorPalette_GetRGB led_index time_ms s p
  | DarkEffect => Dark_GetRGB
  | ControlEffect => Control_GetRGB p
  | PoliceEffect => Police_GetRGB led_index time_ms s
  end.
End Effects.
