(** Model of the small unit tests: /repo/test/ColorPaletteTest.cpp, MathTest.cpp,
    StripDescriptionTest.cpp, RadioPacketTest.cpp, PerlinTest.cpp and
    InvalidPacketTest.cpp.  The answer of a test is what googletest reports. *)
From Coq Require Import ZArith List Bool.
From Verif Require Import CInt Packet NetMgr Rsm Bench FakeNet UnitTests Fastled Maths Palette Device Effects.
Import ListNotations.
Open Scope Z_scope.

(** EXPECT_...: the test goes on. *)
Definition EXPECT (b : bool) (rest : outcome bool) : outcome bool := x <- rest ;; Ok (b && x).
(** ASSERT_...: the test ends if it fails. *)
Definition ASSERT (b : bool) (rest : outcome bool) : outcome bool := if b then rest else Ok false.

Section Colours.
Variable fl : fastled.

(** ColorPaletteTest.cpp lines 5-17. *)
Definition red_green_blue : palette := [mkHSV HUE_RED 255 255; mkHSV HUE_GREEN 255 255; mkHSV HUE_BLUE 255 255].
Definition indexColors : outcome bool :=
  let p := red_green_blue in
  EXPECT (psize p =? 3) (
  c <- GetColor p 0 ;; EXPECT (hue c =? HUE_RED) (
  c <- GetColor p 1 ;; EXPECT (hue c =? HUE_GREEN) (
  c <- GetColor p 2 ;; EXPECT (hue c =? HUE_BLUE) (
  c <- GetColor p 3 ;; EXPECT (hue c =? HUE_RED) (Ok true))))).

(** ColorPaletteTest.cpp lines 19-39. *)
Definition lerpValues : outcome bool :=
  let p := [mkHSV HUE_RED 0 0; mkHSV HUE_GREEN 255 255] in
  c <- GetGradient fl p (u16 (MAX_UINT16 / 4)) true ;;
  EXPECT (hue c =? HUE_GREEN / 2 - 1) (EXPECT (sat c =? 255 / 2) (EXPECT (val c =? 255 / 2) (
  c <- GetGradient fl p (u16 (MAX_UINT16 / 2)) true ;;
  EXPECT (hue c =? HUE_GREEN) (EXPECT (sat c =? 255) (EXPECT (val c =? 255) (
  c <- GetGradient fl p (u16 (MAX_UINT16 * 3 / 4)) true ;;
  EXPECT (hue c =? HUE_GREEN / 2) (EXPECT (sat c =? 256 / 2) (EXPECT (val c =? 256 / 2) (Ok true))))))))).

(** ColorPaletteTest.cpp lines 41-56. *)
Definition lerpOddNumberOfValues : outcome bool :=
  let p := red_green_blue in
  c <- GetGradient fl p (u16 (MAX_UINT16 / 6)) true ;; EXPECT (hue c =? 47) (
  c <- GetGradient fl p (u16 (MAX_UINT16 / 2)) true ;; EXPECT (hue c =? 127) (
  c <- GetGradient fl p (u16 (MAX_UINT16 * 5 / 6)) true ;; EXPECT (hue c =? 207) (Ok true))).

(** ColorPaletteTest.cpp lines 58-76. *)
Definition violet : Z := u8 (256 - (256 - HUE_BLUE) / 2).
Definition wrapHueRedBlue : outcome bool :=
  let p1 := [mkHSV HUE_RED 255 255; mkHSV HUE_BLUE 255 255] in
  c <- GetGradient fl p1 (u16 (MAX_UINT16 / 4)) true ;; EXPECT (hue c =? violet) (
  let p2 := [mkHSV HUE_BLUE 255 255; mkHSV HUE_RED 255 255] in
  c <- GetGradient fl p2 (u16 (MAX_UINT16 / 4)) true ;; EXPECT (hue c =? violet - 1) (Ok true)).

(** ColorPaletteTest.cpp lines 78-92. *)
Definition wrapHueOrangePurple : outcome bool :=
  let p := [mkHSV HUE_ORANGE 255 255; mkHSV HUE_PURPLE 255 255] in
  c <- GetGradient fl p (u16 (MAX_UINT16 / 4)) false ;; EXPECT (hue c =? 9) (
  c <- GetGradient fl p (u16 (MAX_UINT16 / 2)) false ;; EXPECT (hue c =? 240) (
  c <- GetGradient fl p (u16 (MAX_UINT16 / 4 * 3)) false ;; EXPECT (hue c =? 216) (Ok true))).

(** ColorPaletteTest.cpp lines 94-109. *)
Definition wrapHueNotValues : outcome bool :=
  let p := [mkHSV HUE_RED 255 255; mkHSV HUE_BLUE 255 255] in
  c <- GetGradient fl p 0 false ;; EXPECT (hue c =? HUE_RED) (
  c <- GetGradient fl p (u16 (MAX_UINT16 / 2)) false ;; EXPECT (hue c =? violet) (
  c <- GetGradient fl p (u16 MAX_UINT16) false ;; EXPECT (hue c =? HUE_BLUE) (Ok true))).
End Colours.

(** MathTest.cpp lines 6-59: the cases (count, index, angle, radius) in order. *)
Definition cardinal : list (Z * Z * Z * Z) :=
  [(4, 0, 0, 20); (4, 1, 63, 20); (4, 2, 127, 20); (4, 3, 191, 20);
   (8, 0, 0, 40); (8, 1, 31, 40); (8, 2, 63, 40); (8, 3, 95, 40);
   (8, 4, 127, 40); (8, 5, 159, 40); (8, 6, 191, 40); (8, 7, 223, 40)].
Fixpoint on_circle (l : list (Z * Z * Z * Z)) : outcome bool :=
  match l with
  | [] => Ok true
  | (n, i, a, r) :: rest =>
      '(angle, radius) <- GetPosOnCircle n i ;;
      ASSERT (angle =? a) (ASSERT (radius =? r) (on_circle rest))
  end.
Definition shouldGetCardinalCordinates : outcome bool := on_circle cardinal.

(** MathTest.cpp lines 61-78. *)
Definition mirror_cases : list (Z * Z * Z * Z) :=
  [(0, 5, 0, 3); (1, 5, 1, 3); (2, 5, 2, 3); (3, 5, 1, 3); (4, 5, 0, 3);
   (0, 4, 0, 2); (1, 4, 1, 2); (2, 4, 1, 2); (3, 4, 0, 2)].
Fixpoint mirrored (l : list (Z * Z * Z * Z)) : outcome bool :=
  match l with
  | [] => Ok true
  | (i, n, i', n') :: rest =>
      '(led_index, led_count) <- MirrorIndex i n ;;
      ASSERT (led_index =? i') (ASSERT (led_count =? n') (mirrored rest))
  end.
Definition shouldMirrorIndicies : outcome bool := mirrored mirror_cases.

(** StripDescriptionTest.cpp lines 5-13. *)
Definition usesFlagsCorrectly : outcome bool :=
  let sd := StripDescription 10 [Bright; Tiny] in
  EXPECT (led_count sd =? 10) (
  EXPECT (FlagEnabled sd Bright) (EXPECT (FlagEnabled sd Tiny) (EXPECT (negb (FlagEnabled sd Circular)) (Ok true)))).

(** RadioPacketTest.cpp lines 6-26; [j] is what the packet's memory held. *)
Definition fresh_packet (j : junk) : packet := mkPacket 0 (j_type j) 0 (j_data j).
Definition serializesHeartbeat (time : Z) (j : junk) : outcome bool :=
  let packet := writeHeartbeat time (fresh_packet j) in
  t <- readTimeFromHeartbeat Host packet ;; EXPECT (time =? t) (Ok true).
Definition serializesHeartbeat0 := serializesHeartbeat 0.
Definition serializesHeartbeat1 := serializesHeartbeat 1.
Definition serializesHeartbeatBig := serializesHeartbeat (u32 2166572391).

(** RadioPacketTest.cpp lines 28-50. *)
Definition expect_effect (i d k : Z) (packet : packet) (rest : outcome bool) : outcome bool :=
  x <- readEffectIndexFromSetEffect Host packet ;; EXPECT (i =? x) (
  x <- readDelayFromSetEffect Host packet ;; EXPECT (d =? x) (
  x <- readPaletteIndexFromSetEffect Host packet ;; EXPECT (k =? x) rest)).
Definition serializesSetEffect0 (j : junk) : outcome bool :=
  let packet := writeSetEffect 0 1 0 (fresh_packet j) in
  expect_effect 0 1 0 packet (
  let packet := writeSetEffect 1 0 0 packet in
  expect_effect 1 0 0 packet (
  let packet := writeSetEffect 0 0 1 packet in
  expect_effect 0 0 1 packet (
  let packet := writeSetEffect 250 199 54 packet in
  expect_effect 250 199 54 packet (Ok true)))).

(** ** /repo/test/PerlinTest.cpp *)
Section Perlin.
Variable fl : fastled.
(** The results of the C library's random(), one after another. *)
Variable rnd : nat -> Z.

(** for (uint8_t i = 0; i < n; ++i) with an assertion at the end of the body. *)
Fixpoint for_all_from (todo : nat) (i : nat) (body : nat -> bool) : bool :=
  match todo with O => true | S k => body i && for_all_from k (S i) body end.

(** PerlinTest.cpp line 5. *)
Definition tolerance : Z := 8.
Definition close (first second : Z) : bool := Z.abs (first - second) <=? tolerance.

(** PerlinTest.cpp lines 7-16. *)
Definition shouldProduceContiguousNoise : bool :=
  for_all_from 255 0 (fun i =>
    let x := rnd (2 * i) in
    let y := rnd (2 * i + 1) in
    close (perlinNoise fl x y) (perlinNoise fl (u32 (x + 1)) (u32 (y + 1)))).

(** PerlinTest.cpp lines 18-34. *)
Definition shouldWrapAround : bool :=
  for_all_from 128 0 (fun i => let y := rnd i in close (perlinNoise fl 0 y) (perlinNoise fl 4294967295 y)) &&
  for_all_from 128 128 (fun i => let x := rnd i in close (perlinNoise fl x 0) (perlinNoise fl x 4294967295)).

(** PerlinTest.cpp lines 36-46; the angle is a byte for the function. *)
Definition shouldProduceContiguousNoiseLinearly : bool :=
  for_all_from 255 0 (fun i =>
    let x := rnd (3 * i) in
    let y := rnd (3 * i + 1) in
    let angle := u8 (rnd (3 * i + 2)) in
    close (perlinNoisePolar fl x y angle (Z.of_nat i)) (perlinNoisePolar fl x y angle (Z.of_nat i + 1))).

(** PerlinTest.cpp lines 48-61. *)
Definition shouldProduceContiguousNoiseRadially : bool :=
  for_all_from 255 0 (fun i =>
    let x := rnd (3 * i) in
    let y := rnd (3 * i + 1) in
    let magnitude := u8 (rnd (3 * i + 2)) / 3 in
    close (perlinNoisePolar fl x y (Z.of_nat i) magnitude) (perlinNoisePolar fl x y (Z.of_nat i + 1) magnitude)).

(** PerlinTest.cpp lines 63-75. *)
Definition shouldWrapAroundPolar : bool :=
  for_all_from 255 0 (fun i =>
    let x := rnd (3 * i) in
    let y := rnd (3 * i + 1) in
    let magnitude := u8 (rnd (3 * i + 2)) / 2 in
    close (perlinNoisePolar fl x y 0 magnitude) (perlinNoisePolar fl x y 255 magnitude)).
End Perlin.

(** ** /repo/test/InvalidPacketTest.cpp *)

(** Lines 19-23: the parameters.  The data, lines 24-32, is not used. *)
Definition kPacketIds : list Z := [0; 1; 2; 255; 256; 257; 511; 65280; 65281; 65535].
Definition kPacketTypes : list Z := [0; 1; 2; 3; 4; 5; 254; 255].
Definition kPacketLengths : list Z := [0; 1; 2; 3; 4; 5; 6; 7; 8; 9; 10; 56; 57; 58; 59; 60; 61; 62; 63; 64].

(** Lines 36-41; the rest of the data is zero. *)
Definition invalid_packet (id type length : Z) : packet := mkPacket id type length (5 :: 6 :: repeat 0 56).

(** Lines 34-44.  The fixture has two networks: the one of RadioIntegrationTest,
    which runTicks drives, and its own (line 16), which hides the former's name
    and gets the packet.  Both constructors set the clock to 0 and advance it by
    5 ms, so each network sees the clock run on; to the second network, runTicks
    is the passing of time. *)
Definition InvalidPacketTest (s s' : source) (p : packet) : outcome (fakenet * fakenet) :=
  w <- frun s kNumNodes (runTicks 10 ++ runTicks 10) ;;
  w' <- frun s' kNumNodes (repeat (FAdvance 1) 10 ++ [FTransmit p] ++ repeat (FAdvance 1) 10) ;;
  Ok (w, w').
