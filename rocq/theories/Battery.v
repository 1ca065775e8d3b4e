(** Model of the battery supervision shared by the fancy node and the controller:
    /repo/lib/battery/Battery.hpp, /repo/src/devices/fancy-node/fancy-node.cc and
    the top of [loop] in /repo/src/devices/controller/controller.cpp.

    Not modelled: the two external filters (their filtered value is an input of
    each pass), the external start-up timer ([expired] is an input), the blinking
    board LED, delays and set-up of the hardware. *)
From Coq Require Import ZArith Lia List Bool SpecFloat.
From Verif Require Import CInt Packet Fastled Palette Device LedMgr Effects Show NetMgr Rsm Controller.
Import ListNotations.
Open Scope Z_scope.

(** ** Floating point

    IEEE binary32 and binary64 as given by the standard library's SpecFloat; the
    compilers used (GCC for ARM, soft float) evaluate in the declared types. *)
Definition f32_div := SFdiv 24 128.
Definition f64_div := SFdiv 53 1024.
Definition f64_mul := SFmul 53 1024.
Definition f32_of_Z (z : Z) : spec_float := binary_normalize 24 128 z 0 false.
Definition f64_of_Z (z : Z) : spec_float := binary_normalize 53 1024 z 0 false.
(** The double literal n/d (d a power of ten): the nearest binary64. *)
Definition f64_lit (n d : Z) : spec_float := f64_div (f64_of_Z n) (f64_of_Z d).
(** double -> float rounds to nearest. *)
Definition to_f32 (x : spec_float) : spec_float :=
  match x with
  | S754_finite s m e => binary_normalize 24 128 (if s then Zneg m else Zpos m) e s
  | _ => x
  end.
(** float/double -> uint16_t: truncation; undefined when it does not fit. *)
Definition to_u16 (x : spec_float) : outcome Z :=
  match x with
  | S754_zero _ => Ok 0
  | S754_finite s m e =>
      let v := if e <? 0 then Z.quot (if s then Zneg m else Zpos m) (2 ^ (- e)) else (if s then Zneg m else Zpos m) * 2 ^ e in
      if (0 <=? v) && (v <? 65536) then Ok v else Undef
  | _ => Undef
  end.

(** /repo/lib/battery/Battery.hpp lines 14-21: the divider in float, then the
    scaling in double; [voltage] is a float. *)
Definition BatteryVoltageToRawReading (voltage : spec_float) : outcome Z :=
  let ratio := f32_div (f32_of_Z (62 + 180)) (f32_of_Z 180) in
  let divided_voltage := f32_div voltage ratio in
  to_u16 (f64_mul (f64_div divided_voltage (f64_lit 33 10)) (f64_of_Z 1024)).

(** /repo/lib/battery/Battery.hpp lines 10-11. *)
Definition kBatteryEmpty : spec_float := to_f32 (f64_lit 37 10).
Definition kBatteryFull : spec_float := to_f32 (f64_lit 42 10).

(** The cut-off and resume voltages: /repo/src/devices/fancy-node/fancy-node.cc
    lines 52 and 56; /repo/src/devices/controller/controller.cpp lines 127 and
    131. *)
Record cutoffs := mkCutoffs { kBatteryLowCutoff : spec_float; kBatteryResume : spec_float }.
Definition fancy_cutoffs : cutoffs := mkCutoffs (to_f32 (f64_lit 36 10)) (to_f32 (f64_lit 385 100)).
Definition controller_cutoffs : cutoffs := mkCutoffs (to_f32 (f64_lit 34 10)) (to_f32 (f64_lit 385 100)).

(** ** Supervision *)

(** What a pass reads: has the start-up timer expired, and the filtered value. *)
Record reading := mkReading { expired : bool; filtered : Z }.

(** What the supervision decides in one pass: the new value of [battery_low], has
    LowBatteryMode() been called, does the pass go on. *)
Record decision := mkDecision { now_low : bool; entered : bool; goes_on : bool }.

(** fancy-node.cc lines 192-222 and controller.cpp lines 516-546. *)
Definition supervise (k : cutoffs) (battery_low : bool) (x : reading) : outcome decision :=
  if expired x then
    cut <- BatteryVoltageToRawReading (kBatteryLowCutoff k) ;;
    let enters := negb battery_low && (filtered x <? cut) in
    let battery_low := battery_low || enters in
    if battery_low then
      resume <- BatteryVoltageToRawReading (kBatteryResume k) ;;
      if resume <? filtered x then Ok (mkDecision false enters true)
      else Ok (mkDecision true enters false)
    else Ok (mkDecision false enters true)
  else Ok (mkDecision battery_low false true).

(** ** The battery level shown at start-up *)

(** fancy-node.cc lines 225-238 (and controller.cpp lines 497-508): the hue for
    the reading taken at boot. *)
Definition battery_hue (battery_at_boot : Z) : outcome Z :=
  empty <- BatteryVoltageToRawReading kBatteryEmpty ;;
  full <- BatteryVoltageToRawReading kBatteryFull ;;
  let battery_val := u16 (battery_at_boot - empty) in
  let battery_range := u16 (full - empty) in
  let battery_val := if battery_range <? battery_val then 0 else battery_val in
  h <- udiv (battery_val * HUE_GREEN) battery_range ;;
  Ok (u8 h).

(** ** The fancy node *)

(** fancy-node.cc lines 104-110 on the LED buffer ([FastLED.leds()] is the buffer
    of the LED manager); the result is also what is shown. *)
Definition LowBatteryMode (leds : list rgb) : outcome (list rgb) :=
  let leds := map (fun _ => black) leds in
  leds <- aset leds 0 (mkRGB 4 0 0) ;;
  aset leds 1 (mkRGB 4 0 0).

Record fworld := mkFWorld {
  fw_battery : reading;
  fw_millis : Z;                     (* millis() at line 225 *)
  fw_now1 : Z; fw_inc1 : option packet; fw_now2 : Z; fw_inc2 : option packet;
  fw_clock : Z -> Z                  (* millis() while the k-th LED is drawn *)
}.
Record fancy := mkFancy { f_low : bool; f_leds : list rgb }.

(** fancy-node.cc lines 224-241: the onboard LED. *)
Definition onboard (fl : fastled) (battery_at_boot ms : Z) (leds : list rgb) : outcome (list rgb) :=
  if negb (battery_at_boot =? 0) && (ms <? 20000) then
    h <- battery_hue battery_at_boot ;;
    aset leds 0 (fl_hsv2rgb fl (mkHSV h 255 255))
  else aset leds 0 black.

(** fancy-node.cc lines 189-246: one pass through [loop]; yields the new state,
    the radio, what is transmitted, and the pictures shown, in order. *)
Definition fancy_loop (e : env) (fl : fastled) (t : table effect) (d : device) (battery_at_boot : Z)
  (w : fworld) (f : fancy) (n : node) : outcome (fancy * node * list rtx * list (list rgb)) :=
  dec <- supervise fancy_cutoffs (f_low f) (fw_battery w) ;;
  '(leds, shown) <- (if entered dec then l <- LowBatteryMode (f_leds f) ;; Ok (l, [l]) else Ok (f_leds f, [])) ;;
  if goes_on dec then
    leds <- onboard fl battery_at_boot (fw_millis w) leds ;;
    '(_, n, out) <- Tick e (fw_now1 w) (fw_inc1 w) (fw_now2 w) (fw_inc2 w) n ;;
    leds <- RunEffect (plat e) FastLed d (current_pixel (plat e) fl t (GetSetEffect n))
              (fun k => GetNetworkMillis (fw_clock w k) n) leds ;;
    Ok (mkFancy (now_low dec) leds, n, out, shown ++ [leds])
  else Ok (mkFancy (now_low dec) leds, n, [], shown).

(** ** The controller *)

(** controller.cpp lines 146-151. *)
Definition ctrl_LowBatteryMode (leds : list rgb) : outcome (list rgb) :=
  aset (map (fun _ => black) leds) kStatusLeft (mkRGB 8 0 0).

Definition with_leds (c : ctrl) (leds : list rgb) : ctrl :=
  mkCtrl (prev_mode c) (sel_effect c) (sel_palette c) (se_packet c) (co_packet c) leds.

(** controller.cpp lines 515-585: the whole [loop]; the rest of a pass is
    Controller.loop, which ends with FastLED.show(). *)
Definition ctrl_loop (e : env) (fl : fastled) (t : table effect) (num_palettes : Z)
  (x : reading) (w : world) (low : bool) (c : ctrl) (n : node)
  : outcome (bool * ctrl * node * list rtx * list (list rgb)) :=
  dec <- supervise controller_cutoffs low x ;;
  '(c, shown) <- (if entered dec then l <- ctrl_LowBatteryMode (cleds c) ;; Ok (with_leds c l, [l]) else Ok (c, [])) ;;
  if goes_on dec then
    '(c, n, out) <- loop e fl t num_palettes w c n ;;
    Ok (now_low dec, c, n, out, shown ++ [cleds c])
  else Ok (now_low dec, c, n, [], shown).
