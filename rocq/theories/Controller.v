(** Model of the hand-held controller:
    /repo/src/devices/controller/controller.cpp, leds.cc, leds.h, buttons.cc and
    buttons.h.

    Not modelled: start-up (RTC, boot loader jump, option bytes, battery display),
    the battery supervision at the top of [loop] (see Battery.v), the external
    filters.  The debounced buttons and the filtered mode switch are inputs of
    each pass through [loop]; [Rose()] gives the same answer throughout one
    pass.  The broadcast timer (external CountDownTimer) is also an input. *)
From Coq Require Import ZArith Lia List Bool.
From Verif Require Import CInt Packet Fastled Palette Device LedMgr Effects Show NetMgr Rsm.
Import ListNotations.
Open Scope Z_scope.

(** /repo/src/devices/controller/leds.h lines 6-12. *)
Definition kLedCount : Z := 42.
Definition kStatusLeft : Z := 7.
Definition kStatusMiddle : Z := 8.
Definition kStatusRight : Z := 9.

(** /repo/src/devices/controller/buttons.h lines 7-12. *)
Definition kLeftButtonLed : Z := 41.
Definition kRightButtonLed : Z := 39.
Definition kBottomButtonLed : Z := 40.
Definition kButtonActiveBrightness : Z := 64.
Definition kButtonPressedBrightness : Z := 255.

(** /repo/src/devices/controller/leds.cc lines 6-14; [led_index] is a uint8_t. *)
Definition SetMainLed (led_index : Z) (c : rgb) (leds : list rgb) : outcome (list rgb) :=
  if (11 <? led_index) && (led_index <? 24) then aset leds (15 + (23 - led_index)) c
  else if 6 <? led_index then aset leds (led_index + 3) c
  else aset leds led_index c.

Inductive channel := ChR | ChG | ChB.
Definition set_channel (ch : channel) (v : Z) (c : rgb) : rgb :=
  match ch with
  | ChR => mkRGB v (green c) (blue c)
  | ChG => mkRGB (red c) v (blue c)
  | ChB => mkRGB (red c) (green c) v
  end.

(** [leds[led].r = brightness] and the like. *)
Definition set_led_channel (led : Z) (ch : channel) (v : Z) (leds : list rgb) : outcome (list rgb) :=
  c <- aget leds led ;; aset leds led (set_channel ch v c).

(** /repo/src/devices/controller/buttons.cc lines 3-17: which channel lights
    which left button; [button_index] is 1, 2 or 3. *)
Definition SetLeftButtonLed (button_index brightness : Z) (leds : list rgb) : outcome (list rgb) :=
  if button_index =? 2 then set_led_channel kLeftButtonLed ChR brightness leds
  else if button_index =? 1 then set_led_channel kLeftButtonLed ChG brightness leds
  else if button_index =? 3 then set_led_channel kLeftButtonLed ChB brightness leds
  else Ok leds.
(** /repo/src/devices/controller/buttons.cc lines 19-23. *)
Definition SetLeftButtonLeds (b1 b2 b3 : Z) (leds : list rgb) : outcome (list rgb) :=
  l <- SetLeftButtonLed 1 b1 leds ;; l <- SetLeftButtonLed 2 b2 l ;; SetLeftButtonLed 3 b3 l.

(** /repo/src/devices/controller/buttons.cc lines 25-39. *)
Definition SetRightButtonLed (button_index brightness : Z) (leds : list rgb) : outcome (list rgb) :=
  if button_index =? 2 then set_led_channel kRightButtonLed ChR brightness leds
  else if button_index =? 3 then set_led_channel kRightButtonLed ChG brightness leds
  else if button_index =? 1 then set_led_channel kRightButtonLed ChB brightness leds
  else Ok leds.
(** /repo/src/devices/controller/buttons.cc lines 41-45. *)
Definition SetRightButtonLeds (b1 b2 b3 : Z) (leds : list rgb) : outcome (list rgb) :=
  l <- SetRightButtonLed 1 b1 leds ;; l <- SetRightButtonLed 2 b2 l ;; SetRightButtonLed 3 b3 l.

(** /repo/src/devices/controller/buttons.cc lines 47-61. *)
Definition SetBottomButtonLed (button_index brightness : Z) (leds : list rgb) : outcome (list rgb) :=
  if button_index =? 1 then set_led_channel kBottomButtonLed ChR brightness leds
  else if button_index =? 2 then set_led_channel kBottomButtonLed ChG brightness leds
  else if button_index =? 3 then set_led_channel kBottomButtonLed ChB brightness leds
  else Ok leds.
(** /repo/src/devices/controller/buttons.cc lines 63-67. *)
Definition SetBottomButtonLeds (b1 b2 b3 : Z) (leds : list rgb) : outcome (list rgb) :=
  l <- SetBottomButtonLed 1 b1 leds ;; l <- SetBottomButtonLed 2 b2 l ;; SetBottomButtonLed 3 b3 l.

(** ** controller.cpp *)

(** Lines 20-30: enum ControllerMode. *)
Inductive mode := ModeEffect | ModeDirectColor | ModeDirectPalette.
Definition mode_eqb (a b : mode) : bool :=
  match a, b with
  | ModeEffect, ModeEffect | ModeDirectColor, ModeDirectColor | ModeDirectPalette, ModeDirectPalette => true
  | _, _ => false
  end.

(** Lines 47-53. *)
Definition kRowStrip : strip := StripDescription 12 [Bright; Controller].
Definition kPaletteStrip : strip := StripDescription 5 [Bright; Controller].
Definition kSetEffectDelay : Z := 60.

(** Lines 58-59: thresholds of the mode switch. *)
Definition kMode1Threshold : Z := 346 / 2.
Definition kMode2Threshold : Z := (346 + 678) / 2.

(** Lines 106-114. *)
Definition colors : list chsv :=
  [ mkHSV 0 255 255; mkHSV (256 / 6) 255 255; mkHSV (256 * 2 / 6) 255 255;
    mkHSV (256 * 3 / 6) 255 255; mkHSV (256 * 4 / 6) 255 255; mkHSV (256 * 5 / 6) 255 255 ].
Definition mode_palettes : list Z := [8; 9; 10; 11; 12; 13].

(** The globals of lines 32-33 and 72-75 and the LED array of leds.cc line 3. *)
Record ctrl := mkCtrl {
  prev_mode : mode;
  sel_effect : Z;      (* effect_index *)
  sel_palette : Z;     (* palette_index *)
  se_packet : packet;  (* set_effect_packet *)
  co_packet : packet;  (* control_packet *)
  cleds : list rgb
}.

(** Static storage is zero before the program starts; the default member
    initialisers of RadioPacket leave [type] and [data] as they are. *)
Definition zero_packet : packet := mkPacket 0 0 0 (repeat 0 (Z.to_nat PACKET_DATA_LENGTH)).
Definition ctrl_init : ctrl := mkCtrl ModeEffect 0 0 zero_packet zero_packet (repeat black (Z.to_nat kLedCount)).

(** What one pass through [loop] reads: which buttons rose (0, 1, 2), the
    filtered mode switch, whether the broadcast timer is active, the role and
    effect index of the radio state machine, and the network time at the k-th
    call of GetNetworkMillis. *)
Record inputs := mkIn {
  left_rose : Z -> bool;
  right_rose : Z -> bool;
  bottom_rose : Z -> bool;
  mode_switch : Z;
  sending : bool;
  is_slave : bool;
  radio_effect : Z;
  net_time : Z -> Z
}.

Section Controller.
Variable pl : platform.
Variable fl : fastled.
Variable t : table effect.     (* the effect table of led_manager *)
Variable num_palettes : Z.     (* Effect::palettes().size() as uint8_t *)

(** [for (i = 0; i < todo; i++) SetMainLed(base + i, f(i))] *)
Fixpoint main_loop (todo : nat) (i base : Z) (f : Z -> outcome rgb) (leds : list rgb) : outcome (list rgb) :=
  match todo with
  | O => Ok leds
  | S todo' => c <- f i ;; leds <- SetMainLed (u8 (base + i)) c leds ;; main_loop todo' (i + 1) base f leds
  end.

(** Lines 156-167: the selections; [num] is num_unique_effects. *)
Definition select (x : inputs) (num : Z) (c : ctrl) : outcome (ctrl * list packet) :=
  if left_rose x 0 then
    v <- umod (sel_effect c - 1 + num) num ;;
    Ok (mkCtrl (prev_mode c) (u8 v) (sel_palette c) (se_packet c) (co_packet c) (cleds c), [])
  else if right_rose x 0 then
    v <- umod (sel_effect c + 1) num ;;
    Ok (mkCtrl (prev_mode c) (u8 v) (sel_palette c) (se_packet c) (co_packet c) (cleds c), [])
  else if left_rose x 1 then
    v <- umod (sel_palette c - 1 + num_palettes) num_palettes ;;
    Ok (mkCtrl (prev_mode c) (sel_effect c) (u8 v) (se_packet c) (co_packet c) (cleds c), [])
  else if right_rose x 1 then
    v <- umod (sel_palette c + 1) num_palettes ;;
    Ok (mkCtrl (prev_mode c) (sel_effect c) (u8 v) (se_packet c) (co_packet c) (cleds c), [])
  else if bottom_rose x 0 then Ok (c, [se_packet c])
  else Ok (c, []).

Let active := kButtonActiveBrightness.
Let pressed := kButtonPressedBrightness.

(** Lines 169-189: button feedback in effect mode.  Line 179 tests
    left_buttons[1] for the second right button. *)
Definition effect_feedback (x : inputs) (leds : list rgb) : outcome (list rgb) :=
  l <- (if left_rose x 0 then SetLeftButtonLeds pressed active 0 leds
        else if left_rose x 1 then SetLeftButtonLeds active pressed 0 leds
        else SetLeftButtonLeds active active 0 leds) ;;
  l <- (if right_rose x 0 then SetRightButtonLeds pressed active 0 l
        else if left_rose x 1 then SetRightButtonLeds active pressed 0 l
        else SetRightButtonLeds active active 0 l) ;;
  if bottom_rose x 0 then SetBottomButtonLeds pressed 0 0 l else SetBottomButtonLeds active 0 0 l.

(** Lines 153-217.  The list is the packets handed to SetEffect. *)
Definition RunEffectMode (x : inputs) (c : ctrl) : outcome (ctrl * list packet) :=
  '(c, calls) <- select x (GetNumUniqueEffects t) c ;;
  leds <- effect_feedback x (cleds c) ;;
  real_effect_index <- UniqueEffectNumberToIndex t (sel_effect c) ;;
  current_effect <- GetEffect pl t real_effect_index ;;
  let p := writeSetEffect real_effect_index kSetEffectDelay (sel_palette c) (se_packet c) in
  leds <- main_loop 12 0 0 (fun i => GetRGB pl fl current_effect i (net_time x i) kRowStrip p) leds ;;
  leds <- main_loop 12 0 12 (fun i => DisplayColorPalette_GetRGB pl fl i (net_time x (12 + i)) kRowStrip p) leds ;;
  leds <- aset leds kStatusLeft (if is_slave x then mkRGB 255 0 0 else mkRGB 0 255 0) ;;
  leds <- aset leds kStatusRight (mkRGB 0 0 (if sending x then 255 else 0)) ;;
  Ok (mkCtrl (prev_mode c) (sel_effect c) (sel_palette c) p (co_packet c) leds, calls).

(** The positions left dark between the two blocks: lines 221 and 288. *)
Definition gap (i : Z) : bool := (4 <? i mod 12) && (i mod 12 <=? 6).

(** Lines 228-248 and 300-320: which of the six choices is pressed. *)
Definition direct_choice (x : inputs) : option Z :=
  if left_rose x 0 then Some 0
  else if left_rose x 1 then Some 2
  else if left_rose x 2 then Some 4
  else if right_rose x 0 then Some 1
  else if right_rose x 1 then Some 3
  else if right_rose x 2 then Some 5
  else None.

(** Lines 250-262 and 322-334. *)
Definition direct_left_feedback (x : inputs) (leds : list rgb) : outcome (list rgb) :=
  if left_rose x 0 then SetLeftButtonLeds pressed active active leds
  else if left_rose x 1 then SetLeftButtonLeds active pressed active leds
  else if left_rose x 2 then SetLeftButtonLeds active active pressed leds
  else SetLeftButtonLeds active active active leds.

(** Lines 264-276: colour mode; lines 267 and 270 test the left buttons. *)
Definition color_right_feedback (x : inputs) (leds : list rgb) : outcome (list rgb) :=
  if right_rose x 0 then SetRightButtonLeds pressed active active leds
  else if left_rose x 1 then SetRightButtonLeds active pressed active leds
  else if left_rose x 2 then SetRightButtonLeds active active pressed leds
  else SetRightButtonLeds active active active leds.

(** Lines 336-348: palette mode. *)
Definition palette_right_feedback (x : inputs) (leds : list rgb) : outcome (list rgb) :=
  if right_rose x 0 then SetRightButtonLeds pressed active active leds
  else if right_rose x 1 then SetRightButtonLeds active pressed active leds
  else if right_rose x 2 then SetRightButtonLeds active active pressed leds
  else SetRightButtonLeds active active active leds.

(** Lines 219-284. *)
Definition RunColorMode (x : inputs) (c : ctrl) : outcome (ctrl * list packet) :=
  leds <- main_loop 36 0 0 (fun i => if gap i then Ok black
                                     else k <- aget colors (i / 6) ;; Ok (fl_hsv2rgb fl k)) (cleds c) ;;
  leds <- direct_left_feedback x leds ;;
  leds <- color_right_feedback x leds ;;
  leds <- SetBottomButtonLeds 0 0 0 leds ;;
  match direct_choice x with
  | Some i =>
      k <- aget colors i ;;
      let p := writeControl kSetEffectDelay (fl_hsv2rgb fl k) (co_packet c) in
      Ok (mkCtrl (prev_mode c) (sel_effect c) (sel_palette c) (se_packet c) p leds, [p])
  | None => Ok (mkCtrl (prev_mode c) (sel_effect c) (sel_palette c) (se_packet c) (co_packet c) leds, [])
  end.

(** Lines 287-298: the display of palette mode; the packet variable is
    rewritten for every LED outside the gaps. *)
Fixpoint palette_loop (todo : nat) (i : Z) (x : inputs) (p : packet) (leds : list rgb)
  : outcome (packet * list rgb) :=
  match todo with
  | O => Ok (p, leds)
  | S todo' =>
      if gap i then leds <- SetMainLed i black leds ;; palette_loop todo' (i + 1) x p leds
      else
        k <- aget mode_palettes (i / 6) ;;
        let p := writeSetEffect 0 1 k p in
        c <- DisplayColorPalette_GetRGB pl fl (i mod 6) (net_time x i) kPaletteStrip p ;;
        leds <- SetMainLed i c leds ;;
        palette_loop todo' (i + 1) x p leds
  end.

(** Lines 286-357. *)
Definition RunPaletteMode (x : inputs) (c : ctrl) : outcome (ctrl * list packet) :=
  '(p, leds) <- palette_loop 36 0 x (se_packet c) (cleds c) ;;
  leds <- direct_left_feedback x leds ;;
  leds <- palette_right_feedback x leds ;;
  leds <- SetBottomButtonLeds 0 0 0 leds ;;
  match direct_choice x with
  | Some i =>
      k <- aget mode_palettes i ;;
      let p := writeSetEffect (radio_effect x) kSetEffectDelay k p in
      Ok (mkCtrl (prev_mode c) (sel_effect c) (sel_palette c) p (co_packet c) leds, [p])
  | None => Ok (mkCtrl (prev_mode c) (sel_effect c) (sel_palette c) p (co_packet c) leds, [])
  end.

(** Lines 557-563: the mode switch. *)
Definition mode_of (v : Z) : mode :=
  if v <? kMode1Threshold then ModeDirectColor
  else if v <? kMode2Threshold then ModeDirectPalette
  else ModeEffect.

(** Lines 557-581: the part of [loop] after the radio tick and the buttons. *)
Definition run_mode (x : inputs) (c : ctrl) : outcome (ctrl * list packet) :=
  let m := mode_of (mode_switch x) in
  let leds := if mode_eqb (prev_mode c) m then cleds c else map (fun _ => black) (cleds c) in
  let c := mkCtrl m (sel_effect c) (sel_palette c) (se_packet c) (co_packet c) leds in
  match m with
  | ModeEffect => RunEffectMode x c
  | ModeDirectColor => RunColorMode x c
  | ModeDirectPalette => RunPaletteMode x c
  end.
End Controller.

(** The packets handed to SetEffect, in order. *)
Fixpoint set_effects (e : env) (now : Z) (calls : list packet) : M unit :=
  match calls with
  | [] => mret tt
  | p :: rest => SetEffect e now p ;; set_effects e now rest
  end.

(** Readings of the outside world in one pass: buttons, switch, timer, clock and
    what the radio delivers to the two radio ticks. *)
Record world := mkWorld {
  w_left : Z -> bool; w_right : Z -> bool; w_bottom : Z -> bool; w_switch : Z; w_sending : bool;
  w_now1 : Z; w_inc1 : option packet; w_now2 : Z; w_inc2 : option packet;
  w_now : Z;          (* millis() during SetEffect *)
  w_clock : Z -> Z    (* millis() at the k-th call of GetNetworkMillis *)
}.

(** Lines 548-585: one pass through [loop] with the radio state machine [n].
    SetEffect changes neither the role nor the network time, so their values
    after the tick are used for the whole pass. *)
Definition loop (e : env) (fl : fastled) (t : table effect) (num_palettes : Z) (w : world) (c : ctrl) (n : node)
  : outcome (ctrl * node * list rtx) :=
  '(_, n, out1) <- Tick e (w_now1 w) (w_inc1 w) (w_now2 w) (w_inc2 w) n ;;
  let x := mkIn (w_left w) (w_right w) (w_bottom w) (w_switch w) (w_sending w)
                (role_eqb (GetCurrentState n) Slave) (GetEffectIndex n)
                (fun k => GetNetworkMillis (w_clock w k) n) in
  '(c, calls) <- run_mode (plat e) fl t num_palettes x c ;;
  '(_, n, out2) <- set_effects e (w_now w) calls n ;;
  Ok (c, n, out1 ++ out2).
