(** Specification vocabulary for the hand-held controller. *)
From Coq Require Import ZArith List Bool.
From Verif Require Import CInt Packet Fastled LedMgr Effects NetMgr Rsm Controller.
Import ListNotations.
Open Scope Z_scope.

(** The three positions of the mode switch, as ranges of the filtered reading. *)
Definition in_color_mode (x : inputs) : Prop := mode_switch x < 173.
Definition in_palette_mode (x : inputs) : Prop := 173 <= mode_switch x < 512.
Definition in_effect_mode (x : inputs) : Prop := 512 <= mode_switch x.
Definition effect_modeb (x : inputs) : bool := 512 <=? mode_switch x.

(** What a pass in effect mode asks for.  When several buttons rise in the same
    pass only the first counts, in the order: top left, top right, second left,
    second right, bottom. *)
Inductive request := EffectBack | EffectForward | PaletteBack | PaletteForward | Send | Nothing.
Definition requested (x : inputs) : request :=
  match left_rose x 0, right_rose x 0, left_rose x 1, right_rose x 1, bottom_rose x 0 with
  | true, _, _, _, _ => EffectBack
  | false, true, _, _, _ => EffectForward
  | false, false, true, _, _ => PaletteBack
  | false, false, false, true, _ => PaletteForward
  | false, false, false, false, true => Send
  | false, false, false, false, false => Nothing
  end.

(** Net number of steps the user took through the effects and the palettes: only
    passes in effect mode count. *)
Definition effect_steps (x : inputs) : Z :=
  if effect_modeb x then match requested x with EffectBack => -1 | EffectForward => 1 | _ => 0 end else 0.
Definition palette_steps (x : inputs) : Z :=
  if effect_modeb x then match requested x with PaletteBack => -1 | PaletteForward => 1 | _ => 0 end else 0.
Definition total (f : inputs -> Z) (xs : list inputs) : Z := fold_right (fun x acc => f x + acc) 0 xs.

(** The effect numbers announced on the network for the 19 different effects. *)
Definition network_number (k : Z) : Z :=
  nth (Z.to_nat k) [0; 2; 4; 5; 7; 8; 9; 13; 17; 19; 23; 27; 28; 29; 30; 31; 32; 33; 34] 0.

(** Inputs as the hardware delivers them: the effect index of the radio is a
    byte. *)
Definition sane (x : inputs) : Prop := is_byte (radio_effect x).

(** The hold time (seconds) a packet asks for. *)
Definition hold_seconds (p : packet) : Z :=
  if ptype p =? SET_CONTROL then nth 0 (pdata p) 0 else nth 1 (pdata p) 0.

(** A physical LED that is part of the 3 x 12 display: not one of the status LEDs
    7, 8, 9 nor the button LEDs 39, 40, 41. *)
Definition display_led (l : Z) : Prop := 0 <= l < 39 /\ ~ 7 <= l <= 9.

(** In the direct modes the display has six blocks of five LEDs, one beside each
    button: side 0 is left, 1 is right; columns 5 and 6 separate them. *)
Definition block_position (side row j : Z) : Z := 12 * row + 7 * side + j.

(** The direct button that counts: left buttons from the top, then right ones. *)
Definition direct_pressed (x : inputs) (side row : Z) : Prop :=
  (side = 0 /\ (row = 0 /\ left_rose x 0 = true \/
                row = 1 /\ left_rose x 0 = false /\ left_rose x 1 = true \/
                row = 2 /\ left_rose x 0 = false /\ left_rose x 1 = false /\ left_rose x 2 = true)) \/
  (side = 1 /\ left_rose x 0 = false /\ left_rose x 1 = false /\ left_rose x 2 = false /\
     (row = 0 /\ right_rose x 0 = true \/
      row = 1 /\ right_rose x 0 = false /\ right_rose x 1 = true \/
      row = 2 /\ right_rose x 0 = false /\ right_rose x 1 = false /\ right_rose x 2 = true)).
Definition no_direct_press (x : inputs) : Prop :=
  left_rose x 0 = false /\ left_rose x 1 = false /\ left_rose x 2 = false /\
  right_rose x 0 = false /\ right_rose x 1 = false /\ right_rose x 2 = false.

(** A session: successive passes from a given state; the second component lists
    the packets handed to the radio in each pass. *)
Fixpoint passes (pl : platform) (fl : fastled) (t : table effect) (num_palettes : Z) (xs : list inputs) (c : ctrl)
  : outcome (ctrl * list (list packet)) :=
  match xs with
  | [] => Ok (c, [])
  | x :: rest =>
      '(c, calls) <- run_mode pl fl t num_palettes x c ;;
      '(c, more) <- passes pl fl t num_palettes rest c ;;
      Ok (c, calls :: more)
  end.

(** Where row [row], column [col] of the 3 x 12 display sits on the LED chain: the
    chain runs left to right through the top row, where the three status LEDs
    sit between columns 6 and 7, back right to left through the middle row, and
    left to right through the bottom row. *)
Definition physical (row col : Z) : Z :=
  if row =? 0 then (if col <? 7 then col else col + 3)
  else if row =? 1 then 26 - col
  else 27 + col.

(** Button lamps: brightness of the lamp in button [k] (1, 2, 3). *)
Inductive lamps := LeftLamps | RightLamps | BottomLamps.
Definition lamp (where_ : lamps) (k : Z) (c : rgb) : Z :=
  match where_ with
  | LeftLamps => if k =? 1 then green c else if k =? 2 then red c else blue c
  | RightLamps => if k =? 1 then blue c else if k =? 2 then red c else green c
  | BottomLamps => if k =? 1 then red c else if k =? 2 then green c else blue c
  end.
Definition lamp_led (where_ : lamps) : Z :=
  match where_ with LeftLamps => 41 | RightLamps => 39 | BottomLamps => 40 end.

(** What a row of three lamps should show when [rose] tells which buttons rose
    and the first [usable] buttons do something: pressed is bright (255; the
    first one if several), usable ones glow (64), the others are dark. *)
Definition first_pressed (rose : Z -> bool) (k : Z) : bool :=
  rose (k - 1) && (if k =? 1 then true else if k =? 2 then negb (rose 0) else negb (rose 0) && negb (rose 1)).
Definition proper_lamp (rose : Z -> bool) (usable k : Z) : Z :=
  if usable <? k then 0 else if first_pressed rose k then 255 else 64.

(** The presses of one pass on the device. *)
Definition presses (w : world) : inputs :=
  mkIn (w_left w) (w_right w) (w_bottom w) (w_switch w) false false 0 (fun _ => 0).
