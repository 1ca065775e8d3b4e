(** The program of a fancy node:
    /repo/src/devices/fancy-node/fancy-node.cc lines 112-246.

    One pass of [loop] is Battery.fancy_loop; here are [setup] and the passes one
    after the other.

    Not modelled: the boot-selection bit of the processor, the pins, the serial
    console, a radio that does not start (see DeadRadio.v), the
    device read from flash (see Flash.v) and the delays.  That the radio is put to
    sleep (line 109) shows only in that a pass receives nothing. *)
From Coq Require Import ZArith List Bool.
From Verif Require Import CInt Packet NetMgr Fastled Device LedMgr Effects Show Rsm Boot Battery.
Import ListNotations.
Open Scope Z_scope.

Section Program.
Variable e : env.
Variable fl : fastled.
Variable d : device.
(** The battery reading taken at start-up while a button was held (lines 175-183),
    if one was. *)
Variable pressed : option Z.

(** Line 58 and line 182: [battery_at_boot]. *)
Definition battery_at_boot : Z := match pressed with Some r => r | None => 0 end.

(** Lines 112-187 for CURRENT_FROM_HEADER: the LED manager is constructed
    (LedManager.cpp lines 7-39); with a button held, the board's LED is lit grey
    (line 177 of fancy-node.cc) while the battery is read; then the start-up animation plays. *)
Definition fancy_setup (o : offsets) (n : node) : outcome (table effect * node * fancy) :=
  t <- LedManager (plat e) o ;;
  ' (_, n, _) <- SetNumEffects (announced_effects t) n ;;
  ' (_, n, _) <- SetNumPalettes announced_palettes n ;;
  buf <- match pressed with
         | Some _ => aset (new_leds d) 0 (fl_hsv2rgb fl (mkHSV 0 0 32))
         | None => Ok (new_leds d)
         end ;;
  ' (buf, _) <- PlayStartupAnimation fl d buf ;;
  Ok (t, n, mkFancy false buf).

(** fancy-node.cc lines 189-246, pass after pass: what each of them transmits and shows. *)
Fixpoint fancy_passes (t : table effect) (ws : list fworld) (f : fancy) (n : node)
  : outcome (fancy * node * list (list rtx * list (list rgb))) :=
  match ws with
  | [] => Ok (f, n, [])
  | w :: rest =>
      ' (f, n, out, pics) <- fancy_loop e fl t d battery_at_boot w f n ;;
      ' (f, n, log) <- fancy_passes t rest f n ;;
      Ok (f, n, (out, pics) :: log)
  end.

(** The whole program, run for the given passes. *)
Definition fancy_program (o : offsets) (ws : list fworld) (n : node)
  : outcome (fancy * node * list (list rtx * list (list rgb))) :=
  ' (t, n, f) <- fancy_setup o n ;;
  fancy_passes t ws f n.
End Program.
