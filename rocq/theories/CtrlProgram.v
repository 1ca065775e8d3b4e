(** The program of the controller:
    /repo/src/devices/controller/controller.cpp lines 404-585.

    One pass of [loop] is Battery.ctrl_loop; here are [setup] (from line 462 on;
    what it does before is in Reboot.v) and the passes one after the other.

    Not modelled: the pins, the serial console, a radio that does not start
    (lines 474-479 never end) and the delays. *)
From Coq Require Import ZArith List Bool.
From Verif Require Import CInt Packet NetMgr Fastled Device LedMgr Effects Show Rsm Controller Battery.
Import ListNotations.
Open Scope Z_scope.

Section Program.
Variable e : env.
Variable fl : fastled.
(** The battery reading taken while the first left button was held at start-up
    (lines 489-495), if it was. *)
Variable held : option Z.

(** Lines 489-512: what is shown while the button is held, picture by picture, and
    the LED buffer afterwards. *)
Definition show_charge (leds : list rgb) : outcome (list rgb * list (list rgb)) :=
  match held with
  | None => Ok (leds, [])
  | Some r =>
      grey <- aset leds kStatusLeft (fl_hsv2rgb fl (mkHSV 0 0 32)) ;;
      h <- battery_hue r ;;
      level <- aset grey kStatusLeft (fl_hsv2rgb fl (mkHSV h 255 255)) ;;
      Ok (level, [grey; level])
  end.

(** The LED manager is a global object (line 68): its constructor
    (LedManager.cpp lines 7-39) announces effects and palettes.  Then [setup]: the
    LEDs are cleared (line 468) and the charge is shown. *)
Definition ctrl_setup (o : offsets) (n : node) : outcome (table effect * node * ctrl * list (list rgb)) :=
  t <- LedManager (plat e) o ;;
  ' (_, n, _) <- SetNumEffects (announced_effects t) n ;;
  ' (_, n, _) <- SetNumPalettes announced_palettes n ;;
  ' (leds, pics) <- show_charge (map (fun _ => black) (cleds ctrl_init)) ;;
  Ok (t, n, with_leds ctrl_init leds, map (fun _ => black) (cleds ctrl_init) :: pics).

(** Lines 515-585, pass after pass: what each of them transmits and shows. *)
Fixpoint ctrl_passes (t : table effect) (ws : list (reading * world)) (low : bool) (c : ctrl) (n : node)
  : outcome (bool * ctrl * node * list (list rtx * list (list rgb))) :=
  match ws with
  | [] => Ok (low, c, n, [])
  | (x, w) :: rest =>
      ' (low, c, n, out, pics) <- ctrl_loop e fl t announced_palettes x w low c n ;;
      ' (low, c, n, log) <- ctrl_passes t rest low c n ;;
      Ok (low, c, n, (out, pics) :: log)
  end.

(** The whole program, run for the given passes: the pictures of [setup], then
    what each pass transmits and shows. *)
Definition ctrl_program (o : offsets) (ws : list (reading * world)) (n : node)
  : outcome (list (list rgb) * list (list rtx * list (list rgb))) :=
  ' (t, n, c, pics) <- ctrl_setup o n ;;
  ' (_, _, _, log) <- ctrl_passes t ws false c n ;;
  Ok (pics, log).
End Program.
