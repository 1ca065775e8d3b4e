(** What the programs do when the radio does not start: Begin() of
    /repo/src/arduino/RadioHeadRadio.cpp lines 7-16 returns false.  Each of them then
    stays in a loop without end; [k] is how many times the loop has been run through.  None
    of these loops touches the radio, and the watchdog of the node is not on yet
    (node.cpp lines 92-138).

    Not modelled: power limit, colour correction and dithering of FastLED; the time
    that showing a picture itself takes. *)
From Coq Require Import ZArith Lia List Bool.
From Verif Require Import CInt Packet Fastled Device LedMgr Boot Controller.
Import ListNotations.
Open Scope Z_scope.

(** FastLED.showColor(rgb): all LEDs of the chain show one colour; the buffer is
    left as it is. *)
Definition showColor (leds : nat) (c : rgb) : list rgb := repeat c leds.

(** /repo/src/arduino/FastLedManager.cpp lines 55-62, called in
    /repo/src/devices/node/node.cpp lines 92-94 and
    /repo/src/devices/fancy-node/fancy-node.cc lines 169-171. *)
Fixpoint FatalErrorAnimation (leds : nat) (k : nat) : list frame :=
  match k with
  | O => []
  | S k => (showColor leds (mkRGB 64 0 0), 100) :: (showColor leds (mkRGB 0 0 0), 100) :: FatalErrorAnimation leds k
  end.

(** /repo/src/devices/dmx/dmx.cpp lines 26-33: the level of the built-in LED's
    pin, and how long it stays. *)
Fixpoint dmx_no_radio (on : bool) (k : nat) : list (bool * Z) :=
  match k with
  | O => []
  | S k => (on, 100) :: dmx_no_radio (negb on) k
  end.

(** /repo/src/devices/controller/controller.cpp lines 474-479: [ms] are the
    readings of millis() in each run of the loop; the result is what is shown in
    each.  The LEDs have been cleared before (line 468). *)
Fixpoint ctrl_no_radio (ms : list Z) (leds : list rgb) : outcome (list (list rgb)) :=
  match ms with
  | [] => Ok []
  | m :: rest =>
      leds <- aset leds 0 (mkRGB (if (m / 200) mod 2 =? 0 then 255 else 0) 0 0) ;;
      pics <- ctrl_no_radio rest leds ;;
      Ok (leds :: pics)
  end.
