(** Start-up of a node and its watchdog:
    /repo/src/arduino/FastLedManager.cpp lines 8-53 (buffer and start-up
    animation) and /repo/src/devices/node/node.cpp lines 142-162 (main loop).

    Not modelled: power limit, colour correction and dithering of FastLED, and the
    set-up of the watchdog's registers. *)
From Coq Require Import ZArith Lia List Bool.
From Verif Require Import CInt Packet Fastled Device LedMgr.
Import ListNotations.
Open Scope Z_scope.

(** What FastLED.show() puts out, and how long the picture stays. *)
Definition frame : Type := list rgb * Z.

(** FastLED.clear(): all LEDs of the buffer black (not yet shown). *)
Definition clear (buf : list rgb) : list rgb := map (fun _ => mkRGB 0 0 0) buf.

Section Startup.
Variable fl : fastled.
Variable d : device.

(** FastLedManager.cpp lines 30-35 and 45-50: one LED white, all others dark. *)
Definition sweep (i : Z) (buf : list rgb) : outcome (list rgb) :=
  SetLed Arduino FastLed d (u8 i) (mkRGB 128 128 128) (clear buf).

Fixpoint sweeps (pause : Z) (is : list Z) (buf : list rgb) : outcome (list rgb * list frame) :=
  match is with
  | [] => Ok (buf, [])
  | i :: rest =>
      b <- sweep i buf ;;
      ' (b', fs) <- sweeps pause rest b ;;
      Ok (b', (b, pause) :: fs)
  end.

(** Lines 38-43: the last LED runs through all hues. *)
Fixpoint hues (pause : Z) (is : list Z) (buf : list rgb) : outcome (list rgb * list frame) :=
  match is with
  | [] => Ok (buf, [])
  | i :: rest =>
      b <- SetLed Arduino FastLed d (u8 (GetLedCount d - 1)) (fl_hsv2rgb fl (mkHSV (u8 i) 255 128)) buf ;;
      ' (b', fs) <- hues pause rest b ;;
      Ok (b', (b, pause) :: fs)
  end.

Definition upto (n : Z) : list Z := map Z.of_nat (seq 0 (Z.to_nat n)).

(** Lines 23-53: PlayStartupAnimation; the pictures shown, and the buffer
    afterwards.  The last picture, by clear(writeData=true), stays. *)
Definition PlayStartupAnimation (buf : list rgb) : outcome (list rgb * list frame) :=
  let led_count := u16 (GetLedCount d) in
  half_delay <- udiv 500 led_count ;;
  let half_delay := u16 half_delay in
  let min_delay := u16 (led_count / 30 + 1) in
  let pause := Z.max half_delay min_delay in
  ' (b, f1) <- sweeps pause (upto led_count) buf ;;
  ' (b, f2) <- hues min_delay (upto 256) (clear b) ;;
  ' (b, f3) <- sweeps pause (rev (upto led_count)) b ;;
  Ok (clear b, f1 ++ f2 ++ f3 ++ [(clear b, 0)]).

(** FastLedManager.cpp lines 11-18: the buffer, cleared. *)
Definition new_leds : list rgb := repeat (mkRGB 0 0 0) (Z.to_nat (buffer_size FastLed d)).
End Startup.

(** /repo/src/devices/node/node.cpp lines 142-162: the part of loop() that feeds
    the watchdog.  [counter] is watchdog_counter, [since] the time since the
    watchdog was fed, [ds] how long each pass takes, [period] how long the
    watchdog waits before it resets the processor (about 128 ms, lines 128-130).
    The result says whether the node keeps running. *)
Fixpoint watch (period counter since : Z) (ds : list Z) : bool :=
  match ds with
  | [] => true
  | d :: rest =>
      let since := since + d in
      if period <=? since then false
      else if 5 <? counter then watch period (u8 (0 + 1)) 0 rest
      else watch period (u8 (counter + 1)) since rest
  end.

(** Fed in line 135; the initial value is in line 143. *)
Definition runs (period : Z) (ds : list Z) : bool := watch period 0 0 ds.
