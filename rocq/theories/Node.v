(** The program of a plain node: the devices of /repo/lib/device/Devices.hpp and
    /repo/src/devices/node/node.cpp (set-up with the device taken from the header,
    and the main loop).

    Not modelled: printing; a radio that fails to start (the program then stays in
    an endless animation, node.cpp lines 91-93); the watchdog, see Boot.v; the two
    flash modes, see Flash.v. *)
From Coq Require Import ZArith List.
From Verif Require Import CInt Packet Rsm Fastled Device LedMgr Effects Show Boot.
Import ListNotations.
Open Scope Z_scope.

(** /repo/lib/device/Devices.hpp line 9. *)
Definition RF_BOARD_MA_SUPPORTED : Z := 2400 - 50.

(** /repo/lib/device/Devices.hpp lines 11-17. *)
Definition SimpleRfBoardDescription (led_count : Z) (flags : list flag) : device :=
  DeviceDescription RF_BOARD_MA_SUPPORTED [StripDescription (u8 led_count) flags].

(** /repo/lib/device/Devices.hpp line 22, the device the program is built for. *)
Definition scarf : device := SimpleRfBoardDescription 46 [].

(** /repo/lib/device/Devices.hpp lines 19-81, in order. *)
Definition Devices : list device :=
  [ SimpleRfBoardDescription 30 [Bright];                        (* bike *)
    SimpleRfBoardDescription 28 [Bright];                        (* ben_s_bike *)
    SimpleRfBoardDescription 63 [Bright];                        (* will_bike *)
    scarf;
    SimpleRfBoardDescription 5 [Tiny];                           (* lantern *)
    SimpleRfBoardDescription 12 [Tiny; Circular];                (* puck *)
    SimpleRfBoardDescription 24 [Tiny; Circular; Mirrored];      (* two_side_puck *)
    DeviceDescription RF_BOARD_MA_SUPPORTED                      (* rainbow_cloak *)
      [ StripDescription 11 [Tiny; Circular];
        StripDescription 94 [];
        StripDescription 11 [Tiny; Circular; Reversed] ];
    SimpleRfBoardDescription 11 [];                              (* backpack_tail *)
    SimpleRfBoardDescription 60 [];                              (* dan_jacket *)
    SimpleRfBoardDescription 56 [];                              (* will_jacket *)
    SimpleRfBoardDescription 27 [Circular];                      (* will_bike_front *)
    SimpleRfBoardDescription 50 [Circular];                      (* will_top_hat *)
    SimpleRfBoardDescription 18 [Circular];                      (* bike_front *)
    SimpleRfBoardDescription 12 [Circular; Tiny];                (* hex_light *)
    DeviceDescription RF_BOARD_MA_SUPPORTED                      (* half_matrix_panel *)
      [ StripDescription 16 [];
        StripDescription 16 [Reversed];
        StripDescription 16 [];
        StripDescription 16 [Reversed];
        StripDescription 16 [];
        StripDescription 16 [Reversed];
        StripDescription 16 [];
        StripDescription 16 [Reversed] ];
    DeviceDescription RF_BOARD_MA_SUPPORTED                      (* backpack_rope *)
      [ StripDescription 96 [Dim];
        StripDescription 96 [Dim; Reversed] ];
    DeviceDescription RF_BOARD_MA_SUPPORTED                      (* ufo *)
      [ StripDescription 12 [Circular];
        StripDescription 16 [Circular];
        StripDescription 12 [Bright; Circular];
        StripDescription 52 [Dim; Circular] ];
    DeviceDescription RF_BOARD_MA_SUPPORTED                      (* brooke_bike *)
      [ StripDescription 15 [Circular];
        StripDescription 19 [];
        StripDescription 16 [Circular];
        StripDescription 33 [Bright] ];
    DeviceDescription RF_BOARD_MA_SUPPORTED                      (* ross_backpack *)
      [ StripDescription 13 [Reversed];
        StripDescription 12 [];
        StripDescription 13 [Reversed];
        StripDescription 12 [] ];
    SimpleRfBoardDescription 18 [Circular]                       (* whatever *)
  ].

(** One pass of the main loop: the clock readings (real time, in ms) and
    deliveries of the two radio ticks, and the clock while LED k is computed. *)
Record pass := mkPass {
  now1 : Z; inc1 : option packet;
  now2 : Z; inc2 : option packet;
  drawn_at : Z -> Z
}.

Section Program.
Variable e : env.
Variable fl : fastled.
Variable d : device.

(** node.cpp lines 72-98 for CURRENT_FROM_HEADER: the LED manager is constructed
    (LedManager.cpp lines 7-39, which tells the state machine how many effects and
    palettes there are), then the start-up animation plays.  [n] is the state
    machine, constructed earlier as a global object (node.cpp line 25). *)
Definition setup (o : offsets) (n : node) : outcome (table effect * node * list rgb) :=
  t <- LedManager (plat e) o ;;
  ' (_, n, _) <- SetNumEffects (announced_effects t) n ;;
  ' (_, n, _) <- SetNumPalettes announced_palettes n ;;
  ' (buf, _) <- PlayStartupAnimation fl d (new_leds d) ;;
  Ok (t, n, buf).

(** node.cpp lines 145-147: one pass of [loop]. *)
Definition loop_pass (t : table effect) (w : pass) (n : node) (buf : list rgb)
  : outcome (node * list rgb * list rtx) :=
  ' (_, n, out) <- Tick e (u32 (now1 w)) (inc1 w) (u32 (now2 w)) (inc2 w) n ;;
  buf <- RunEffect (plat e) FastLed d (current_pixel (plat e) fl t (GetSetEffect n))
           (fun k => GetNetworkMillis (u32 (drawn_at w k)) n) buf ;;
  Ok (n, buf, out).

Fixpoint loop_passes (t : table effect) (ws : list pass) (n : node) (buf : list rgb)
  : outcome (node * list rgb * list (list rtx)) :=
  match ws with
  | [] => Ok (n, buf, [])
  | w :: rest =>
      ' (n, buf, out) <- loop_pass t w n buf ;;
      ' (n, buf, outs) <- loop_passes t rest n buf ;;
      Ok (n, buf, out :: outs)
  end.

(** The whole program, run for the given passes. *)
Definition program (o : offsets) (ws : list pass) (n : node)
  : outcome (node * list rgb * list (list rtx)) :=
  ' (t, n, buf) <- setup o n ;;
  loop_passes t ws n buf.
End Program.
