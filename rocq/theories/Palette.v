(** Model of /repo/lib/color/ColorPalette.{hpp,cpp} and of the palette list in
    /repo/lib/effect/Effect.cpp lines 18-67. *)
From Coq Require Import ZArith Lia List Bool.
From Verif Require Import CInt Packet Fastled.
Import ListNotations.
Open Scope Z_scope.

(** /repo/lib/types/Types.hpp lines 49-50. *)
Definition MAX_UINT8 : Z := 255.
Definition MAX_UINT16 : Z := 65535.

(** /repo/lib/color/ColorPalette.hpp lines 8-26: the only member is the vector
    [colors]. *)
Definition palette := list chsv.

(** [colors.size()], a size_t. *)
Definition psize (p : palette) : Z := Z.of_nat (length p).

(** /repo/lib/color/ColorPalette.hpp line 13. *)
Definition Size (p : palette) : Z := u8 (psize p).

(** /repo/lib/color/ColorPalette.cpp lines 3-5; [index] is a uint8_t. *)
Definition GetColor (p : palette) (index : Z) : outcome chsv :=
  i <- umod index (psize p) ;; aget p i.

(** /repo/lib/color/ColorPalette.cpp lines 29-48: the interpolation between two
    neighbouring colours. *)
Definition mix_colors (fl : fastled) (start finish : chsv) (t : Z) : chsv :=
  let h :=
    if Z.abs (hue start - hue finish) <? Z.shiftr MAX_UINT8 1 then
      u8 (fl_lerp16by16 fl (hue start) (hue finish) t)
    else
      let h16 :=
        if hue start <? hue finish then fl_lerp16by16 fl (hue start + MAX_UINT8) (hue finish) t
        else fl_lerp16by16 fl (hue start) (hue finish + MAX_UINT8) t in
      let h16 := if MAX_UINT8 <? h16 then u16 (h16 - MAX_UINT8) else h16 in
      u8 h16 in
  mkHSV h (u8 (fl_lerp16by16 fl (sat start) (sat finish) t))
          (u8 (fl_lerp16by16 fl (val start) (val finish) t)).

(** /repo/lib/color/ColorPalette.cpp lines 7-52.  [position] is a uint16_t. *)
Definition GetGradient (fl : fastled) (p : palette) (position : Z) (wrap : bool) : outcome chsv :=
  if psize p =? 0 then Ok (mkHSV 0 0 0)
  else if psize p =? 1 then aget p 0
  else
    let size := if wrap then u8 (psize p) else u8 (psize p - 1) in
    color_range <- udiv MAX_UINT16 size ;;
    let color_range := u16 color_range in
    index <- udiv position color_range ;;
    let index := u8 index in
    t <- udiv (u32 (u32 (position - u32 (index * color_range)) * MAX_UINT16)) color_range ;;
    let t := u16 t in
    start <- GetColor p index ;;
    rest <- umod position color_range ;;
    if rest =? 0 then Ok start
    else
      finish <- GetColor p (u8 (index + 1)) ;;
      Ok (mix_colors fl start finish t).

(** FastLED's hue names (hsv.h: HSVHue), used in Effect.cpp. *)
Definition HUE_RED : Z := 0.
Definition HUE_ORANGE : Z := 32.
Definition HUE_YELLOW : Z := 64.
Definition HUE_GREEN : Z := 96.
Definition HUE_AQUA : Z := 128.
Definition HUE_BLUE : Z := 160.
Definition HUE_PURPLE : Z := 192.
Definition HUE_PINK : Z := 224.

(** /repo/lib/effect/Effect.cpp lines 18-67: Effect::palettes(). *)
Definition palettes : list palette :=
  let c h s v := mkHSV h s v in
  [ [c HUE_RED 255 255]; [c HUE_ORANGE 255 255]; [c HUE_YELLOW 255 255]; [c HUE_GREEN 255 255];
    [c HUE_AQUA 255 255]; [c HUE_BLUE 255 255]; [c HUE_PURPLE 255 255]; [c HUE_PINK 255 255];
    [c HUE_RED 255 255; c HUE_GREEN 255 255; c HUE_BLUE 255 255];
    [c HUE_RED 255 255; c HUE_PURPLE 255 255];
    [c HUE_GREEN 255 255; c HUE_BLUE 255 255];
    [c HUE_YELLOW 255 255; c HUE_AQUA 255 255];
    [c HUE_PURPLE 255 255; c HUE_ORANGE 255 255];
    [c 33 241 249; c 247 188 255; c 201 225 160; c 153 251 150];
    [c HUE_AQUA 0 255; c HUE_BLUE 255 255];
    [c HUE_RED 255 255; c HUE_RED 0 255];
    [c HUE_AQUA 255 255; c HUE_AQUA 0 255];
    [c HUE_RED 255 255; c HUE_ORANGE 255 255; c HUE_YELLOW 255 255];
    [c HUE_RED 127 192; c HUE_GREEN 127 192; c HUE_BLUE 127 192];
    [c 132 255 255; c 192 255 255; c 0 0 200];
    [c HUE_PURPLE 255 255; c HUE_YELLOW 255 255; c HUE_PURPLE 255 255];
    [c HUE_RED 255 255; c HUE_GREEN 255 255; c HUE_BLUE 255 255;
     c HUE_RED 255 255; c HUE_GREEN 255 255; c HUE_BLUE 255 255] ].
