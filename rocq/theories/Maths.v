(** Model of /repo/lib/math/Math.cpp and of Effect::GetThresholdSin
    (/repo/lib/effect/Effect.cpp lines 5-13). *)
From Coq Require Import ZArith Lia List Bool.
From Verif Require Import CInt Packet Fastled.
Import ListNotations.
Open Scope Z_scope.

(** /repo/lib/math/Math.cpp lines 6-12.  The two output pointers become a
    pair (angle, radius).  [led_index * 255 / led_count] is computed in int;
    [led_count * 32] in int, then converted to uint32_t. *)
Definition GetPosOnCircle (led_count led_index : Z) : outcome (Z * Z) :=
  let tau := 6283 in
  let circum := u32 (led_count * 32) in
  angle <- udiv (led_index * 255) led_count ;;
  Ok (u8 angle, u8 (u32 (circum * 1000) / tau)).

(** /repo/lib/math/Math.cpp lines 14-24.  The in/out pointers become arguments
    and a resulting pair (led_index, led_count). *)
Definition MirrorIndex (led_index led_count : Z) : outcome (Z * Z) :=
  led_index <- umod led_index led_count ;;
  let new_count := u8 ((led_count + 1) / 2) in
  let led_index := if new_count <=? led_index then u8 (led_count - led_index - 1) else led_index in
  Ok (led_index, new_count).

(** /repo/lib/effect/Effect.cpp lines 5-13.  [x] is int16_t and is converted to
    the uint16_t argument of sin16; C division truncates towards zero. *)
Definition GetThresholdSin (fl : fastled) (x threshold : Z) : Z :=
  let v := fl_sin16 fl (u16 x) in
  let shifted_val := i16 (Z.quot v 128) in
  if shifted_val <? threshold then 0
  else u8 (Z.quot ((shifted_val - threshold) * 256) (256 - threshold)).
