(** Model of the effect table and of rendering:
    /repo/lib/led_manager/LedManager.cpp, /repo/src/arduino/FastLedManager.cpp,
    /repo/lib/fake-led-manager/FakeLedManager.cpp. *)
From Coq Require Import ZArith Lia List Bool.
From Verif Require Import CInt Packet Fastled Device.
Import ListNotations.
Open Scope Z_scope.

Section Table.
Context {E : Type}.  (* Effect*: a pointer to a registered effect *)

(** /repo/lib/led_manager/LedManager.hpp lines 52-61: the three vectors. *)
Record table := mkTable {
  effects : list E;
  non_random_effects : list E;
  uniqueEffectIndices : list Z
}.

Definition empty_table : table := mkTable [] [] [].

(** size() of a vector. *)
Definition vsize {A} (l : list A) : Z := Z.of_nat (length l).

(** /repo/lib/led_manager/LedManager.cpp lines 128-142.  [proportion] is a
    uint8_t; the assert is compiled out on Arduino. *)
Definition AddEffect (pl : platform) (t : table) (effect : E) (proportion : Z) : outcome table :=
  let t1 := if 0 <? proportion
            then mkTable (effects t) (non_random_effects t)
                         (uniqueEffectIndices t ++ [u8 (vsize (effects t))])
            else mkTable (effects t) (non_random_effects t ++ [effect]) (uniqueEffectIndices t) in
  let t2 := mkTable (effects t1 ++ repeat effect (Z.to_nat proportion))
                    (non_random_effects t1) (uniqueEffectIndices t1) in
  _ <- oassert pl (vsize (effects t2) + vsize (non_random_effects t2) <? 256) ;;
  Ok t2.

(** A sequence of registrations, in order. *)
Fixpoint add_all (pl : platform) (t : table) (regs : list (E * Z)) : outcome table :=
  match regs with
  | [] => Ok t
  | (e, p) :: rest => t' <- AddEffect pl t e p ;; add_all pl t' rest
  end.

(** /repo/lib/led_manager/LedManager.cpp lines 61-74; [index] is a uint8_t. *)
Definition GetEffect (pl : platform) (t : table) (index : Z) : outcome E :=
  let total_num_effects := u8 (vsize (effects t) + vsize (non_random_effects t)) in
  index <- match pl with
           | Arduino => umod index total_num_effects
           | Host => _ <- oassert Host (index <? total_num_effects) ;; Ok index
           end ;;
  if index <? vsize (effects t) then aget (effects t) index
  else aget (non_random_effects t) (index - vsize (effects t)).

(** /repo/lib/led_manager/LedManager.cpp line 109. *)
Definition GetNumEffects (t : table) : Z := u8 (vsize (effects t)).

(** /repo/lib/led_manager/LedManager.cpp lines 111-113. *)
Definition GetNumUniqueEffects (t : table) : Z :=
  u8 (vsize (uniqueEffectIndices t) + vsize (non_random_effects t)).

(** /repo/lib/led_manager/LedManager.cpp lines 115-117. *)
Definition GetNumNonRandomEffects (t : table) : Z := u8 (vsize (non_random_effects t)).

(** /repo/lib/led_manager/LedManager.cpp lines 119-126. *)
Definition UniqueEffectNumberToIndex (t : table) (number : Z) : outcome Z :=
  if number <? vsize (uniqueEffectIndices t) then aget (uniqueEffectIndices t) number
  else Ok (u8 (vsize (effects t) + (number - vsize (uniqueEffectIndices t)))).

(** The deletes of /repo/lib/led_manager/LedManager.cpp lines 42-44. *)
Fixpoint delete_indexed (es : list E) (idx : list Z) : outcome (list E) :=
  match idx with
  | [] => Ok []
  | i :: rest => e <- aget es i ;; l <- delete_indexed es rest ;; Ok (e :: l)
  end.

(** /repo/lib/led_manager/LedManager.cpp lines 41-49: the objects deleted, in
    order; [control] is control_effect. *)
Definition destroy (t : table) (control : E) : outcome (list E) :=
  l <- delete_indexed (effects t) (uniqueEffectIndices t) ;;
  Ok (l ++ non_random_effects t ++ [control]).

(** /repo/lib/fake-led-manager/FakeLedManager.cpp lines 28-38: ClearEffects; the
    deleted objects and the table left. *)
Definition ClearEffects (t : table) : outcome (list E * table) :=
  l <- delete_indexed (effects t) (uniqueEffectIndices t) ;;
  Ok (l ++ non_random_effects t, empty_table).
End Table.
Arguments table : clear implicits.

(** ** Rendering *)

Definition black : rgb := mkRGB 0 0 0.

(** Which LED manager: the device's FastLedManager or the FakeLedManager of the
    tests and the controller. *)
Inductive manager := FastLed | Fake.

(** Length of the array [leds]: /repo/src/arduino/FastLedManager.cpp lines
    11-14 (one more than the 8-bit LED count) and
    /repo/lib/fake-led-manager/FakeLedManager.cpp lines 8-10. *)
Definition buffer_size (m : manager) (d : device) : Z :=
  match m with FastLed => GetLedCount d + 1 | Fake => GetLedCount d end.

(** /repo/src/arduino/FastLedManager.cpp lines 64-71 and
    /repo/lib/fake-led-manager/FakeLedManager.cpp lines 44-49. *)
Definition SetLed (pl : platform) (m : manager) (d : device) (led_index : Z) (c : rgb) (buf : list rgb)
  : outcome (list rgb) :=
  match m with
  | FastLed =>
      buf <- (if (GetLedCount d =? 1) && (led_index =? 0) then aset buf 0 c else Ok buf) ;;
      aset buf (led_index + 1) c
  | Fake =>
      _ <- oassert pl (led_index <? GetLedCount d) ;;
      aset buf led_index c
  end.

Section Render.
Variable pl : platform.
Variable m : manager.
Variable d : device.
(** What GetCurrentEffect()->GetRGB(index, time, strip, packet) yields for the
    current packet. *)
Variable pixel : strip -> Z -> Z -> outcome rgb.
(** The value GetNetworkMillis() returns when the k-th LED is drawn: the clock
    runs while the LEDs are computed. *)
Variable clock : Z -> Z.

(** /repo/lib/led_manager/LedManager.cpp lines 82-100: the colour of one LED. *)
Definition led_colour (s : strip) (strip_index time : Z) : outcome rgb :=
  let virtual_index := if FlagEnabled s Reversed then u8 (led_count s - strip_index - 1) else strip_index in
  if FlagEnabled s Off then Ok black
  else
    c <- pixel s virtual_index time ;;
    Ok (if FlagEnabled s Dim then crgb_div c 8 else c).

(** /repo/lib/led_manager/LedManager.cpp lines 80-104: the inner loop, [todo]
    iterations left; [k] counts all LEDs drawn so far and global_index is its
    low byte. *)
Fixpoint strip_loop (todo : nat) (s : strip) (strip_index k : Z) (buf : list rgb)
  : outcome (Z * list rgb) :=
  match todo with
  | O => Ok (k, buf)
  | S todo' =>
      c <- led_colour s strip_index (clock k) ;;
      buf <- SetLed pl m d (u8 k) c buf ;;
      strip_loop todo' s (strip_index + 1) (k + 1) buf
  end.

(** /repo/lib/led_manager/LedManager.cpp lines 77-105: the outer loop. *)
Fixpoint strips_loop (ss : list strip) (k : Z) (buf : list rgb) : outcome (list rgb) :=
  match ss with
  | [] => Ok buf
  | s :: rest =>
      '(k, buf) <- strip_loop (Z.to_nat (led_count s)) s 0 k buf ;;
      strips_loop rest k buf
  end.

(** /repo/lib/led_manager/LedManager.cpp lines 76-107.  WriteOutLeds only
    transmits the buffer. *)
Definition RunEffect (buf : list rgb) : outcome (list rgb) := strips_loop (strips d) 0 buf.
End Render.
