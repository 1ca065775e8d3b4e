(** Model of /repo/lib/device: StripDescription and DeviceDescription. *)
From Coq Require Import ZArith Lia List Bool.
From Verif Require Import CInt.
Import ListNotations.
Open Scope Z_scope.

(** /repo/lib/device/StripDescription.hpp lines 7-16: enum StripFlag. *)
Inductive flag := Tiny | Bright | Circular | Mirrored | Reversed | Controller | Dim | Off.
Definition flag_value (f : flag) : Z :=
  match f with
  | Tiny => Z.shiftl 1 0
  | Bright => Z.shiftl 1 1
  | Dim => Z.shiftl 1 6
  | Off => Z.shiftl 1 7
  | Circular => Z.shiftl 1 2
  | Mirrored => Z.shiftl 1 3
  | Reversed => Z.shiftl 1 4
  | Controller => Z.shiftl 1 5
  end.

(** /repo/lib/device/StripDescription.hpp lines 18-28: led_count and flags, both
    uint8_t. *)
Record strip := mkStrip { led_count : Z; flags : Z }.

(** /repo/lib/device/StripDescription.cpp lines 6-10: std::accumulate with
    std::bit_or<int>, then conversion to uint8_t. *)
Definition StripDescription (count : Z) (flag_list : list flag) : strip :=
  mkStrip (u8 count) (u8 (fold_left (fun acc f => Z.lor acc (flag_value f)) flag_list 0)).

(** /repo/lib/device/StripDescription.cpp lines 12-14. *)
Definition FlagEnabled (s : strip) (f : flag) : bool := Z.land (flags s) (flag_value f) =? flag_value f.

(** Values a StripDescription object can hold. *)
Definition wf_strip (s : strip) : Prop := 0 <= led_count s < 256 /\ 0 <= flags s < 256.

(** /repo/lib/device/DeviceDescription.hpp lines 15-37. *)
Record device := mkDevice { milliamps_supported : Z; strips : list strip; check_value : Z }.

(** /repo/lib/device/DeviceDescription.hpp line 32. *)
Definition kCheckValue : Z := 305419896.  (* 0x12345678 *)

(** /repo/lib/device/DeviceDescription.cpp lines 7-9 and the member initialiser
    in DeviceDescription.hpp line 34. *)
Definition DeviceDescription (milliamps : Z) (l : list strip) : device :=
  mkDevice (u32 milliamps) l kCheckValue.

(** /repo/lib/device/DeviceDescription.cpp lines 11-17: a uint16_t accumulator,
    returned as uint8_t. *)
Definition GetLedCount (d : device) : Z :=
  u8 (fold_left (fun acc s => u16 (acc + led_count s)) (strips d) 0).
