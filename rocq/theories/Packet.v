(** Model of RadioPacket: /repo/lib/radio/Radio.hpp lines 7-83 (the header part
    of that file) and /repo/lib/radio/Radio.cpp. *)
From Coq Require Import ZArith Lia List Bool.
From Verif Require Import CInt.
Import ListNotations.
Open Scope Z_scope.

(** /repo/lib/radio/Radio.hpp lines 7-23: enum PacketType.  The field [type] of
    a received packet can hold any byte ([(PacketType)buffer[2]],
    /repo/src/arduino/RadioHeadRadio.cpp line 29), hence a number. *)
Definition HEARTBEAT : Z := 0.
Definition CLAIM_MASTER : Z := 1.
Definition SET_EFFECT : Z := 2.
Definition SET_CONTROL : Z := 3.

(** /repo/lib/radio/Radio.hpp line 25. *)
Definition PACKET_DATA_LENGTH : Z := 58.

(** /repo/lib/radio/Radio.hpp lines 27-71: struct RadioPacket.  [pdata] is the
    58-byte array [data]. *)
Record packet := mkPacket {
  pid : Z;        (* uint16_t packet_id *)
  ptype : Z;      (* PacketType type *)
  dlen : Z;       (* uint8_t dataLength *)
  pdata : list Z  (* std::array<uint8_t, 58> data *)
}.

(** Values a RadioPacket object can hold. *)
Definition is_byte (b : Z) : Prop := 0 <= b < 256.
Definition wf_packet (p : packet) : Prop :=
  0 <= pid p < 65536 /\ 0 <= ptype p < 256 /\ is_byte (dlen p) /\
  length (pdata p) = 58%nat /\ Forall is_byte (pdata p).

(** Read of [data[i]] with a constant index below 58: always inside the array. *)
Definition byte_at (d : list Z) (i : nat) : Z := nth i d 0.

(** struct CRGB of FastLED: three bytes. *)
Record rgb := mkRGB { red : Z; green : Z; blue : Z }.

(** /repo/lib/radio/Radio.cpp lines 7-14.  Assigning a uint32_t to a uint8_t
    keeps the low byte. *)
Definition writeHeartbeat (time : Z) (p : packet) : packet :=
  mkPacket (pid p) HEARTBEAT 4
    (list_set (list_set (list_set (list_set (pdata p)
       0 (u8 (Z.shiftr time 24)))
       1 (u8 (Z.shiftr time 16)))
       2 (u8 (Z.shiftr time 8)))
       3 (u8 time)).

(** The two asserts at the head of each reader, e.g. /repo/lib/radio/Radio.cpp
    lines 17-20. *)
Definition check_kind (pl : platform) (ty len : Z) (p : packet) : outcome unit :=
  _ <- oassert pl (ptype p =? ty) ;; oassert pl (dlen p =? len).

(** /repo/lib/radio/Radio.cpp lines 16-26.  [data[i] << k] is computed in int
    (so [data[0] << 24] may be negative) and converted to uint32_t by [|=]. *)
Definition readTimeFromHeartbeat (pl : platform) (p : packet) : outcome Z :=
  _ <- check_kind pl HEARTBEAT 4 p ;;
  let time := byte_at (pdata p) 3 in
  let time := Z.lor time (u32 (i32 (Z.shiftl (byte_at (pdata p) 2) 8))) in
  let time := Z.lor time (u32 (i32 (Z.shiftl (byte_at (pdata p) 1) 16))) in
  let time := Z.lor time (u32 (i32 (Z.shiftl (byte_at (pdata p) 0) 24))) in
  Ok time.

(** /repo/lib/radio/Radio.cpp lines 28-35; the arguments are uint8_t. *)
Definition writeSetEffect (effect_index delay hue : Z) (p : packet) : packet :=
  mkPacket (pid p) SET_EFFECT 3
    (list_set (list_set (list_set (pdata p)
       0 (u8 effect_index)) 1 (u8 delay)) 2 (u8 hue)).

(** /repo/lib/radio/Radio.cpp lines 37-43. *)
Definition readEffectIndexFromSetEffect (pl : platform) (p : packet) : outcome Z :=
  _ <- check_kind pl SET_EFFECT 3 p ;; Ok (byte_at (pdata p) 0).

(** /repo/lib/radio/Radio.cpp lines 45-51. *)
Definition readDelayFromSetEffect (pl : platform) (p : packet) : outcome Z :=
  _ <- check_kind pl SET_EFFECT 3 p ;; Ok (byte_at (pdata p) 1).

(** /repo/lib/radio/Radio.cpp lines 53-59. *)
Definition readPaletteIndexFromSetEffect (pl : platform) (p : packet) : outcome Z :=
  _ <- check_kind pl SET_EFFECT 3 p ;; Ok (byte_at (pdata p) 2).

(** /repo/lib/radio/Radio.cpp lines 61-68. *)
Definition writeControl (delay : Z) (c : rgb) (p : packet) : packet :=
  mkPacket (pid p) SET_CONTROL 4
    (list_set (list_set (list_set (list_set (pdata p)
       0 (u8 delay)) 1 (u8 (red c))) 2 (u8 (green c))) 3 (u8 (blue c))).

(** /repo/lib/radio/Radio.cpp lines 70-76. *)
Definition readDelayFromSetControl (pl : platform) (p : packet) : outcome Z :=
  _ <- check_kind pl SET_CONTROL 4 p ;; Ok (byte_at (pdata p) 0).

(** /repo/lib/radio/Radio.cpp lines 78-84. *)
Definition readRgbFromSetControl (pl : platform) (p : packet) : outcome rgb :=
  _ <- check_kind pl SET_CONTROL 4 p ;;
  Ok (mkRGB (byte_at (pdata p) 1) (byte_at (pdata p) 2) (byte_at (pdata p) 3)).

(** memcmp(a, b, n) == 0: the first n bytes agree. *)
Fixpoint memeq (n : nat) (a b : list Z) : bool :=
  match n with
  | O => true
  | S k =>
      match a, b with
      | x :: a', y :: b' => (x =? y) && memeq k a' b'
      | _, _ => true  (* not reached: n <= 58 = array length *)
      end
  end.

(** /repo/lib/radio/Radio.hpp lines 73-83: operator==. *)
Definition packet_eqb (l r : packet) : bool :=
  if (PACKET_DATA_LENGTH <? dlen l) || (PACKET_DATA_LENGTH <? dlen r) then false
  else (pid l =? pid r) && (ptype l =? ptype r) && (dlen l =? dlen r) &&
       memeq (Z.to_nat (dlen l)) (pdata l) (pdata r).
