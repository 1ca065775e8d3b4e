(** Model of the device radio driver: /repo/src/arduino/RadioHeadRadio.cpp and
    .hpp.  The RadioHead library is external: a frame that the library accepts
    for sending appears, if at all, as the same list of bytes at a receiver. *)
From Coq Require Import ZArith Lia List Bool.
From Verif Require Import CInt Packet.
Import ListNotations.
Open Scope Z_scope.

(** /repo/src/arduino/RadioHeadRadio.hpp lines 8-11. *)
Definition kMaxFifoSizePacketSize : Z := 64.
Definition kRadioOverhead : Z := 3.
Definition kMaxPacketSize : Z := kMaxFifoSizePacketSize - kRadioOverhead.
Definition kFrontPacketPadding : Z := 3.

(** memcpy(dst + off, src, n) where [dst] has [cap] bytes: undefined when either
    array is too short; the result is the copied block. *)
Definition memcpy_block (src : list Z) (n cap off : Z) : outcome (list Z) :=
  if (Z.of_nat (length src) <? n) || (cap <? off + n) then Undef
  else Ok (firstn (Z.to_nat n) src).

(** /repo/src/arduino/RadioHeadRadio.cpp lines 46-64: sendPacket.  The result is
    the frame handed to [radio.send]: the first [dataLength + 3] bytes of the
    static 61-byte buffer.  The two calls to [radio.available()] only switch the
    transceiver back to receive mode and are not modelled. *)
Definition hw_send (p : packet) : outcome (list Z) :=
  let b0 := u8 (Z.shiftr (pid p) 8) in
  let b1 := u8 (Z.land (pid p) 255) in
  let b2 := u8 (ptype p) in
  block <- (if 0 <? dlen p
            then memcpy_block (pdata p) (dlen p) kMaxPacketSize kFrontPacketPadding
            else Ok []) ;;
  Ok (b0 :: b1 :: b2 :: block).

(** The copy loop, /repo/src/arduino/RadioHeadRadio.cpp lines 35-37:
    [packet.data[i - 3] = buffer[i]] for i = 3 .. received_length-1; [j] is
    [i - 3]. *)
Fixpoint copy_in (d : list Z) (j : Z) (payload : list Z) : outcome (list Z) :=
  match payload with
  | [] => Ok d
  | b :: rest => d' <- aset d j b ;; copy_in d' (j + 1) rest
  end.

(** /repo/src/arduino/RadioHeadRadio.cpp lines 18-44: readPacket.  [air] is the
    frame RadioHead has ready ([None]: [available()] or [recv()] returned
    false); recv copies at most 64 bytes into the buffer and reports the number
    copied.  [p0] is the content of the caller's packet before the call.  The
    result is the return value together with the packet afterwards.  Note that
    the code assigns packet_id, type and data, and never dataLength. *)
Definition hw_read (air : option (list Z)) (p0 : packet) : outcome (bool * packet) :=
  match air with
  | None => Ok (false, p0)
  | Some frame =>
      let buffer := firstn (Z.to_nat kMaxFifoSizePacketSize) frame in
      let received_length := Z.of_nat (length buffer) in
      if kFrontPacketPadding <? received_length then
        b0 <- aget buffer 0 ;;
        b1 <- aget buffer 1 ;;
        b2 <- aget buffer 2 ;;
        d <- copy_in (pdata p0) 0 (skipn 3 buffer) ;;
        Ok (true, mkPacket (u16 (Z.shiftl b0 8 + b1)) b2 (dlen p0) d)
      else Ok (false, p0)
  end.
