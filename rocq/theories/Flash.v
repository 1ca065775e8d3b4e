(** Model of the stored device description:
    /repo/src/devices/node/node.cpp lines 28-70 and 76-90 and, with the emulated
    EEPROM, /repo/src/devices/fancy-node/fancy-node.cc lines 61-102 and 153-167.

    The two external storage libraries are modelled by the flash itself: erasing
    sets every byte to 255, writing can only clear bits, a write proceeds byte by
    byte upwards, and power may fail between any two of these operations.  (The
    libraries write larger units; every state they can leave behind is among the
    ones considered here.)  An interrupted erase is not modelled.

    The record is the memory image of a DeviceDescription on a 32-bit ARM
    (/repo/lib/device/DeviceDescription.hpp): milliamps_supported, the three
    pointers of the std::vector with the strips, check_value.  The strips
    themselves are not part of it. *)
From Coq Require Import ZArith Lia List Bool.
From Verif Require Import CInt Packet Device.
Import ListNotations.
Open Scope Z_scope.

(** The object, field by field. *)
Record image := mkImage { im_milliamps : Z; im_begin : Z; im_end : Z; im_capacity : Z; im_check : Z }.

(** /repo/lib/device/DeviceDescription.hpp lines 32-36. *)
Definition kCheckValue : Z := 305419896. (* 0x12345678 *)
Definition kMaxSize : nat := 128.
Definition image_size : nat := 20.

(** Little-endian words. *)
Definition le32 (v : Z) : list Z := [v mod 256; v / 256 mod 256; v / 65536 mod 256; v / 16777216 mod 256].
Definition word (i : nat) (bytes : list Z) : Z :=
  nth i bytes 0 + 256 * nth (i + 1) bytes 0 + 65536 * nth (i + 2) bytes 0 + 16777216 * nth (i + 3) bytes 0.

Definition bytes_of (im : image) : list Z :=
  le32 (im_milliamps im) ++ le32 (im_begin im) ++ le32 (im_end im) ++ le32 (im_capacity im) ++ le32 (im_check im).
Definition image_of (bytes : list Z) : image :=
  mkImage (word 0 bytes) (word 4 bytes) (word 8 bytes) (word 12 bytes) (word 16 bytes).

(** Operations on the flash. *)
Inductive flash_op := Erase | WriteByte (i : nat) (v : Z).
Definition apply_op (flash : list Z) (op : flash_op) : list Z :=
  match op with
  | Erase => map (fun _ => 255) flash
  | WriteByte i v => list_set flash i (Z.land (nth i flash 0) v)
  end.
Definition apply_ops (flash : list Z) (ops : list flash_op) : list Z := fold_left apply_op ops flash.

Fixpoint write_bytes (i : nat) (l : list Z) : list flash_op :=
  match l with [] => [] | v :: rest => WriteByte i v :: write_bytes (S i) rest end.

(** The comparison loop: node.cpp lines 55-60, fancy-node.cc lines 85-90. *)
Fixpoint same_bytes (l flash : list Z) : bool :=
  match l, flash with
  | [], _ => true
  | v :: l', w :: flash' => (w =? v) && same_bytes l' flash'
  | _ :: _, [] => false
  end.

(** node.cpp lines 50-70: the operations WriteDeviceToFlash performs.  [beyond] is
    the memory that follows the object [current]: device_storage.write copies
    kMaxSize bytes although the object has only 20. *)
Definition WriteDeviceToFlash (current : image) (beyond : list Z) (flash : list Z) : list flash_op :=
  if same_bytes (bytes_of current) flash then []
  else Erase :: write_bytes 0 (bytes_of current ++ beyond).

(** fancy-node.cc lines 82-102: EEPROM.write changes a copy in memory, of which
    only the first 20 bytes differ from the flash; EEPROM.commit erases the page
    and writes the copy. *)
Definition fancy_WriteDeviceToFlash (current : image) (flash : list Z) : list flash_op :=
  if same_bytes (bytes_of current) flash then []
  else Erase :: write_bytes 0 (bytes_of current ++ skipn image_size flash).

(** node.cpp lines 34-48, fancy-node.cc lines 61-80: which object the LED manager
    is constructed from; [built_in] is Devices::current.  The failing malloc is
    not modelled (it has the same outcome as a bad check value). *)
Definition ReadDeviceFromFlash (built_in : image) (flash : list Z) : image :=
  if word 16 flash =? kCheckValue then image_of flash else built_in.

(** The strips an object refers to depend on what the memory holds: the running
    program's [heap] maps the vector's begin and end pointers to strips. *)
Definition heap := Z -> Z -> outcome (list strip).
Definition device_strips (h : heap) (im : image) : outcome (list strip) := h (im_begin im) (im_end im).

(** node.cpp lines 76-90: /repo/lib/device/DeviceDescription.hpp lines 9-13. *)
Inductive device_mode := CURRENT_FROM_HEADER | READ_FROM_FLASH | WRITE_TO_FLASH.

(** The two boards. *)
Inductive board := NodeBoard | FancyNodeBoard.
Definition store_ops (b : board) (current : image) (beyond flash : list Z) : list flash_op :=
  match b with
  | NodeBoard => WriteDeviceToFlash current beyond flash
  | FancyNodeBoard => fancy_WriteDeviceToFlash current flash
  end.

(** The flash operations of one start and the object used if it is not
    interrupted. *)
Definition start_ops (b : board) (mode : device_mode) (current : image) (beyond flash : list Z) : list flash_op :=
  match mode with WRITE_TO_FLASH => store_ops b current beyond flash | _ => [] end.
Definition start_device (b : board) (mode : device_mode) (current : image) (beyond flash : list Z) : image :=
  match mode with
  | CURRENT_FROM_HEADER => current
  | READ_FROM_FLASH => ReadDeviceFromFlash current flash
  | WRITE_TO_FLASH => ReadDeviceFromFlash current (apply_ops flash (store_ops b current beyond flash))
  end.
