(** Specification vocabulary for the stored device description. *)
From Coq Require Import ZArith List Bool.
From Verif Require Import CInt Flash.
Import ListNotations.
Open Scope Z_scope.

Definition is_word (v : Z) : Prop := 0 <= v < 4294967296.
(** A device description as the compiler lays it out, with its check value. *)
Definition proper (im : image) : Prop :=
  is_word (im_milliamps im) /\ is_word (im_begin im) /\ is_word (im_end im) /\ is_word (im_capacity im) /\
  im_check im = kCheckValue.

(** The firmware of one start: mode, built-in device, memory behind it.  All
    firmwares run on the same board [b]. *)
Record firmware := mkFirmware { fw_mode : device_mode; fw_current : image; fw_beyond : list Z }.
Definition proper_firmware (f : firmware) : Prop :=
  proper (fw_current f) /\ length (fw_beyond f) = 108%nat /\ Forall (fun b => 0 <= b < 256) (fw_beyond f).

(** What the flash holds after some starts, each with its own firmware, each cut
    off by a power failure after [k] flash operations (a large [k]: not cut off). *)
Inductive after_starts (b : board) (flash0 : list Z) : list firmware -> list Z -> Prop :=
| NoStart : after_starts b flash0 [] flash0
| OneStart fs flash f k : after_starts b flash0 fs flash -> proper_firmware f ->
    after_starts b flash0 (fs ++ [f])
      (apply_ops flash (firstn k (start_ops b (fw_mode f) (fw_current f) (fw_beyond f) flash))).

(** Flash of the size reserved for the record which does not hold one: for
    example erased flash. *)
Definition blank (flash : list Z) : Prop := 
  length flash = kMaxSize /\ Forall (fun b => 0 <= b < 256) flash /\ word 16 flash <> kCheckValue.
