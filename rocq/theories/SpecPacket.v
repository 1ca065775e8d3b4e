(** Specification vocabulary for packets. *)
From Coq Require Import ZArith List.
From Verif Require Import Packet.
Import ListNotations.
Open Scope Z_scope.

(** Value of a list of bytes, most significant first. *)
Definition big_endian (bs : list Z) : Z := fold_left (fun acc b => acc * 256 + b) bs 0.

(** The first n payload bytes. *)
Definition payload (n : nat) (p : packet) : list Z := firstn n (pdata p).

(** Everything the writers must not touch: the id, and the payload from byte n on. *)
Definition untouched_from (n : nat) (p q : packet) : Prop :=
  pid q = pid p /\ skipn n (pdata q) = skipn n (pdata p) /\ length (pdata q) = length (pdata p).
