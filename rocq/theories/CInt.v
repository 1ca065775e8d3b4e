(** Fixed-width integers and outcomes.

    This file models no function of /repo; it fixes how C++ values are read.
    All values of integer type are represented by [Z].  A conversion to an
    unsigned N-bit type is reduction modulo 2^N; a conversion to a signed N-bit
    type is the two's complement value of that reduction (what gcc and clang
    do, and what C++20 requires). *)
From Coq Require Import ZArith Lia List Bool.
Import ListNotations.
Open Scope Z_scope.

Definition u8 (z : Z) : Z := z mod 256.
Definition u16 (z : Z) : Z := z mod 65536.
Definition u32 (z : Z) : Z := z mod 4294967296.
Definition i8 (z : Z) : Z := let m := z mod 256 in if m <? 128 then m else m - 256.
Definition i16 (z : Z) : Z := let m := z mod 65536 in if m <? 32768 then m else m - 65536.
Definition i32 (z : Z) : Z :=
  let m := z mod 4294967296 in if m <? 2147483648 then m else m - 4294967296.

(** Which build: the host build (CMake, unit tests, simulator; [assert] is on)
    or the device build (macro ARDUINO defined; the asserts are compiled out,
    /repo/lib/radio/Radio.cpp lines 17-20 and similar). *)
Inductive platform := Host | Arduino.

(** Outcome of executing a piece of C++:
    [Ok a]   it finishes with [a];
    [Undef]  it executes an undefined operation (out-of-bounds access, division
             by zero, shift by at least the width, signed overflow);
    [Abort]  an [assert] fails. *)
Inductive outcome (A : Type) : Type :=
| Ok (a : A)
| Undef
| Abort.
Arguments Ok {A} a.
Arguments Undef {A}.
Arguments Abort {A}.

Definition obind {A B} (x : outcome A) (f : A -> outcome B) : outcome B :=
  match x with
  | Ok a => f a
  | Undef => Undef
  | Abort => Abort
  end.

Declare Scope outcome_scope.
Notation "x <- e ;; f" := (obind e (fun x => f))
  (at level 61, e at next level, right associativity) : outcome_scope.
Notation "' p <- e ;; f" := (obind e (fun p => f))
  (at level 61, p pattern, e at next level, right associativity) : outcome_scope.
Open Scope outcome_scope.

(** [assert(b)]: /repo compiles asserts only when ARDUINO is not defined. *)
Definition oassert (pl : platform) (b : bool) : outcome unit :=
  match pl with
  | Arduino => Ok tt
  | Host => if b then Ok tt else Abort
  end.

(** Array read [a[i]] with bounds. *)
Definition aget {A} (l : list A) (i : Z) : outcome A :=
  if i <? 0 then Undef
  else match nth_error l (Z.to_nat i) with
       | Some a => Ok a
       | None => Undef
       end.

Fixpoint list_set {A} (l : list A) (i : nat) (v : A) : list A :=
  match l, i with
  | [], _ => []
  | _ :: t, O => v :: t
  | h :: t, S k => h :: list_set t k v
  end.

(** Array write [a[i] = v] with bounds. *)
Definition aset {A} (l : list A) (i : Z) (v : A) : outcome (list A) :=
  if i <? 0 then Undef
  else if Nat.ltb (Z.to_nat i) (length l) then Ok (list_set l (Z.to_nat i) v) else Undef.

(** Integer division and remainder of operands that are known to be
    non-negative; a zero divisor is undefined behaviour. *)
Definition udiv (a b : Z) : outcome Z := if b =? 0 then Undef else Ok (a / b).
Definition umod (a b : Z) : outcome Z := if b =? 0 then Undef else Ok (a mod b).
