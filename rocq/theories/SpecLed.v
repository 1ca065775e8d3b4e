(** Specification vocabulary for the effect table and for rendering. *)
From Coq Require Import ZArith List Bool.
From Verif Require Import Packet Device.
Import ListNotations.
Open Scope Z_scope.

Section Registrations.
Context {E : Type}.

(** A registration: an effect and its proportion; proportion 0 means it is never
    picked at random. *)
Definition is_ordinary (r : E * Z) : bool := 0 <? snd r.

(** Number of table entries of ordinary effects. *)
Fixpoint entries (regs : list (E * Z)) : Z :=
  match regs with [] => 0 | r :: rest => snd r + entries rest end.

(** Number of ordinary and of special registrations. *)
Definition ordinaries (regs : list (E * Z)) : Z := Z.of_nat (length (filter is_ordinary regs)).
Definition specials (regs : list (E * Z)) : Z :=
  Z.of_nat (length (filter (fun r => negb (is_ordinary r)) regs)).

(** Total number of table entries. *)
Definition slots (regs : list (E * Z)) : Z := entries regs + specials regs.

Definition valid_regs (regs : list (E * Z)) : Prop := Forall (fun r => 0 <= snd r < 256) regs.
End Registrations.

(** Total number of LEDs of some strips. *)
Fixpoint leds_in (l : list strip) : Z :=
  match l with [] => 0 | s :: rest => led_count s + leds_in rest end.

(** What LED [j] of strip [s] should show at time [t], when the current effect
    is [pixel]: nothing when the strip is off; the effect's colour at position
    [j], counted from the other end when the strip is reversed; an eighth of the
    brightness when the strip is dim. *)
Definition shown (pixel : strip -> Z -> Z -> rgb) (s : strip) (j t : Z) : rgb :=
  let position := if FlagEnabled s Reversed then led_count s - 1 - j else j in
  let c := pixel s position t in
  if FlagEnabled s Off then mkRGB 0 0 0
  else if FlagEnabled s Dim then mkRGB (red c / 8) (green c / 8) (blue c / 8)
  else c.
