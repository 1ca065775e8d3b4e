(** Specification vocabulary for palettes: no function of the model is used. *)
From Coq Require Import ZArith List.
From Verif Require Import Fastled.
Import ListNotations.
Open Scope Z_scope.

(** Number of colours. *)
Definition count (p : list chsv) : Z := Z.of_nat (length p).

(** Colour number [i], counted around the palette. *)
Definition colour (p : list chsv) (i : Z) : chsv :=
  nth (Z.to_nat (i mod count p)) p (mkHSV 0 0 0).

(** Number of segments of the gradient: with wrapping there is one more, from
    the last colour back to the first. *)
Definition segments (p : list chsv) (wrap : bool) : Z := if wrap then count p else count p - 1.

(** Length of a segment on the position scale 0..65535. *)
Definition seglen (p : list chsv) (wrap : bool) : Z := 65535 / segments p wrap.

(** Palettes the gradient is meant for: between 2 colours and 255 segments. *)
Definition gradient_palette (p : list chsv) (wrap : bool) : Prop :=
  2 <= count p /\ segments p wrap <= 255 /\ Forall wf_hsv p.

(** [d] steps from hue [a] in direction [dir] (1 or -1) on a circle of 255
    hues, where 0 and 255 are the same point. *)
Definition hue_after (a dir d h : Z) : Prop := (h - (a + dir * d)) mod 255 = 0.
