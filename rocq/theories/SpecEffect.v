(** Specification vocabulary for the effects. *)
From Coq Require Import ZArith List Bool.
From Verif Require Import CInt Packet.
Import ListNotations.
Open Scope Z_scope.

(** [p] is a complete packet that asks for effect number [i] with palette
    number [k].  The host build also checks the length field. *)
Definition asks_for (pl : platform) (p : packet) (i k : Z) : Prop :=
  wf_packet p /\ ptype p = SET_EFFECT /\ (pl = Host -> dlen p = 3) /\
  nth 0 (pdata p) 0 = i /\ nth 2 (pdata p) 0 = k.

(** [p] is a complete packet that asks for the fixed colour [c]. *)
Definition asks_for_colour (pl : platform) (p : packet) (c : rgb) : Prop :=
  wf_packet p /\ ptype p = SET_CONTROL /\ (pl = Host -> dlen p = 4) /\
  nth 1 (pdata p) 0 = red c /\ nth 2 (pdata p) 0 = green c /\ nth 3 (pdata p) 0 = blue c.

(** A 32-bit time stamp. *)
Definition is_time (t : Z) : Prop := 0 <= t < 4294967296.

(** Number of built-in palettes. *)
Definition number_of_palettes : Z := 22.

(** Asking for effect number [i] runs number [n] of the 35 built-in ones: on the
    device numbers beyond the end wrap around; the host build accepts only
    numbers in range. *)
Definition selects (pl : platform) (i n : Z) : Prop :=
  n = i mod 35 /\ (pl = Host -> i < 35).
