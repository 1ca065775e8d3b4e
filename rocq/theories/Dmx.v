(** Model of the DMX gateway: /repo/src/devices/dmx/dmx.cpp.

    Not modelled: the DMX receiver (the three channel values read in a pass are
    inputs), set-up, the board LED, printing, and the radio chip (see HwRadio.v
    for what sendPacket puts on the air). *)
From Coq Require Import ZArith Lia List Bool.
From Verif Require Import CInt Packet.
Import ListNotations.
Open Scope Z_scope.

(** Lines 8-9. *)
Definition RESERVATION_SECONDS : Z := 5.
Definition UPDATE_TIMEOUT_SECONDS : Z := 1.

(** Lines 41-47: the globals; they start as zeros.  [last] is last_r, last_g,
    last_b. *)
Record dmx := mkDmx { d_packet : packet; d_next_id : Z; d_last_sent : Z; d_last : rgb }.
Definition dmx_init : dmx := mkDmx (mkPacket 0 0 0 (repeat 0 (Z.to_nat PACKET_DATA_LENGTH))) 0 0 (mkRGB 0 0 0).

(** What one pass reads: the three channels and millis(). *)
Record dmx_in := mkDmxIn { d_colour : rgb; d_time : Z }.

Definition rgb_neqb (a b : rgb) : bool :=
  negb (red a =? red b) || negb (green a =? green b) || negb (blue a =? blue b).

(** Lines 49-77: one pass through [loop]; the second component is what is
    sent. *)
Definition dmx_loop (x : dmx_in) (s : dmx) : dmx * option packet :=
  let time := d_time x in
  if rgb_neqb (d_colour x) (d_last s) || (u32 (d_last_sent s + UPDATE_TIMEOUT_SECONDS * 1000) <? time) then
    let p := writeControl RESERVATION_SECONDS (d_colour x) (d_packet s) in
    let p := mkPacket (d_next_id s) (ptype p) (dlen p) (pdata p) in
    (mkDmx p (u16 (d_next_id s + 1)) time (d_colour x), Some p)
  else (s, None).

(** A run: what each pass sent. *)
Fixpoint dmx_run (xs : list dmx_in) (s : dmx) : dmx * list (option packet) :=
  match xs with
  | [] => (s, [])
  | x :: rest =>
      let '(s, o) := dmx_loop x s in
      let '(s, os) := dmx_run rest s in (s, o :: os)
  end.
