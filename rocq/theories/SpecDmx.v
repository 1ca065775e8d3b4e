(** Specification vocabulary for the DMX gateway: what was on the air, and when,
    for a sequence of passes given by real time and console colour. *)
From Coq Require Import ZArith List.
From Verif Require Import CInt Packet NetMgr NetHist RsmHist SpecRsm Dmx.
Import ListNotations.
Open Scope Z_scope.

Definition black : rgb := mkRGB 0 0 0.

(** One pass: real time in ms since power-up, and the colour the console shows. *)
Definition pass : Type := Z * rgb.
Definition inputs (xs : list pass) : list dmx_in := map (fun x => mkDmxIn (snd x) (u32 (fst x))) xs.

(** Every packet sent, with the time of the pass that sent it. *)
Definition aired (xs : list pass) : list (Z * packet) :=
  flat_map (fun x => match snd x with Some p => [(fst x, p)] | None => [] end)
    (combine (map fst xs) (snd (dmx_run (inputs xs) dmx_init))).

(** When something was sent last; power-up if never. *)
Definition last_time (l : list (Z * packet)) : Z := last (map fst l) 0.

(** The numbers 0, 1, 2, ... , k-1, each modulo 65536. *)
Definition counted (k : nat) : list Z := map (fun j => Z.of_nat j mod 65536) (seq 0 k).

(** What a node that hears exactly [ps], each once, hands to its state machine;
    [m] is its duplicate filter. *)
Fixpoint hears (m : netmgr) (ps : list packet) : outcome (list packet) :=
  match ps with
  | [] => Ok []
  | p :: rest =>
      ' (r, m', _) <- nm_receive m (Some p) ;;
      got <- hears m' rest ;;
      Ok (match r with Some q => q :: got | None => got end)
  end.

(** In [h], every event has an earlier-or-equal accepted control or effect packet
    no more than [d] seconds before it, and no packet asks for a shorter hold. *)
Definition fed (hold : packet -> Z) (d : Z) (h : list event) : Prop :=
  (forall ev p, In ev h -> accepted ev p -> ptype p = 2 \/ ptype p = 3 -> d <= hold p) /\
  (forall h1 ev h2, h = h1 ++ ev :: h2 ->
     exists ev0 p, In ev0 (h1 ++ [ev]) /\ accepted ev0 p /\ (ptype p = 2 \/ ptype p = 3) /\ at_ ev <= at_ ev0 + 1000 * d).
