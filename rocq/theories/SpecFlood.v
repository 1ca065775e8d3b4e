(** Specification vocabulary for flooding: reads only the log of transmissions. *)
From Coq Require Import ZArith List PeanoNat.
From Verif Require Import Packet NetMgr.
Import ListNotations.
Open Scope Z_scope.

(** Ids transmitted by node i, oldest first. *)
Definition ids_by (i : nat) (log : list (nat * tx)) : list Z :=
  map (fun e => pid (tx_packet (snd e))) (filter (fun e => Nat.eqb (fst e) i) log).

(** Ids of newly originated (not relayed) packets, oldest first. *)
Definition originated (log : list (nat * tx)) : list Z :=
  flat_map (fun e => match snd e with Orig p => [pid p] | Relay _ => [] end) log.
