(** Specification vocabulary for the network layer.  Uses only the data types
    [packet] and [tx]. *)
From Coq Require Import ZArith List.
From Verif Require Import Packet NetMgr.
Import ListNotations.
Open Scope Z_scope.

(** The ids of a list of transmissions, oldest first. *)
Definition ids_of (l : list tx) : list Z := map (fun t => pid (tx_packet t)) l.

(** The last five elements of 0,0,0,0,0,ids: what a node that has transmitted
    [ids] (oldest first) may remember. *)
Definition last5 (ids : list Z) : list Z := skipn (length ids) ([0;0;0;0;0] ++ ids).
