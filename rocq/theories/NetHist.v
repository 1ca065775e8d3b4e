(** Histories of one NetworkManager: any sequence of calls of its two public
    functions, /repo/src/generic/NetworkManager.cpp lines 10-34. *)
From Coq Require Import ZArith List.
From Verif Require Import CInt Packet NetMgr.
Import ListNotations.
Open Scope Z_scope.

(** A call: [receive] while the radio has [inc] ready, or [send] of a packet
    with raw random draw [raw]. *)
Inductive nm_op := NReceive (inc : option packet) | NSend (p : packet) (raw : N).

Definition nm_step (pl : platform) (m : netmgr) (o : nm_op) : outcome (netmgr * list tx) :=
  match o with
  | NReceive inc => '(_, m', out) <- nm_receive m inc ;; Ok (m', out)
  | NSend p raw => '(_, m', out) <- nm_send pl raw m p ;; Ok (m', out)
  end.

(** A whole history, from the oldest call to the newest; the result lists all
    transmissions, oldest first. *)
Fixpoint nm_run (pl : platform) (m : netmgr) (ops : list nm_op) : outcome (netmgr * list tx) :=
  match ops with
  | [] => Ok (m, [])
  | o :: rest =>
      '(m1, out1) <- nm_step pl m o ;;
      '(m2, out2) <- nm_run pl m1 rest ;;
      Ok (m2, out1 ++ out2)
  end.
