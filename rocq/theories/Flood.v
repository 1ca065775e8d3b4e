(** A network of NetworkManagers (/repo/src/generic/NetworkManager.cpp) joined by
    an arbitrary medium.  The medium is ours, not code from /repo: any packet
    ever transmitted by any node may be delivered to any node, at any later
    time, any number of times, in any order, or never.  This covers every
    topology, loss, duplication, delay and reordering. *)
From Coq Require Import ZArith List Bool PeanoNat.
From Verif Require Import CInt Packet NetMgr.
Import ListNotations.
Open Scope Z_scope.

(** [air]: everything transmitted so far, oldest first, with the number of the
    transmitting node. *)
Record world := mkWorld { nodes : list netmgr; air : list (nat * tx) }.

Definition world_init (n : nat) : world := mkWorld (repeat nm_init n) [].

(** What can happen: node [i] calls send, or node [i] calls receive while its
    radio holds the packet of the [k]-th transmission. *)
Inductive event := Originate (i : nat) (p : packet) (raw : N) | Deliver (i k : nat).

Definition world_step (pl : platform) (w : world) (ev : event) : outcome world :=
  match ev with
  | Originate i p raw =>
      match nth_error (nodes w) i with
      | None => Ok w
      | Some m =>
          '(_, m', out) <- nm_send pl raw m p ;;
          Ok (mkWorld (list_set (nodes w) i m') (air w ++ map (pair i) out))
      end
  | Deliver i k =>
      match nth_error (nodes w) i, nth_error (air w) k with
      | Some m, Some (_, t) =>
          '(_, m', out) <- nm_receive m (Some (tx_packet t)) ;;
          Ok (mkWorld (list_set (nodes w) i m') (air w ++ map (pair i) out))
      | _, _ => Ok w
      end
  end.

Fixpoint world_run (pl : platform) (w : world) (sched : list event) : outcome world :=
  match sched with
  | [] => Ok w
  | ev :: rest => w1 <- world_step pl w ev ;; world_run pl w1 rest
  end.
