(** Histories of one node: construction followed by timed calls of the public
    interface.  [at_] is real time in milliseconds since power-up and unbounded;
    the C++ function millis() is its low 32 bits. *)
From Coq Require Import ZArith List.
From Verif Require Import CInt Packet NetMgr Rsm.
Import ListNotations.
Open Scope Z_scope.

(** One call: when, which call, the node before and after, and what was
    transmitted. *)
Record event := mkEv {
  at_ : Z;
  call : op;
  before : node;
  after : node;
  sent : list rtx
}.

(** Packets handed to the node are values of the C++ type RadioPacket. *)
Definition op_ok (o : op) : Prop :=
  match o with
  | OTick (Some p) => wf_packet p
  | OTick None => True
  | OSetEffect p => wf_packet p
  | OSetNumPalettes _ => True
  | OSetNumEffects _ => True
  end.

(** [hist e t0 h n]: a node constructed at time t0 has gone through the calls h
    (oldest first), all of which returned, and is now in state n.  The members
    the constructor leaves uninitialised (types ty1, ty2 and contents d1, d2 of
    the two packets) are arbitrary. *)
Inductive hist (e : env) (t0 : Z) : list event -> node -> Prop :=
| hist_start ty1 ty2 d1 d2 n :
    0 <= t0 ->
    wf_packet (mkPacket 0 ty1 0 d1) -> wf_packet (mkPacket 0 ty2 0 d2) ->
    construct e (u32 t0) ty1 ty2 d1 d2 = Ok n ->
    hist e t0 [] n
| hist_step h n t o n' out :
    hist e t0 h n ->
    t0 <= t -> (forall ev, In ev h -> at_ ev <= t) ->
    op_ok o ->
    step e (u32 t) o n = Ok (tt, n', out) ->
    hist e t0 (h ++ [mkEv t o n n' out]) n'.

Definition history (e : env) (t0 : Z) (h : list event) : Prop := exists n, hist e t0 h n.
