(** Specification vocabulary for histories with a moving clock (RsmClock.v). *)
From Coq Require Import ZArith List.
From Verif Require Import CInt Packet NetMgr Rsm RsmHist SpecRsm RsmClock.
Import ListNotations.
Open Scope Z_scope.

(** The node was built before time [T], and every call ended before it. *)
Definition ends_before (T t0 : Z) (h : list timed) : Prop := t0 < T /\ forall x, In x h -> ended x < T.

(** As [change_scheduled] and [change_never] of SpecRsm.v: the next own effect
    change does not happen in calls that have ended by [lo], and happens in the
    first radio tick that begins after [hi], accepts no packet and sends no
    heartbeat. *)
Definition cchange_scheduled (e : env) (t0 : Z) (h : list timed) (lo hi : Z) : Prop :=
  forall h2 x, chistory e t0 (h ++ h2 ++ [x]) -> ends_before wrap t0 (h ++ h2 ++ [x]) ->
    (forall y, In y (h2 ++ [x]) -> undisturbed (what y)) ->
    (forall y, In y h2 -> ~ own_change (what y)) ->
    (ended x <= lo -> ~ own_change (what x)) /\
    (hi < started x -> packet_free (what x) -> ~ own_heartbeat (what x) -> own_change (what x)).
Definition cchange_never (e : env) (t0 : Z) (h : list timed) : Prop :=
  forall h2 x, chistory e t0 (h ++ h2 ++ [x]) ->
    (forall y, In y (h2 ++ [x]) -> undisturbed (what y)) -> ~ own_change (what x).

(** The last call in which the node saw the effect change lasted from [lo] to
    [hi]; both are 0 if there was none. *)
Definition clast_seen (h : list timed) (lo hi : Z) : Prop :=
  (lo = 0 /\ hi = 0 /\ forall x, In x h -> ~ effect_change_seen (what x)) \/
  (exists h1 x h2, h = h1 ++ x :: h2 /\ effect_change_seen (what x) /\ lo = started x /\ hi = ended x /\
     forall y, In y h2 -> ~ effect_change_seen (what y)).
