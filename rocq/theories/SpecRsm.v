(** Specification vocabulary for one node's radio state machine.  Uses only the
    public getters, the calls made and the packets transmitted. *)
From Coq Require Import ZArith List.
From Verif Require Import CInt Packet NetMgr Rsm RsmHist.
Import ListNotations.
Open Scope Z_scope.

(** In this call the node accepted packet p (a node relays what it accepts). *)
Definition accepted (ev : event) (p : packet) : Prop :=
  call ev = OTick (Some p) /\ In (Forwarded p) (sent ev).

(** A radio tick that accepted no packet. *)
Definition packet_free (ev : event) : Prop :=
  (exists inc, call ev = OTick inc) /\ forall p, ~ In (Forwarded p) (sent ev).

(** It accepted a sign of life of a master. *)
Definition contact (ev : event) : Prop :=
  exists p, accepted ev p /\ (ptype p = 0 \/ ptype p = 1).

Definition role_before (ev : event) : role := GetCurrentState (before ev).
Definition role_after (ev : event) : role := GetCurrentState (after ev).
Definition took_over (ev : event) : Prop := role_before ev = Slave /\ role_after ev = Master.
Definition stepped_down (ev : event) : Prop := role_before ev = Master /\ role_after ev = Slave.

(** It transmitted packet p of its own (not a relay). *)
Definition originated (ev : event) (p : packet) : Prop := exists s, In (Own s p) (sent ev).
Definition originates_nothing (ev : event) : Prop := forall p, ~ originated ev p.
Definition own_heartbeat (ev : event) : Prop := exists p, originated ev p /\ ptype p = 0.

(** SetEffect is only called with set-effect and control packets. *)
Definition api_ok (h : list event) : Prop :=
  forall ev p, In ev h -> call ev = OSetEffect p -> ptype p = 2 \/ ptype p = 3.

(** Every call, and the construction, happened before time T. *)
Definition all_before (T t0 : Z) (h : list event) : Prop :=
  t0 < T /\ forall ev, In ev h -> at_ ev < T.

(** 2^32 ms = 49 days, 17 hours. *)
Definition wrap : Z := 4294967296.

(** Same packet up to the id. *)
Definition same_content (p q : packet) : Prop :=
  ptype p = ptype q /\ dlen p = dlen q /\ pdata p = pdata q.

(** Everything transmitted during a history, oldest first. *)
Definition rtx_packet (t : rtx) : packet := match t with Forwarded p => p | Own _ p => p end.
Definition all_ids (h : list event) : list Z :=
  map (fun t => pid (rtx_packet t)) (concat (map sent h)).

(** It sent a packet of its own from the given call site. *)
Definition by_site (s : site) (ev : event) : Prop := exists p, In (Own s p) (sent ev).

(** The node changed the effect by itself. *)
Definition own_change (ev : event) : Prop := by_site ByChange ev.

(** The node stayed master and nobody told it which effect to show. *)
Definition undisturbed (ev : event) : Prop :=
  role_before ev = Master /\ role_after ev = Master /\
  (forall p, accepted ev p -> ptype p <> 2 /\ ptype p <> 3) /\
  (forall p, call ev <> OSetEffect p).

(** After h, as long as the node is undisturbed: its next own effect change does
    not happen up to time [due], and it happens at the first radio tick after
    [due] that accepts no packet and sends no heartbeat. *)
Definition change_scheduled (e : env) (t0 : Z) (h : list event) (due : Z) : Prop :=
  forall h2 ev, history e t0 (h ++ h2 ++ [ev]) -> all_before wrap t0 (h ++ h2 ++ [ev]) ->
    (forall x, In x (h2 ++ [ev]) -> undisturbed x) ->
    (forall x, In x h2 -> ~ own_change x) ->
    (at_ ev <= due -> ~ own_change ev) /\
    (due < at_ ev -> packet_free ev -> ~ own_heartbeat ev -> own_change ev).

(** After h, as long as the node is undisturbed, it never changes the effect by
    itself. *)
Definition change_never (e : env) (t0 : Z) (h : list event) : Prop :=
  forall h2 ev, history e t0 (h ++ h2 ++ [ev]) ->
    (forall x, In x (h2 ++ [ev]) -> undisturbed x) -> ~ own_change ev.

(** A slave saw the effect change: it accepted a control packet, or a set-effect
    packet whose effect or palette differs from what it shows, or whose effect
    index is 128 or more. *)
Definition effect_change_seen (ev : event) : Prop :=
  role_before ev = Slave /\ exists p, accepted ev p /\
    (ptype p = 3 \/
     ptype p = 2 /\ (nth 0 (pdata p) 0 <> GetEffectIndex (before ev) \/
                     128 <= nth 0 (pdata p) 0 \/
                     nth 2 (pdata p) 0 <> nth 2 (pdata (GetSetEffect (before ev))) 0)).

(** [s] is the time of the last such moment; 0 if there was none. *)
Definition last_seen (h : list event) (s : Z) : Prop :=
  (s = 0 /\ forall ev, In ev h -> ~ effect_change_seen ev) \/
  (exists h1 ev h2, h = h1 ++ ev :: h2 /\ effect_change_seen ev /\ s = at_ ev /\
     forall x, In x h2 -> ~ effect_change_seen x).
