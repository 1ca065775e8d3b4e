(** C08 for whole nodes: what of a node's traffic gets through the device radio. *)
From Coq Require Import ZArith Lia List Bool.
From Coq Require Import ZifyBool.
From Verif Require Import CInt CIntFacts Packet SpecPacket PacketFacts HwRadio HwFacts NetMgr NetHist SpecNet NetFacts Rsm RsmStep RsmEval RsmHist SpecRsm RsmFacts RsmTime RoleFacts EffectFacts RsmRun TakeFacts PropEffect PropHold PropHw.
Import ListNotations.
Open Scope Z_scope.
Ltac Zify.zify_post_hook ::= Z.div_mod_to_equations.

(** Every packet the node was handed came out of the device radio driver, which
    was given a default-constructed packet (length 0) to fill. *)
Definition device_radio (h : list event) : Prop :=
  forall ev p, In ev h -> call ev = OTick (Some p) -> exists air p0, dlen p0 = 0 /\ hw_read air p0 = Ok (true, p).

(** No receiver gets anything from the transmission of p. *)
Definition lost (p : packet) : Prop :=
  exists frame, hw_send p = Ok frame /\ forall p1, hw_read (Some frame) p1 = Ok (false, p1).

(** Every receiver that the frame reaches gets p: id, type and the payload. *)
Definition arrives (p : packet) : Prop :=
  exists frame, hw_send p = Ok frame /\ forall p1, wf_packet p1 -> exists q, hw_read (Some frame) p1 = Ok (true, q) /\
    pid q = pid p /\ ptype q = ptype p /\ payload (Z.to_nat (dlen p)) q = payload (Z.to_nat (dlen p)) p.

Lemma empty_lost p : dlen p = 0 -> lost p.
Proof.
  intros D. unfold lost, hw_send. rewrite D. cbn [Z.ltb Z.compare obind]. eexists. split; [reflexivity|].
  intros p1. apply hw_read_short. cbn. lia.
Qed.

Lemma full_arrives p : wf_packet p -> 1 <= dlen p <= 58 -> arrives p.
Proof.
  intros W D. assert (W0 : wf_packet (mkPacket 0 0 0 zero58)) by (apply wf_packetb_ok; reflexivity).
  destruct (C06_frame_roundtrip p _ W W0 D) as (frame & S & _). exists frame. split; [exact S|]. intros p1 W1.
  destruct (C06_frame_roundtrip p p1 W W1 D) as (frame' & S' & _ & q & R & I & T & P & _). assert (frame' = frame) by congruence. subst.
  exists q. auto.
Qed.

Lemma delivered_empty h ev p : device_radio (h ++ [ev]) -> accepted ev p -> dlen p = 0.
Proof.
  intros DR [C _]. destruct (DR ev p ltac:(apply in_or_app; right; now left) C) as (air & p0 & D & R).
  rewrite (hw_read_dlen _ _ _ _ R). exact D.
Qed.

(** Relays and claims of mastership never arrive. *)
Theorem C08_relays_and_claims_lost : forall e t0 h ev p, history e t0 (h ++ [ev]) -> device_radio (h ++ [ev]) ->
  In (Forwarded p) (sent ev) \/ In (Own ByElection p) (sent ev) -> lost p.
Proof.
  intros e t0 h ev p HH DR I. apply empty_lost. destruct HH as [n H]; apply hist_last in H as (H & -> & G & O & L1 & L2 & S).
  destruct I as [I|I].
  - apply (delivered_empty h ev p DR). apply (step_accepted _ _ _ S). destruct ev as [t o m m' out]; proj.
    destruct S as [inc out m' T|q R|v|v]; proj; try (exfalso; own_in I; fail).
    exists inc. split; [reflexivity|]. apply (tick_forwarded _ _ _ _ _ _ p T). exact I.
  - destruct ev as [t o m m' out]; proj. destruct S as [inc out m' T|q R|v|v]; proj; own_in I.
    destruct T; own_in I. reflexivity.
Qed.
Print Assumptions C08_relays_and_claims_lost.

(** A master that learned the effect over the radio cannot pass it on: none of
    its announcements arrives, until it makes a change of its own or is told by
    its own application. *)
Theorem C08_learned_effect_not_passed_on : forall e t0 h1 y q h2 ev p,
  history e t0 ((h1 ++ y :: h2) ++ [ev]) -> device_radio ((h1 ++ y :: h2) ++ [ev]) ->
  accepted y q -> ptype q = 2 \/ ptype q = 3 ->
  (forall x, In x h2 -> ~ own_change x /\ forall r, call x <> OSetEffect r) ->
  In (Own ByRebroadcast p) (sent ev) -> lost p.
Proof.
  intros e t0 h1 y q h2 ev p HH DR A Q N I. apply empty_lost.
  destruct (C32_rebroadcast_is_current _ _ _ _ _ HH I) as ((_ & D & _) & _). rewrite D. clear D I.
  destruct HH as [n H]. apply hist_last in H as (H & _). revert H. generalize (before ev) as m. clear n.
  assert (DR' : device_radio (h1 ++ y :: h2)) by (intros x r J; apply DR; apply in_or_app; now left). clear DR p.
  induction h2 as [|x h2 IH] using rev_ind; intros m H.
  - pose proof (delivered_empty h1 y q DR' A) as D0. pose proof (ex_intro _ m H : history e t0 (h1 ++ [y])) as HH.
    apply hist_last in H as (_ & -> & _).
    destruct Q as [Q|Q]; [destruct (C27_set_effect_adopted _ _ _ _ _ HH A Q) as [E _]|destruct (C27_control_adopted _ _ _ _ _ HH A Q) as [E _]]; rewrite E; exact D0.
  - replace (h1 ++ y :: h2 ++ [x]) with ((h1 ++ y :: h2) ++ [x]) in * by (rewrite <- app_assoc; reflexivity).
    pose proof (ex_intro _ m H : history e t0 ((h1 ++ y :: h2) ++ [x])) as HH.
    apply hist_last in H as (H & -> & _ & _ & _ & _ & S).
    assert (IHx : dlen (GetSetEffect (before x)) = 0).
    { apply IH; [|intros z r J; apply DR'; apply in_or_app; now left|exact H]. intros z J. apply N. apply in_or_app. now left. }
    destruct (N x) as [NC NS]; [apply in_or_app; right; now left|].
    destruct (takes_dec e x S) as [(r & Ar & Tr)|NT].
    + rewrite <- (delivered_empty _ x r DR' Ar).
      destruct Tr as [Tr|Tr]; [destruct (C27_set_effect_adopted _ _ _ _ _ HH Ar Tr) as [E _]|destruct (C27_control_adopted _ _ _ _ _ HH Ar Tr) as [E _]]; rewrite E; reflexivity.
    + destruct (C27_nothing_else_changes_the_effect _ _ _ _ HH) as [(_ & E & _) _]; [|exact NS|exact NC|congruence].
      intros r Ar. split; intros Tr; apply NT; exists r; auto.
Qed.
Print Assumptions C08_learned_effect_not_passed_on.

(** What does arrive: heartbeats and a master's own changes. *)
Theorem C08_own_news_arrives : forall e t0 h ev p, history e t0 (h ++ [ev]) ->
  In (Own ByHeartbeat p) (sent ev) \/ In (Own ByChange p) (sent ev) -> arrives p.
Proof.
  intros e t0 h ev p HH I. destruct HH as [n H]; apply hist_last in H as (H & -> & G & O & L1 & L2 & S).
  destruct ev as [t o m m' out]; proj.
  assert (HB : forall k, arrives (set_id (writeHeartbeat (GetNetworkMillis (u32 t) m) (packet_ m)) (id_of (plat e) k))).
  { intros k. apply full_arrives; [apply set_id_wf; [|apply id_of_range]|cbn; lia].
    apply writeHeartbeat_wf. apply G. }
  assert (CE : forall a b k, arrives (set_id (writeSetEffect a 0 b (packet_ m)) (id_of (plat e) k))).
  { intros a b k. apply full_arrives; [apply set_id_wf; [|apply id_of_range]|cbn; lia].
    apply writeSetEffect_wf. apply G. }
  destruct S as [inc out m' T|q R|v|v]; proj; try (exfalso; destruct I as [I|I]; own_in I; fail).
  destruct T; proj; destruct I as [I|I]; own_in I; first [apply HB|apply CE].
Qed.
Print Assumptions C08_own_news_arrives.

(** A slave hears an effect over the device radio, loses its master and takes
    over: its heartbeat arrives, its announcement of the effect is lost. *)
Example C08_node_example : exists h1 y q h2 ev p,
  history (env0 Arduino) 0 ((h1 ++ y :: h2) ++ [ev]) /\ device_radio ((h1 ++ y :: h2) ++ [ev]) /\
  accepted y q /\ ptype q = 2 /\ (forall x, In x h2 -> ~ own_change x /\ forall r, call x <> OSetEffect r) /\
  In (Own ByRebroadcast p) (sent ev) /\ (exists x r, In x h2 /\ In (Own ByHeartbeat r) (sent x)).
Proof.
  pose (q := mkPacket 513 2 0 ([7; 1; 2] ++ repeat 0 55)).
  run_as H (env0 Arduino) 0 [(100, OTick (Some (mkPacket 513 2 0 ([7; 1; 2] ++ repeat 0 55)))); (7000, OTick None); (8500, OTick None); (9400, OTick None)].
  match type of H with hist _ _ [?a; ?b; ?c; ?d] _ => exists [], a, q, [b; c], d end. eexists.
  split; [eexists; exact H|]. split.
  - intros ev p I C. cbn [app In] in I. repeat (destruct I as [<-|I]; [try discriminate C|]); [|destruct I]. injection C as <-.
    exists (Some [2; 1; 2; 7; 1; 2]), (mkPacket 0 0 0 zero58). split; vm_compute; reflexivity.
  - split; [split; [reflexivity|left; reflexivity]|]. split; [reflexivity|]. split.
    + in_all; (split; [intros (? & I); own_in I|discriminate]).
    + split; [left; reflexivity|]. do 2 eexists. split; [left; reflexivity|left; reflexivity].
Qed.
