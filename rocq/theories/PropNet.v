(** C10-C14: one NetworkManager. *)
From Coq Require Import ZArith Lia List Bool.
From Verif Require Import CInt CIntFacts Packet NetMgr NetHist SpecNet NetFacts.
Import ListNotations.
Open Scope Z_scope.

Definition hb_packet (i : Z) : packet := mkPacket i 0 4 (repeat 1 58).

(** C10. After any history of calls, which transmitted [sent] (oldest first),
    receive succeeds exactly for ids not among the last five transmitted.  No
    history fails. *)
Theorem C10_accept_iff_not_recent :
  forall (pl : platform) (ops : list nm_op),
    exists m sent, nm_run pl nm_init ops = Ok (m, sent) /\
    forall p : packet,
      exists r m' out, nm_receive m (Some p) = Ok (r, m', out) /\
        (r = Some p <-> ~ In (pid p) (last5 (ids_of sent))) /\
        (r = None <-> In (pid p) (last5 (ids_of sent))).
Proof.
  intros pl ops. destruct (nm_run_inv pl ops nm_init [] nm_inv_init) as (m & sent & E & H).
  exists m, sent. split; [exact E|]. intros p. cbn [app] in H.
  destruct (nm_receive_inv m sent (Some p) H) as (r & m' & out & Er & _ & C).
  exists r, m', out. split; [exact Er|]. destruct C as [(A & B & _)|(A & B & _)]; subst r.
  - split; split; intros; auto; [discriminate|contradiction].
  - split; split; intros; auto; [discriminate|contradiction].
Qed.
Print Assumptions C10_accept_iff_not_recent.

(** Six transmissions: the window has wrapped; id 101 is forgotten, 102 not. *)
Example C10_example :
  exists m sent,
    nm_run Host nm_init (map (fun i => NReceive (Some (hb_packet i))) [101;102;103;104;105;106]) = Ok (m, sent) /\
    last5 (ids_of sent) = [102;103;104;105;106] /\
    (exists m', nm_receive m (Some (hb_packet 101)) = Ok (Some (hb_packet 101), m', [Relay (hb_packet 101)])) /\
    nm_receive m (Some (hb_packet 102)) = Ok (None, m, []).
Proof.
  do 2 eexists. split; [vm_compute; reflexivity|]. split; [reflexivity|].
  split; [eexists|]; vm_compute; reflexivity.
Qed.

(** C11. *)
Theorem C11_relay_exact :
  forall (pl : platform) (ops : list nm_op) (m : netmgr) (sent : list tx) (inc : option packet),
    nm_run pl nm_init ops = Ok (m, sent) ->
    exists r m' out, nm_receive m inc = Ok (r, m', out) /\
      (forall p, r = Some p -> inc = Some p /\ out = [Relay p]) /\
      (r = None -> out = [] /\ m' = m) /\
      (inc = None -> r = None).
Proof.
  intros pl ops m sent inc E. apply nm_run_init in E.
  destruct (nm_receive_inv m sent inc E) as (r & m' & out & Er & _ & C).
  exists r, m', out. split; [exact Er|]. destruct inc as [p|].
  - destruct C as [(A & -> & -> & ->)|(A & -> & ->)]; split; try split; intros; try discriminate; auto.
    inversion H; subst; auto.
  - destruct C as (-> & -> & ->). split; [|split]; intros; auto; discriminate.
Qed.
Print Assumptions C11_relay_exact.

Example C11_example :
  exists m', nm_receive nm_init (Some (hb_packet 9)) = Ok (Some (hb_packet 9), m', [Relay (hb_packet 9)]) /\
             nm_receive m' (Some (hb_packet 9)) = Ok (None, m', []).
Proof. eexists. split; vm_compute; reflexivity. Qed.

(** C12. A history, then a send of [p] (transmitted as [p']), then further calls
    that transmit [more]: an echo with the id of p' is rejected while [more] has
    fewer than five packets, and accepted once five others followed. *)
Theorem C12_own_echo :
  forall (pl : platform) (ops1 ops2 : list nm_op) (p p' q : packet) (raw : N)
         (m0 m1 m2 : netmgr) (sent out more : list tx),
    nm_run pl nm_init ops1 = Ok (m0, sent) ->
    nm_send pl raw m0 p = Ok (p', m1, out) ->
    nm_run pl m1 ops2 = Ok (m2, more) ->
    pid q = pid p' ->
    ((length more < 5)%nat -> nm_receive m2 (Some q) = Ok (None, m2, [])) /\
    (length more = 5%nat -> ~ In (pid p') (ids_of more) ->
       exists m3, nm_receive m2 (Some q) = Ok (Some q, m3, [Relay q])).
Proof.
  intros pl ops1 ops2 p p' q raw m0 m1 m2 sent out more E0 E1 E2 Hq.
  apply nm_run_init in E0.
  destruct (nm_send_inv pl raw m0 sent p E0) as (id & mm & Es & _ & Hi).
  rewrite Es in E1; inversion E1; subst; clear E1.
  destruct (nm_run_inv pl ops2 m1 _ Hi) as (m2' & more' & E2' & H2).
  rewrite E2 in E2'; inversion E2'; subst m2' more'; clear E2'.
  destruct (nm_receive_inv m2 _ (Some q) H2) as (r & m3 & out & Er & _ & C).
  cbn [pid] in Hq.
  assert (Hl : forall k, length more = k -> (k <= 5)%nat ->
    last5 (ids_of ((sent ++ [Orig {| pid := id; ptype := ptype p; dlen := dlen p; pdata := pdata p |}]) ++ more)) =
    skipn k (tl (last5 (ids_of sent)) ++ [id]) ++ ids_of more).
  { intros k Hk H5. rewrite !ids_of_app. rewrite last5_app by (unfold ids_of; rewrite map_length; lia).
    cbn [ids_of map tx_packet pid]. rewrite last5_snoc. unfold ids_of at 1. rewrite map_length, Hk. reflexivity. }
  pose proof (last5_length (ids_of sent)) as L5.
  destruct (last5 (ids_of sent)) as [|a0 [|a1 [|a2 [|a3 [|a4 [|]]]]]] eqn:EL; try discriminate.
  split.
  - intros Hlt. destruct C as [(A & -> & -> & ->)|(A & _)]; [exact Er|].
    exfalso. apply A. rewrite (Hl (length more) eq_refl) by lia. rewrite Hq. apply in_or_app; left.
    cbn [tl app]. destruct (length more) as [|[|[|[|[|k]]]]]; cbn; auto; lia.
  - intros H5 Hn. destruct C as [(A & _)|(A & -> & ->)]; [|eauto].
    exfalso. rewrite (Hl 5%nat H5) in A by lia. cbn [tl app skipn] in A. rewrite Hq in A. contradiction.
Qed.
Print Assumptions C12_own_echo.

Example C12_example :
  exists p' m1 m2, nm_send Arduino 1000 nm_init (hb_packet 0) = Ok (p', m1, [Orig p']) /\
    pid p' = 1002 /\
    nm_run Arduino m1 (map (fun i => NReceive (Some (hb_packet i))) [11;12;13;14]) =
      Ok (m2, map (fun i => Relay (hb_packet i)) [11;12;13;14]) /\
    nm_receive m2 (Some (hb_packet 1002)) = Ok (None, m2, []).
Proof. do 3 eexists. split; [vm_compute; reflexivity|]. split; [reflexivity|]. split; vm_compute; reflexivity. Qed.

(** C13. *)
Theorem C13_id_zero :
  forall (pl : platform) (ops : list nm_op) (m : netmgr) (sent : list tx) (q : packet),
    nm_run pl nm_init ops = Ok (m, sent) -> pid q = 0 ->
    ((length sent < 5)%nat -> nm_receive m (Some q) = Ok (None, m, [])) /\
    (forall older newer, sent = older ++ newer -> length newer = 5%nat -> ~ In 0 (ids_of newer) ->
       exists m', nm_receive m (Some q) = Ok (Some q, m', [Relay q])).
Proof.
  intros pl ops m sent q E Hq. apply nm_run_init in E.
  destruct (nm_receive_inv m sent (Some q) E) as (r & m' & out & Er & _ & C). split.
  - intros Hl. destruct C as [(A & -> & -> & ->)|(A & _)]; [exact Er|].
    exfalso. apply A. rewrite Hq. apply last5_zero. unfold ids_of; rewrite map_length; exact Hl.
  - intros older newer -> Hl Hn. destruct C as [(A & _)|(A & -> & ->)]; [|eauto].
    exfalso. rewrite ids_of_app, last5_app in A by (unfold ids_of; rewrite map_length; lia).
    assert (L : length (ids_of newer) = 5%nat) by (unfold ids_of; rewrite map_length; exact Hl).
    rewrite L in A. pose proof (last5_length (ids_of older)) as L5.
    rewrite skipn_all2 in A by lia. rewrite Hq in A. cbn [app] in A. contradiction.
Qed.
Print Assumptions C13_id_zero.

Example C13_example :
  nm_receive nm_init (Some (hb_packet 0)) = Ok (None, nm_init, []) /\
  exists m, nm_run Host nm_init (map (fun i => NReceive (Some (hb_packet i))) [11;12;13;14;15]) =
      Ok (m, map (fun i => Relay (hb_packet i)) [11;12;13;14;15]) /\
    exists m', nm_receive m (Some (hb_packet 0)) = Ok (Some (hb_packet 0), m', [Relay (hb_packet 0)]).
Proof. split; [reflexivity|]. eexists. split; [vm_compute; reflexivity|]. eexists; vm_compute; reflexivity. Qed.

(** C14. Every send transmits exactly the given packet under a new id; its range
    depends on the build. *)
Theorem C14_originated_ids :
  forall (pl : platform) (ops : list nm_op) (m : netmgr) (sent : list tx) (p : packet) (raw : N),
    nm_run pl nm_init ops = Ok (m, sent) ->
    exists id m', let p' := mkPacket id (ptype p) (dlen p) (pdata p) in
      nm_send pl raw m p = Ok (p', m', [Orig p']) /\
      match pl with
      | Arduino => 2 <= id <= 65534
      | Host => id = 0 \/ 2 <= id <= 65535
      end.
Proof.
  intros pl ops m sent p raw E. apply nm_run_init in E.
  destruct (nm_send_inv pl raw m sent p E) as (id & m' & Es & Ei & _).
  destruct (random2_id_ok pl raw) as (id' & Ei' & R). rewrite Ei in Ei'. inversion Ei'; subst id'.
  exists id, m'. cbv zeta. auto.
Qed.
Print Assumptions C14_originated_ids.

(** C14, the documented range [2, 0xFFFF) fails on the host build: ids 65535 and
    0 occur, and the packet with id 0 is not accepted by a fresh node. *)
Theorem C14_host_range_refuted :
  exists (p : packet) (raw1 raw2 : N) (m1 m2 : netmgr) (p1 p2 : packet),
    nm_send Host raw1 nm_init p = Ok (p1, m1, [Orig p1]) /\ pid p1 = 65535 /\
    nm_send Host raw2 nm_init p = Ok (p2, m2, [Orig p2]) /\ pid p2 = 0 /\
    nm_receive nm_init (Some p2) = Ok (None, nm_init, []).
Proof.
  exists (hb_packet 7), 65533%N, 65534%N. do 4 eexists.
  repeat split; vm_compute; reflexivity.
Qed.
Print Assumptions C14_host_range_refuted.
