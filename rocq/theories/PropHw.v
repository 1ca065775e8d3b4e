(** C06-C09: the device radio driver.  (C08's second half, about a master's
    effect broadcast, is in PropRsmHw.v.) *)
From Coq Require Import ZArith Lia List Bool.
From Verif Require Import CInt Packet SpecPacket PacketFacts HwRadio HwFacts NetMgr PropPacket.
Import ListNotations.
Open Scope Z_scope.

(** C06. What a receiver decodes from the frame of [p], whatever its packet
    object [p0] held before. *)
Theorem C06_frame_roundtrip :
  forall p p0 : packet, wf_packet p -> wf_packet p0 -> 1 <= dlen p <= 58 ->
    exists frame, hw_send p = Ok frame /\ Z.of_nat (length frame) = dlen p + 3 /\
    exists q, hw_read (Some frame) p0 = Ok (true, q) /\
      pid q = pid p /\ ptype q = ptype p /\
      payload (Z.to_nat (dlen p)) q = payload (Z.to_nat (dlen p)) p /\
      skipn (Z.to_nat (dlen p)) (pdata q) = skipn (Z.to_nat (dlen p)) (pdata p0) /\
      dlen q = dlen p0.
Proof. exact hw_roundtrip. Qed.
Print Assumptions C06_frame_roundtrip.

(** C06, the negative part: the received packet is not equal (operator==) to the
    one sent; a fresh packet object keeps length 0. *)
Theorem C06_length_lost_refuted :
  exists p p0 frame q, wf_packet p /\ wf_packet p0 /\ dlen p0 = 0 /\ 1 <= dlen p <= 58 /\
    hw_send p = Ok frame /\ hw_read (Some frame) p0 = Ok (true, q) /\
    dlen q = 0 /\ dlen p = 4 /\ packet_eqb p q = false.
Proof.
  assert (W : wf_packet (mkPacket 7 0 4 (repeat 1 58))).
  { unfold wf_packet, is_byte; cbn [pid ptype dlen pdata]. repeat split; try lia.
    apply Forall_forall; intros x Hx; apply repeat_spec in Hx; unfold is_byte; lia. }
  assert (W0 : wf_packet (mkPacket 0 0 0 (repeat 9 58))).
  { unfold wf_packet, is_byte; cbn [pid ptype dlen pdata]. repeat split; try lia.
    apply Forall_forall; intros x Hx; apply repeat_spec in Hx; unfold is_byte; lia. }
  eexists _, _, _, _. split; [exact W|]. split; [exact W0|]. split; [reflexivity|].
  split; [cbn [dlen]; lia|]. split; [reflexivity|]. split; [vm_compute; reflexivity|].
  vm_compute. auto.
Qed.
Print Assumptions C06_length_lost_refuted.

Example C06_example :
  hw_send (writeHeartbeat 258 ex_packet) = Ok [2; 1; 0; 0; 0; 1; 2] /\
  exists q, hw_read (Some [2; 1; 0; 0; 0; 1; 2]) (mkPacket 0 0 0 (repeat 9 58)) = Ok (true, q) /\
    pid q = 513 /\ readTimeFromHeartbeat Arduino q = Ok 258.
Proof. split; [reflexivity|]. eexists. split; [vm_compute; reflexivity|]. vm_compute. auto. Qed.

(** C07. *)
Theorem C07_empty_packets_never_delivered :
  (forall p p0 : packet, wf_packet p -> dlen p = 0 ->
     exists frame, hw_send p = Ok frame /\ hw_read (Some frame) p0 = Ok (false, p0)) /\
  (forall frame p0, (length frame <= 3)%nat -> hw_read (Some frame) p0 = Ok (false, p0)) /\
  (forall p0, hw_read None p0 = Ok (false, p0)).
Proof.
  split; [|split; [exact hw_read_short|reflexivity]].
  intros p p0 W H. eexists. split; [apply hw_send_ok; [exact W|lia]|].
  apply hw_read_short. rewrite H. cbn. lia.
Qed.
Print Assumptions C07_empty_packets_never_delivered.

(** A claim-master packet as PerformMasterElection builds it: type 1, length 0. *)
Example C07_example :
  hw_send (mkPacket 40000 CLAIM_MASTER 0 (repeat 5 58)) = Ok [156; 64; 1] /\
  hw_read (Some [156; 64; 1]) (mkPacket 0 0 0 (repeat 9 58)) = Ok (false, mkPacket 0 0 0 (repeat 9 58)).
Proof. vm_compute. auto. Qed.

(** C08, relays.  [p0] is the packet object RadioTick passes down: default
    constructed, so its length is 0; its type and payload are indeterminate. *)
Theorem C08_relay_dies_after_one_hop :
  forall (air : option (list Z)) (p0 q r : packet) (m m' : netmgr) (b : option packet) (out : list tx),
    dlen p0 = 0 -> 
    hw_read air p0 = Ok (true, q) ->
    nm_receive m (Some q) = Ok (b, m', out) ->
    In (Relay r) out ->
    forall frame p1, hw_send r = Ok frame -> hw_read (Some frame) p1 = Ok (false, p1).
Proof.
  intros air p0 q r m m' b out H0 HR HN Hin frame p1 HS.
  apply hw_read_dlen in HR. rewrite H0 in HR.
  cbn in HN. destruct (existsb _ _); [inversion HN; subst; destruct Hin|].
  destruct (nm_add m (pid q)) as [mm| |]; cbn in HN; inversion HN; subst.
  destruct Hin as [Hin|[]]. inversion Hin; subst r.
  apply hw_read_short. unfold hw_send in HS. rewrite HR in HS. cbn in HS. inversion HS; subst. cbn. lia.
Qed.
Print Assumptions C08_relay_dies_after_one_hop.

Example C08_example :
  exists q m' r, hw_read (Some [2; 1; 0; 0; 0; 1; 2]) (mkPacket 0 0 0 (repeat 9 58)) = Ok (true, q) /\
    nm_receive nm_init (Some q) = Ok (Some q, m', [Relay r]) /\ hw_send r = Ok [2; 1; 0].
Proof. do 3 eexists. split; [vm_compute; reflexivity|]. split; vm_compute; reflexivity. Qed.

(** C09. *)
Theorem C09_send_bounds :
  forall p : packet, wf_packet p ->
    (dlen p <= 58 <-> exists frame, hw_send p = Ok frame) /\
    (58 < dlen p <-> hw_send p = Undef).
Proof.
  intros p W. destruct (Z.le_gt_cases (dlen p) 58) as [H|H].
  - rewrite (hw_send_ok p W H). split; split; intros; try lia; eauto. discriminate.
  - rewrite (hw_send_undef p W H). split; split; intros; auto; try lia. destruct H0; discriminate.
Qed.
Print Assumptions C09_send_bounds.

Theorem C09_receive_bounds :
  forall (frame : list Z) (p0 : packet), wf_packet p0 ->
    ((length frame <= 61)%nat <-> exists r q, hw_read (Some frame) p0 = Ok (r, q)) /\
    ((61 < length frame)%nat <-> hw_read (Some frame) p0 = Undef).
Proof.
  intros frame p0 W. pose proof (wf_data_length p0 W) as L.
  destruct (Nat.le_gt_cases (length frame) 61) as [H|H].
  - destruct (hw_read_defined frame p0 L H) as (r & q & E & _). rewrite E.
    split; split; intros; try lia; eauto. discriminate.
  - rewrite (hw_read_undef frame p0 L H). split; split; intros; auto; try lia.
    destruct H0 as (? & ? & ?); discriminate.
Qed.
Print Assumptions C09_receive_bounds.

Example C09_example :
  hw_send (mkPacket 1 2 59 (repeat 0 58)) = Undef /\
  hw_read (Some (repeat 0 62)) (mkPacket 0 0 0 (repeat 9 58)) = Undef /\
  (exists q, hw_read (Some (repeat 7 61)) (mkPacket 0 0 0 (repeat 9 58)) = Ok (true, q)).
Proof. split; [reflexivity|]. split; [reflexivity|]. eexists. vm_compute. reflexivity. Qed.
