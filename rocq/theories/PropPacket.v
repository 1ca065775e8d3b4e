(** C01-C05: packets. *)
From Coq Require Import ZArith Lia List Bool.
From Verif Require Import CInt Packet SpecPacket PacketFacts.
Import ListNotations.
Open Scope Z_scope.

(** A packet with some previous content, used in the examples. *)
Definition ex_packet : packet := mkPacket 513 3 200 (map Z.of_nat (seq 100 58)).
Example ex_packet_wf : wf_packet ex_packet.
Proof.
  unfold wf_packet, is_byte, ex_packet. cbn [pid ptype dlen pdata].
  repeat split; try lia. apply Forall_forall. intros x Hx. apply in_map_iff in Hx.
  destruct Hx as (k & <- & Hk). apply in_seq in Hk. unfold is_byte. lia.
Qed.

(** C01. *)
Theorem C01_heartbeat_roundtrip :
  forall (pl : platform) (time : Z) (p : packet),
    wf_packet p -> 0 <= time < 2 ^ 32 ->
    let q := writeHeartbeat time p in
    readTimeFromHeartbeat pl q = Ok time /\
    ptype q = 0 /\ dlen q = 4 /\ big_endian (payload 4 q) = time /\
    Forall is_byte (payload 4 q) /\ untouched_from 4 p q.
Proof.
  intros pl t p W Ht. cbv zeta. pose proof (write_heartbeat_shape t p W Ht).
  pose proof (heartbeat_roundtrip_lemma pl t p W Ht). cbv zeta in *. intuition auto.
Qed.
Print Assumptions C01_heartbeat_roundtrip.

Example C01_example :
  payload 4 (writeHeartbeat 4026531841 ex_packet) = [240; 0; 0; 1] /\
  readTimeFromHeartbeat Host (writeHeartbeat 4026531841 ex_packet) = Ok 4026531841.
Proof. vm_compute. auto. Qed.

(** C02. *)
Theorem C02_set_effect_roundtrip :
  forall (pl : platform) (effect delay palette : Z) (p : packet),
    wf_packet p -> is_byte effect -> is_byte delay -> is_byte palette ->
    let q := writeSetEffect effect delay palette p in
    readEffectIndexFromSetEffect pl q = Ok effect /\
    readDelayFromSetEffect pl q = Ok delay /\
    readPaletteIndexFromSetEffect pl q = Ok palette /\
    ptype q = 2 /\ dlen q = 3 /\ payload 3 q = [effect; delay; palette] /\
    untouched_from 3 p q.
Proof.
  intros pl a b c p W Ha Hb Hc. cbv zeta.
  pose proof (write_set_effect_shape a b c p W Ha Hb Hc).
  pose proof (set_effect_roundtrip_lemma pl a b c p W Ha Hb Hc). cbv zeta in *. intuition auto.
Qed.
Print Assumptions C02_set_effect_roundtrip.

Example C02_example :
  readEffectIndexFromSetEffect Host (writeSetEffect 200 60 7 ex_packet) = Ok 200 /\
  readPaletteIndexFromSetEffect Arduino (writeSetEffect 200 60 7 ex_packet) = Ok 7.
Proof. vm_compute. auto. Qed.

(** C03. *)
Theorem C03_control_roundtrip :
  forall (pl : platform) (delay : Z) (c : rgb) (p : packet),
    wf_packet p -> is_byte delay -> is_byte (red c) -> is_byte (green c) -> is_byte (blue c) ->
    let q := writeControl delay c p in
    readDelayFromSetControl pl q = Ok delay /\
    readRgbFromSetControl pl q = Ok c /\
    ptype q = 3 /\ dlen q = 4 /\ payload 4 q = [delay; red c; green c; blue c] /\
    untouched_from 4 p q.
Proof.
  intros pl d c p W Hd Hr Hg Hb. cbv zeta.
  assert (B : byte_rgb c) by (repeat split; apply Hr || apply Hg || apply Hb).
  pose proof (write_control_shape d c p W Hd B).
  pose proof (control_roundtrip_lemma pl d c p W Hd B). cbv zeta in *. intuition auto.
Qed.
Print Assumptions C03_control_roundtrip.

Example C03_example :
  readRgbFromSetControl Host (writeControl 60 (mkRGB 255 128 0) ex_packet) = Ok (mkRGB 255 128 0).
Proof. reflexivity. Qed.

(** C04, host: a reader returns exactly for its own kind of packet, and aborts
    for any other. *)
Theorem C04_host_readers_guarded :
  forall p : packet, wf_packet p ->
    let own_kind ty len := (ptype p = ty /\ dlen p = len) in
    (forall t, readTimeFromHeartbeat Host p = Ok t <-> own_kind 0 4 /\ t = big_endian (payload 4 p)) /\
    (readTimeFromHeartbeat Host p = Abort <-> ~ own_kind 0 4) /\
    (forall v, readEffectIndexFromSetEffect Host p = Ok v <-> own_kind 2 3 /\ v = nth 0 (pdata p) 0) /\
    (readEffectIndexFromSetEffect Host p = Abort <-> ~ own_kind 2 3) /\
    (forall v, readDelayFromSetEffect Host p = Ok v <-> own_kind 2 3 /\ v = nth 1 (pdata p) 0) /\
    (readDelayFromSetEffect Host p = Abort <-> ~ own_kind 2 3) /\
    (forall v, readPaletteIndexFromSetEffect Host p = Ok v <-> own_kind 2 3 /\ v = nth 2 (pdata p) 0) /\
    (readPaletteIndexFromSetEffect Host p = Abort <-> ~ own_kind 2 3) /\
    (forall v, readDelayFromSetControl Host p = Ok v <-> own_kind 3 4 /\ v = nth 0 (pdata p) 0) /\
    (readDelayFromSetControl Host p = Abort <-> ~ own_kind 3 4) /\
    (forall c, readRgbFromSetControl Host p = Ok c <->
       own_kind 3 4 /\ c = mkRGB (nth 1 (pdata p) 0) (nth 2 (pdata p) 0) (nth 3 (pdata p) 0)) /\
    (readRgbFromSetControl Host p = Abort <-> ~ own_kind 3 4).
Proof.
  intros p W. cbv zeta. rewrite (read_heartbeat_val Host p W).
  unfold readEffectIndexFromSetEffect, readDelayFromSetEffect, readPaletteIndexFromSetEffect,
    readDelayFromSetControl, readRgbFromSetControl.
  rewrite !read_guarded.
  assert (K : forall ty len, kind_ok ty len p = true <-> ptype p = ty /\ dlen p = len).
  { intros. unfold kind_ok. rewrite andb_true_iff, !Z.eqb_eq. reflexivity. }
  unfold SET_EFFECT, SET_CONTROL.
  pose proof (guarded_iff _ _ (big_endian (payload 4 p)) (K 0 4)) as [A1 A2].
  pose proof (guarded_iff _ _ (byte_at (pdata p) 0) (K 2 3)) as [B1 B2].
  pose proof (guarded_iff _ _ (byte_at (pdata p) 1) (K 2 3)) as [C1 C2].
  pose proof (guarded_iff _ _ (byte_at (pdata p) 2) (K 2 3)) as [D1 D2].
  pose proof (guarded_iff _ _ (byte_at (pdata p) 0) (K 3 4)) as [E1 E2].
  pose proof (guarded_iff _ _ (mkRGB (byte_at (pdata p) 1) (byte_at (pdata p) 2) (byte_at (pdata p) 3))
                (K 3 4)) as [F1 F2].
  unfold byte_at in *.
  repeat (split; [assumption|]). assumption.
Qed.
Print Assumptions C04_host_readers_guarded.

(** C04, device: readers always return the raw bytes. *)
Theorem C04_device_readers_total :
  forall p : packet, wf_packet p ->
    readTimeFromHeartbeat Arduino p = Ok (big_endian (payload 4 p)) /\
    readEffectIndexFromSetEffect Arduino p = Ok (nth 0 (pdata p) 0) /\
    readDelayFromSetEffect Arduino p = Ok (nth 1 (pdata p) 0) /\
    readPaletteIndexFromSetEffect Arduino p = Ok (nth 2 (pdata p) 0) /\
    readDelayFromSetControl Arduino p = Ok (nth 0 (pdata p) 0) /\
    readRgbFromSetControl Arduino p =
      Ok (mkRGB (nth 1 (pdata p) 0) (nth 2 (pdata p) 0) (nth 3 (pdata p) 0)).
Proof. intros p W. rewrite (read_heartbeat_val Arduino p W). repeat split. Qed.
Print Assumptions C04_device_readers_total.

(** C04, consequence: a control packet read with the set-effect readers. *)
Theorem C04_device_control_misread :
  forall (delay : Z) (c : rgb) (p : packet),
    wf_packet p -> is_byte delay -> is_byte (red c) -> is_byte (green c) -> is_byte (blue c) ->
    readEffectIndexFromSetEffect Arduino (writeControl delay c p) = Ok delay /\
    readDelayFromSetEffect Arduino (writeControl delay c p) = Ok (red c) /\
    readPaletteIndexFromSetEffect Arduino (writeControl delay c p) = Ok (green c).
Proof.
  intros d c p W Hd Hr Hg Hb.
  assert (B : byte_rgb c) by (repeat split; apply Hr || apply Hg || apply Hb).
  pose proof (write_control_shape d c p W Hd B) as (_ & _ & Hp & _).
  unfold readEffectIndexFromSetEffect, readDelayFromSetEffect, readPaletteIndexFromSetEffect.
  rewrite !read_guarded. unfold payload in Hp. unfold byte_at.
  destruct (pdata (writeControl d c p)) as [|x0 [|x1 [|x2 [|x3 l]]]]; cbn in Hp; inversion Hp; subst.
  auto.
Qed.
Print Assumptions C04_device_control_misread.

Example C04_example :
  readEffectIndexFromSetEffect Host ex_packet = Abort /\
  readEffectIndexFromSetEffect Arduino ex_packet = Ok 100 /\
  readDelayFromSetEffect Arduino (writeControl 60 (mkRGB 17 1 2) ex_packet) = Ok 17.
Proof. vm_compute. auto. Qed.

(** C05. *)
Theorem C05_equality_meaning :
  forall p q : packet, wf_packet p -> wf_packet q ->
    packet_eqb p q = true <->
    dlen p <= 58 /\ dlen q <= 58 /\ pid p = pid q /\ ptype p = ptype q /\ dlen p = dlen q /\
    payload (Z.to_nat (dlen p)) p = payload (Z.to_nat (dlen p)) q.
Proof. exact packet_eqb_spec. Qed.
Print Assumptions C05_equality_meaning.

Theorem C05_equality_laws :
  (forall p, wf_packet p -> dlen p <= 58 -> packet_eqb p p = true) /\
  (forall p, wf_packet p -> 58 < dlen p -> packet_eqb p p = false) /\
  (forall p q, wf_packet p -> wf_packet q -> packet_eqb p q = packet_eqb q p) /\
  (forall p q r, wf_packet p -> wf_packet q -> wf_packet r ->
     packet_eqb p q = true -> packet_eqb q r = true -> packet_eqb p r = true).
Proof.
  repeat split.
  - intros p W H. apply packet_eqb_spec; auto. repeat split; auto.
  - intros p W H. destruct (packet_eqb p p) eqn:E; [|reflexivity].
    apply packet_eqb_spec in E; auto. lia.
  - intros p q Wp Wq. destruct (packet_eqb p q) eqn:E, (packet_eqb q p) eqn:F; auto.
    + apply packet_eqb_spec in E; auto. destruct E as (A & B & C & D & G & H).
      rewrite <- F. symmetry. apply packet_eqb_spec; auto. rewrite <- G. repeat split; auto.
    + apply packet_eqb_spec in F; auto. destruct F as (A & B & C & D & G & H).
      rewrite <- E. apply packet_eqb_spec; auto. rewrite <- G. repeat split; auto.
  - intros p q r Wp Wq Wr E F. apply packet_eqb_spec in E; auto. apply packet_eqb_spec in F; auto.
    destruct E as (A & B & C & D & G & H). destruct F as (A' & B' & C' & D' & G' & H').
    apply packet_eqb_spec; auto. rewrite G in *. repeat split; congruence.
Qed.
Print Assumptions C05_equality_laws.

Example C05_example :
  packet_eqb (writeHeartbeat 7 ex_packet) (writeHeartbeat 7 (mkPacket 513 0 0 (repeat 1 58))) = true /\
  packet_eqb (writeHeartbeat 7 ex_packet) (writeHeartbeat 8 ex_packet) = false /\
  packet_eqb ex_packet ex_packet = false.
Proof. vm_compute. auto. Qed.
