(** Proofs about the device radio driver. *)
From Coq Require Import ZArith Lia List Bool.
From Coq Require Import ZifyBool.
From Verif Require Import CInt CIntFacts Packet SpecPacket PacketFacts HwRadio.
Import ListNotations.
Open Scope Z_scope.
Ltac Zify.zify_post_hook ::= Z.div_mod_to_equations.

Lemma aset_ok {A} (l : list A) i v : 0 <= i < Z.of_nat (length l) ->
  aset l i v = Ok (list_set l (Z.to_nat i) v).
Proof.
  intros H. unfold aset. destruct (i <? 0) eqn:E; [lia|].
  destruct (Nat.ltb_spec (Z.to_nat i) (length l)); [reflexivity|lia].
Qed.

Lemma aset_undef {A} (l : list A) i v : Z.of_nat (length l) <= i -> aset l i v = Undef.
Proof.
  intros H. unfold aset. destruct (i <? 0) eqn:E; [reflexivity|].
  destruct (Nat.ltb_spec (Z.to_nat i) (length l)); [lia|reflexivity].
Qed.

Lemma list_set_app {A} (a b : list A) v x :
  list_set (a ++ x :: b) (length a) v = a ++ v :: b.
Proof. induction a; cbn; congruence. Qed.

Lemma copy_in_ok pl : forall d j, 0 <= j -> j + Z.of_nat (length pl) <= Z.of_nat (length d) ->
  copy_in d j pl =
  Ok (firstn (Z.to_nat j) d ++ pl ++ skipn (Z.to_nat j + length pl) d).
Proof.
  induction pl as [|b pl IH]; intros d j Hj Hl; cbn [copy_in length] in *.
  - cbn. rewrite Nat.add_0_r, firstn_skipn. reflexivity.
  - rewrite aset_ok by lia. cbn [obind]. rewrite IH; [|lia|rewrite list_set_length; lia].
    f_equal. replace (Z.to_nat (j + 1)) with (S (Z.to_nat j)) by lia.
    set (k := Z.to_nat j) in *. assert (Hk : (k < length d)%nat) by lia.
    destruct (nth_split d 0 Hk) as (l1 & l2 & Hd & Hl1). rewrite Hd at 1 2. rewrite Hd.
    rewrite <- Hl1. rewrite list_set_app.
    rewrite !firstn_app, firstn_all. rewrite firstn_all2 by lia.
    replace (S (length l1) - length l1)%nat with 1%nat by lia.
    rewrite Nat.sub_diag. cbn [firstn]. rewrite app_nil_r, <- app_assoc. f_equal. cbn [app]. f_equal.
    f_equal. rewrite !skipn_app. 
    replace (S (length l1) + length pl - length l1)%nat with (S (length pl)) by lia.
    replace (length l1 + S (length pl) - length l1)%nat with (S (length pl)) by lia.
    rewrite !(@skipn_all2 _ _ l1) by lia. reflexivity.
Qed.

Lemma copy_in_undef pl : forall d j, 0 <= j <= Z.of_nat (length d) ->
  Z.of_nat (length d) < j + Z.of_nat (length pl) -> copy_in d j pl = Undef.
Proof.
  induction pl as [|b pl IH]; intros d j Hj Hl; cbn [copy_in length] in *; [lia|].
  destruct (Z.ltb_spec j (Z.of_nat (length d))).
  - rewrite aset_ok by lia. cbn [obind]. apply IH; rewrite list_set_length; lia.
  - rewrite aset_undef by lia. reflexivity.
Qed.

Lemma hw_send_ok p : wf_packet p -> dlen p <= 58 ->
  hw_send p = Ok (u8 (Z.shiftr (pid p) 8) :: u8 (Z.land (pid p) 255) :: u8 (ptype p) ::
                  payload (Z.to_nat (dlen p)) p).
Proof.
  intros W H. unfold hw_send, memcpy_block, kMaxPacketSize, kFrontPacketPadding,
    kMaxFifoSizePacketSize, kRadioOverhead, payload.
  destruct (0 <? dlen p) eqn:E.
  - rewrite (wf_data_length p W). destruct (_ || _) eqn:F; [lia|]. reflexivity.
  - destruct W as (_ & _ & B & _). unfold is_byte in B. replace (dlen p) with 0 by lia. reflexivity.
Qed.

Lemma hw_send_undef p : wf_packet p -> 58 < dlen p -> hw_send p = Undef.
Proof.
  intros W H. unfold hw_send, memcpy_block. rewrite (wf_data_length p W).
  destruct (0 <? dlen p) eqn:E; [|lia]. destruct (_ || _) eqn:F; [reflexivity|lia].
Qed.

Lemma id_bytes i : 0 <= i < 65536 ->
  u16 (Z.shiftl (u8 (Z.shiftr i 8)) 8 + u8 (Z.land i 255)) = i.
Proof.
  intros H. change 255 with (Z.ones 8). rewrite Z.land_ones by lia.
  rewrite Z.shiftr_div_pow2, Z.shiftl_mul_pow2 by lia. change (2 ^ 8) with 256.
  unfold u8, u16. lia.
Qed.

Lemma hw_read_short frame p0 : (length frame <= 3)%nat -> hw_read (Some frame) p0 = Ok (false, p0).
Proof.
  intros H. unfold hw_read, kFrontPacketPadding, kMaxFifoSizePacketSize. 
  rewrite firstn_all2 by lia. destruct (3 <? Z.of_nat (length frame)) eqn:E; [lia|reflexivity].
Qed.

Lemma hw_read_ok b0 b1 b2 rest p0 : length (pdata p0) = 58%nat ->
  (1 <= length rest <= 58)%nat ->
  hw_read (Some (b0 :: b1 :: b2 :: rest)) p0 =
  Ok (true, mkPacket (u16 (Z.shiftl b0 8 + b1)) b2 (dlen p0) (rest ++ skipn (length rest) (pdata p0))).
Proof.
  intros L H. unfold hw_read, kFrontPacketPadding, kMaxFifoSizePacketSize.
  rewrite firstn_all2 by (cbn; lia).
  destruct (3 <? Z.of_nat (length (b0 :: b1 :: b2 :: rest))) eqn:E; [|cbn [length] in E; lia].
  cbn [aget nth_error Z.to_nat Z.ltb Z.compare obind skipn].
  change (aget (b0 :: b1 :: b2 :: rest) 0) with (Ok b0).
  change (aget (b0 :: b1 :: b2 :: rest) 1) with (Ok b1).
  change (aget (b0 :: b1 :: b2 :: rest) 2) with (Ok b2).
  cbn [obind]. rewrite copy_in_ok by lia. reflexivity.
Qed.

Lemma hw_read_undef frame p0 : length (pdata p0) = 58%nat -> (61 < length frame)%nat ->
  hw_read (Some frame) p0 = Undef.
Proof.
  intros L H. unfold hw_read, kFrontPacketPadding, kMaxFifoSizePacketSize.
  change (Z.to_nat 64) with 64%nat.
  assert (HL : (61 < length (firstn 64 frame))%nat) by (rewrite firstn_length; lia).
  set (bf := firstn 64 frame) in *. clearbody bf.
  destruct (3 <? Z.of_nat (length bf)) eqn:E; [|lia].
  destruct bf as [|b0 [|b1 [|b2 rest]]]; cbn [length] in HL; try lia.
  change (aget (b0 :: b1 :: b2 :: rest) 0) with (Ok b0).
  change (aget (b0 :: b1 :: b2 :: rest) 1) with (Ok b1).
  change (aget (b0 :: b1 :: b2 :: rest) 2) with (Ok b2).
  cbn [obind skipn]. rewrite copy_in_undef by lia. reflexivity.
Qed.

Lemma hw_read_defined frame p0 : length (pdata p0) = 58%nat -> (length frame <= 61)%nat ->
  exists r q, hw_read (Some frame) p0 = Ok (r, q) /\ dlen q = dlen p0 /\ length (pdata q) = 58%nat /\
    (r = true <-> (3 < length frame)%nat).
Proof.
  intros L H. destruct (Nat.le_gt_cases (length frame) 3).
  - rewrite hw_read_short by lia. do 2 eexists. split; [reflexivity|]. repeat split; auto; intros; [discriminate|lia].
  - destruct frame as [|b0 [|b1 [|b2 rest]]]; cbn [length] in *; try lia.
    rewrite hw_read_ok by lia. do 2 eexists. split; [reflexivity|]. cbn [dlen pdata].
    repeat split; auto; intros; try lia. rewrite app_length, skipn_length; lia.
Qed.

Lemma hw_read_dlen air p0 r q : hw_read air p0 = Ok (r, q) -> dlen q = dlen p0.
Proof.
  unfold hw_read. destruct air as [f|]; [|intros H; inversion H; reflexivity].
  destruct (_ <? _); [|intros H; inversion H; reflexivity].
  destruct (aget _ 0); cbn [obind]; try discriminate.
  destruct (aget _ 1); cbn [obind]; try discriminate.
  destruct (aget _ 2); cbn [obind]; try discriminate.
  destruct (copy_in _ _ _); cbn [obind]; try discriminate.
  intros H; inversion H; reflexivity.
Qed.

Lemma hw_roundtrip p p0 : wf_packet p -> wf_packet p0 -> 1 <= dlen p <= 58 ->
  exists frame, hw_send p = Ok frame /\ Z.of_nat (length frame) = dlen p + 3 /\
  exists q, hw_read (Some frame) p0 = Ok (true, q) /\
    pid q = pid p /\ ptype q = ptype p /\
    payload (Z.to_nat (dlen p)) q = payload (Z.to_nat (dlen p)) p /\
    skipn (Z.to_nat (dlen p)) (pdata q) = skipn (Z.to_nat (dlen p)) (pdata p0) /\
    dlen q = dlen p0.
Proof.
  intros W W0 H. eexists. split; [apply hw_send_ok; [exact W|lia]|].
  pose proof (wf_data_length p W) as L. pose proof (wf_data_length p0 W0) as L0.
  assert (HL : length (payload (Z.to_nat (dlen p)) p) = Z.to_nat (dlen p))
    by (unfold payload; rewrite firstn_length; lia).
  split; [cbn [length]; lia|].
  eexists. split; [apply hw_read_ok; lia|]. cbn [pid ptype pdata dlen].
  destruct W as (Wi & Wt & _). rewrite id_bytes by lia. rewrite u8_id by lia.
  rewrite HL. repeat split.
  - unfold payload at 1. cbn [pdata]. rewrite firstn_app, HL, Nat.sub_diag. cbn [firstn].
    rewrite app_nil_r, firstn_all2; [reflexivity|lia].
  - rewrite skipn_app, HL, Nat.sub_diag, skipn_all2 by lia. reflexivity.
Qed.
