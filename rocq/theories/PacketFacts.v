(** Proofs about RadioPacket. *)
From Coq Require Import ZArith Lia List Bool.
From Coq Require Import ZifyBool.
From Verif Require Import CInt CIntFacts Packet SpecPacket.
Import ListNotations.
Open Scope Z_scope.
Ltac Zify.zify_post_hook ::= Z.div_mod_to_equations.

Lemma lor_disjoint a b k : 0 <= k -> 0 <= a < 2 ^ k -> Z.lor a (b * 2 ^ k) = a + b * 2 ^ k.
Proof.
  intros Hk Ha. symmetry. rewrite <- Z.lxor_lor, Z.add_nocarry_lxor; auto.
  - apply Z.bits_inj'. intros n Hn. rewrite Z.land_spec, Z.bits_0.
    rewrite <- Z.shiftl_mul_pow2 by lia. rewrite Z.shiftl_spec by lia.
    destruct (Z.ltb_spec n k).
    + rewrite (Z.testbit_neg_r b) by lia. apply andb_false_r.
    + replace (Z.testbit a n) with false; [reflexivity|]. symmetry.
      destruct (Z.eq_dec a 0) as [->|]; [apply Z.bits_0|].
      apply Z.bits_above_log2; [lia|]. apply Z.log2_lt_pow2; [lia|].
      pose proof (Z.pow_le_mono_r 2 k n); lia.
  - apply Z.bits_inj'. intros n Hn. rewrite Z.land_spec, Z.bits_0.
    rewrite <- Z.shiftl_mul_pow2 by lia. rewrite Z.shiftl_spec by lia.
    destruct (Z.ltb_spec n k).
    + rewrite (Z.testbit_neg_r b) by lia. apply andb_false_r.
    + replace (Z.testbit a n) with false; [reflexivity|]. symmetry.
      destruct (Z.eq_dec a 0) as [->|]; [apply Z.bits_0|].
      apply Z.bits_above_log2; [lia|]. apply Z.log2_lt_pow2; [lia|].
      pose proof (Z.pow_le_mono_r 2 k n); lia.
Qed.

Lemma shl_conv b k : is_byte b -> k = 8 \/ k = 16 \/ k = 24 ->
  u32 (i32 (Z.shiftl b k)) = b * 2 ^ k.
Proof.
  intros Hb Hk. unfold is_byte in Hb. rewrite u32_i32, Z.shiftl_mul_pow2 by lia. apply u32_id.
  destruct Hk as [->|[->| ->]]; cbn -[Z.mul]; lia.
Qed.

Lemma data4 (l : list Z) : (4 <= length l)%nat ->
  exists a b c d r, l = a :: b :: c :: d :: r.
Proof. do 4 (destruct l as [|? l]; [cbn; lia|]). intros; repeat eexists. Qed.

Lemma heartbeat_value a b c d : is_byte a -> is_byte b -> is_byte c -> is_byte d ->
  Z.lor (Z.lor (Z.lor d (u32 (i32 (Z.shiftl c 8)))) (u32 (i32 (Z.shiftl b 16))))
        (u32 (i32 (Z.shiftl a 24)))
  = big_endian [a;b;c;d].
Proof.
  intros Ha Hb Hc Hd. rewrite !shl_conv by auto. unfold is_byte in *.
  rewrite (lor_disjoint d c 8) by lia.
  rewrite (lor_disjoint (d + c * 2 ^ 8) b 16) by lia.
  rewrite (lor_disjoint (d + c * 2 ^ 8 + b * 2 ^ 16) a 24) by lia.
  unfold big_endian. cbn [fold_left]. lia.
Qed.

Lemma wf_data_length p : wf_packet p -> length (pdata p) = 58%nat.
Proof. intros (_ & _ & _ & H & _); exact H. Qed.

Lemma Forall_nth_byte l i : Forall is_byte l -> is_byte (nth i l 0).
Proof.
  intros H. destruct (Nat.lt_ge_cases i (length l)).
  - rewrite Forall_forall in H. apply H, nth_In; auto.
  - rewrite nth_overflow by lia. unfold is_byte; lia.
Qed.

Ltac split_data p H :=
  let a := fresh "b" in let b := fresh "b" in let c := fresh "b" in let d := fresh "b" in
  let r := fresh "r" in let E := fresh "E" in
  destruct (data4 (pdata p) ltac:(rewrite (wf_data_length p H); lia)) as (a & b & c & d & r & E).

Lemma write_heartbeat_shape t p : wf_packet p -> 0 <= t < 2 ^ 32 ->
  let q := writeHeartbeat t p in
  ptype q = 0 /\ dlen q = 4 /\ untouched_from 4 p q /\ Forall is_byte (payload 4 q) /\
  length (payload 4 q) = 4%nat /\ big_endian (payload 4 q) = t.
Proof.
  intros W Ht. split_data p W. destruct p as [i ty dl da]; cbn in E; subst da.
  cbn. unfold untouched_from, payload; cbn. repeat split; auto.
  - repeat constructor; apply u8_range.
  - unfold big_endian; cbn [fold_left]. rewrite !Z.shiftr_div_pow2 by lia.
    unfold u8. change (2 ^ 24) with 16777216. change (2 ^ 16) with 65536. change (2 ^ 8) with 256.
    change (2 ^ 32) with 4294967296 in Ht. lia.
Qed.

Lemma heartbeat_roundtrip_lemma pl t p : wf_packet p -> 0 <= t < 2 ^ 32 ->
  readTimeFromHeartbeat pl (writeHeartbeat t p) = Ok t.
Proof.
  intros W Ht. pose proof (write_heartbeat_shape t p W Ht) as (_ & _ & _ & Hb & _ & Hv).
  split_data p W. destruct p as [i ty dl da]; cbn in E; subst da.
  unfold payload in *; cbn in Hb, Hv.
  inversion Hb as [|? ? B0 Hb1]; inversion Hb1 as [|? ? B1 Hb2]; inversion Hb2 as [|? ? B2 Hb3];
    inversion Hb3 as [|? ? B3 _]; subst.
  destruct pl; cbn; f_equal; (etransitivity; [apply heartbeat_value; auto | exact Hv]).
Qed.

Lemma write_set_effect_shape a b c p : wf_packet p -> is_byte a -> is_byte b -> is_byte c ->
  let q := writeSetEffect a b c p in
  ptype q = 2 /\ dlen q = 3 /\ payload 3 q = [a; b; c] /\ untouched_from 3 p q.
Proof.
  intros W Ha Hb Hc. split_data p W. destruct p as [i ty dl da]; cbn in E; subst da.
  cbn. unfold untouched_from, payload, is_byte in *; cbn. rewrite !u8_id by lia. repeat split; auto.
Qed.

Lemma set_effect_roundtrip_lemma pl a b c p :
  wf_packet p -> is_byte a -> is_byte b -> is_byte c ->
  readEffectIndexFromSetEffect pl (writeSetEffect a b c p) = Ok a /\
  readDelayFromSetEffect pl (writeSetEffect a b c p) = Ok b /\
  readPaletteIndexFromSetEffect pl (writeSetEffect a b c p) = Ok c.
Proof.
  intros W Ha Hb Hc. split_data p W. destruct p as [i ty dl da]; cbn in E; subst da.
  unfold is_byte in *. destruct pl; cbn; rewrite !u8_id by lia; auto.
Qed.

Definition byte_rgb (c : rgb) : Prop := is_byte (red c) /\ is_byte (green c) /\ is_byte (blue c).

Lemma write_control_shape d c p : wf_packet p -> is_byte d -> byte_rgb c ->
  let q := writeControl d c p in
  ptype q = 3 /\ dlen q = 4 /\ payload 4 q = [d; red c; green c; blue c] /\ untouched_from 4 p q.
Proof.
  intros W Hd (Hr & Hg & Hb). split_data p W. destruct p as [i ty dl da]; cbn in E; subst da.
  cbn. unfold untouched_from, payload, is_byte in *; cbn. rewrite !u8_id by lia. repeat split; auto.
Qed.

Lemma control_roundtrip_lemma pl d c p :
  wf_packet p -> is_byte d -> byte_rgb c ->
  readDelayFromSetControl pl (writeControl d c p) = Ok d /\
  readRgbFromSetControl pl (writeControl d c p) = Ok c.
Proof.
  intros W Hd (Hr & Hg & Hb). split_data p W. destruct p as [i ty dl da]; cbn in E; subst da.
  unfold is_byte in *. destruct c as [r0 g0 bl0]; cbn in *.
  destruct pl; cbn; rewrite !u8_id by lia; auto.
Qed.

(** Readers. *)
Definition kind_ok (ty len : Z) (p : packet) : bool := (ptype p =? ty) && (dlen p =? len).

Lemma check_kind_host ty len p :
  check_kind Host ty len p = if kind_ok ty len p then Ok tt else Abort.
Proof.
  unfold check_kind, kind_ok, oassert. destruct (ptype p =? ty); cbn; [|reflexivity].
  destruct (dlen p =? len); reflexivity.
Qed.

Lemma check_kind_arduino ty len p : check_kind Arduino ty len p = Ok tt.
Proof. reflexivity. Qed.

Lemma read_heartbeat_val pl p : wf_packet p ->
  readTimeFromHeartbeat pl p =
  match pl with
  | Arduino => Ok (big_endian (payload 4 p))
  | Host => if kind_ok 0 4 p then Ok (big_endian (payload 4 p)) else Abort
  end.
Proof.
  intros W. split_data p W.
  assert (HB : Forall is_byte (pdata p)) by apply W.
  assert (V : Z.lor (Z.lor (Z.lor (byte_at (pdata p) 3) (u32 (i32 (Z.shiftl (byte_at (pdata p) 2) 8))))
      (u32 (i32 (Z.shiftl (byte_at (pdata p) 1) 16)))) (u32 (i32 (Z.shiftl (byte_at (pdata p) 0) 24)))
      = big_endian (payload 4 p)).
  { rewrite heartbeat_value by (apply Forall_nth_byte; exact HB).
    unfold payload, byte_at. rewrite E. reflexivity. }
  unfold readTimeFromHeartbeat. destruct pl.
  - rewrite check_kind_host. change HEARTBEAT with 0. destruct (kind_ok 0 4 p); cbn -[big_endian]; [|reflexivity].
    now rewrite V.
  - rewrite check_kind_arduino. cbn -[big_endian]. now rewrite V.
Qed.

Lemma read_guarded {A} pl ty len p (v : A) :
  (obind (check_kind pl ty len p) (fun _ => Ok v)) =
  match pl with
  | Arduino => Ok v
  | Host => if kind_ok ty len p then Ok v else Abort
  end.
Proof.
  destruct pl; [rewrite check_kind_host | rewrite check_kind_arduino; reflexivity].
  destruct (kind_ok ty len p); reflexivity.
Qed.

Lemma guarded_iff {A} (b : bool) (P : Prop) (v : A) : (b = true <-> P) ->
  (forall x, (if b then Ok v else Abort) = Ok x <-> P /\ x = v) /\
  ((if b then Ok v else Abort) = Abort <-> ~ P).
Proof.
  intros H. destruct b; split; intros; (split; intros Q).
  - inversion Q; subst; split; [apply H|]; reflexivity.
  - destruct Q; congruence.
  - discriminate.
  - exfalso; apply Q, H; reflexivity.
  - discriminate.
  - destruct Q as [Q _]. apply H in Q. discriminate.
  - intros F. apply H in F. discriminate.
  - reflexivity.
Qed.

(** Equality. *)
Lemma memeq_spec n : forall a b, (n <= length a)%nat -> (n <= length b)%nat ->
  memeq n a b = true <-> firstn n a = firstn n b.
Proof.
  induction n; intros a b Ha Hb; cbn; [tauto|].
  destruct a as [|x a], b as [|y b]; cbn in *; try lia.
  rewrite andb_true_iff, Z.eqb_eq, IHn by lia. split; [intros []; congruence|].
  intros H; inversion H; auto.
Qed.

Lemma packet_eqb_spec p q : wf_packet p -> wf_packet q ->
  packet_eqb p q = true <->
  dlen p <= 58 /\ dlen q <= 58 /\ pid p = pid q /\ ptype p = ptype q /\ dlen p = dlen q /\
  payload (Z.to_nat (dlen p)) p = payload (Z.to_nat (dlen p)) q.
Proof.
  intros Wp Wq. unfold packet_eqb, PACKET_DATA_LENGTH.
  pose proof (wf_data_length _ Wp) as Lp. pose proof (wf_data_length _ Wq) as Lq.
  destruct ((58 <? dlen p) || (58 <? dlen q)) eqn:E.
  - split; [discriminate|]. intros (H1 & H2 & _). lia.
  - rewrite !andb_true_iff, !Z.eqb_eq.
    rewrite memeq_spec by lia. unfold payload. 
    split; [intros (((H1 & H2) & H3) & H4) | intros (H0 & H0' & H1 & H2 & H3 & H4)];
    repeat split; auto; lia.
Qed.
