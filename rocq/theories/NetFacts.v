(** Proofs about NetworkManager. *)
From Coq Require Import ZArith Lia List Bool.
From Coq Require Import ZifyBool.
From Verif Require Import CInt CIntFacts Packet NetMgr NetHist SpecNet.
Import ListNotations.
Open Scope Z_scope.
Ltac Zify.zify_post_hook ::= Z.div_mod_to_equations.

(** The cache read as a queue, oldest entry first. *)
Definition window (m : netmgr) : list Z :=
  skipn (Z.to_nat (nm_index m)) (nm_cache m) ++ firstn (Z.to_nat (nm_index m)) (nm_cache m).

Definition nm_wf (m : netmgr) : Prop := length (nm_cache m) = 5%nat /\ 0 <= nm_index m < 5.

Lemma nm_init_wf : nm_wf nm_init.
Proof. split; cbn; [reflexivity | lia]. Qed.

Lemma nm_init_window : window nm_init = [0;0;0;0;0].
Proof. reflexivity. Qed.

Lemma nm_wf_cases m : nm_wf m ->
  exists a b c d e, nm_cache m = [a;b;c;d;e] /\
  (nm_index m = 0 \/ nm_index m = 1 \/ nm_index m = 2 \/ nm_index m = 3 \/ nm_index m = 4).
Proof.
  intros [Hl Hi]. destruct m as [c i]; cbn in *.
  do 5 (destruct c as [|? c]; [discriminate|]). destruct c; [|discriminate].
  repeat eexists. lia.
Qed.

Lemma nm_add_ok m id : nm_wf m ->
  exists m', nm_add m id = Ok m' /\ nm_wf m' /\ window m' = tl (window m) ++ [id].
Proof.
  intros H. destruct (nm_wf_cases m H) as (a & b & c & d & e & Hc & Hi).
  destruct m as [ca i]; cbn in *; subst ca.
  destruct Hi as [->|[->|[->|[->| ->]]]]; eexists; (split; [reflexivity|]); split;
    try reflexivity; split; try reflexivity; vm_compute; split; (discriminate || reflexivity).
Qed.

Lemma window_length m : nm_wf m -> length (window m) = 5%nat.
Proof.
  intros H. destruct (nm_wf_cases m H) as (a & b & c & d & e & Hc & Hi).
  destruct m as [ca i]; cbn in *; subst ca.
  destruct Hi as [->|[->|[->|[->| ->]]]]; reflexivity.
Qed.

Lemma existsb_window m x : nm_wf m ->
  existsb (fun y => y =? x) (nm_cache m) = true <-> In x (window m).
Proof.
  intros H. unfold window. rewrite existsb_exists. split.
  - intros (y & Hy & E). apply Z.eqb_eq in E; subst y.
    rewrite <- (firstn_skipn (Z.to_nat (nm_index m)) (nm_cache m)) in Hy.
    apply in_app_or in Hy. apply in_or_app. tauto.
  - intros Hin. exists x. split; [|apply Z.eqb_refl].
    rewrite <- (firstn_skipn (Z.to_nat (nm_index m)) (nm_cache m)).
    apply in_app_or in Hin. apply in_or_app. tauto.
Qed.

Lemma skipn_add {A} n k (l : list A) : skipn (n + k) l = skipn k (skipn n l).
Proof. revert l; induction n; destruct l; try reflexivity; [destruct k; reflexivity | apply IHn]. Qed.

Lemma last5_nil : last5 [] = [0;0;0;0;0].
Proof. reflexivity. Qed.

Lemma skipn_S_tl {A} n (l : list A) : skipn (S n) l = tl (skipn n l).
Proof. revert l; induction n; destruct l; try reflexivity. apply (IHn l). Qed.

Lemma last5_snoc ids x : last5 (ids ++ [x]) = tl (last5 ids) ++ [x].
Proof.
  unfold last5. rewrite app_length; cbn [length]. rewrite Nat.add_1_r.
  rewrite app_assoc. set (L := [0;0;0;0;0] ++ ids).
  assert (HL : (S (length ids) <= length L)%nat) by (subst L; rewrite app_length; cbn; lia).
  rewrite skipn_app. replace (S (length ids) - length L)%nat with 0%nat by lia.
  rewrite skipn_S_tl. reflexivity.
Qed.

Lemma ids_of_app a b : ids_of (a ++ b) = ids_of a ++ ids_of b.
Proof. apply map_app. Qed.

(** The refinement invariant. *)
Definition nm_inv (m : netmgr) (sent : list tx) : Prop :=
  nm_wf m /\ window m = last5 (ids_of sent).

Lemma nm_inv_init : nm_inv nm_init [].
Proof. split; [apply nm_init_wf|reflexivity]. Qed.

Lemma nm_add_inv m sent t : nm_inv m sent ->
  exists m', nm_add m (pid (tx_packet t)) = Ok m' /\ nm_inv m' (sent ++ [t]).
Proof.
  intros [Hw Hv]. destruct (nm_add_ok m (pid (tx_packet t)) Hw) as (m' & E & Hw' & Hv').
  exists m'. split; [exact E|]. split; [exact Hw'|].
  rewrite Hv', Hv, ids_of_app. change (ids_of [t]) with [pid (tx_packet t)].
  rewrite last5_snoc. reflexivity.
Qed.

Lemma nm_receive_inv m sent inc : nm_inv m sent ->
  exists r m' out, nm_receive m inc = Ok (r, m', out) /\ nm_inv m' (sent ++ out) /\
    match inc with
    | None => r = None /\ out = [] /\ m' = m
    | Some p =>
        (In (pid p) (last5 (ids_of sent)) /\ r = None /\ out = [] /\ m' = m) \/
        (~ In (pid p) (last5 (ids_of sent)) /\ r = Some p /\ out = [Relay p])
    end.
Proof.
  intros Hinv. destruct inc as [p|]; cbn.
  - destruct (existsb _ _) eqn:E.
    + do 3 eexists. split; [reflexivity|]. rewrite app_nil_r. split; [exact Hinv|].
      left. rewrite existsb_window in E by apply Hinv. destruct Hinv as [? Hv]. rewrite <- Hv. auto.
    + destruct (nm_add_inv m sent (Relay p) Hinv) as (m' & Ea & Hi). cbn in Ea. rewrite Ea. cbn.
      do 3 eexists. split; [reflexivity|]. split; [exact Hi|]. right. split; [|auto].
      intros Hin. destruct Hinv as [Hw Hv]. rewrite <- Hv in Hin.
      apply existsb_window in Hin; [|exact Hw]. congruence.
  - do 3 eexists. split; [reflexivity|]. rewrite app_nil_r. auto.
Qed.

Lemma random2_id_ok pl raw :
  exists id, random2 pl 2 65535 raw = Ok id /\
    match pl with
    | Arduino => 2 <= id <= 65534
    | Host => id = 0 \/ 2 <= id <= 65535
    end.
Proof.
  destruct pl; cbn; eexists; split; try reflexivity.
  - unfold u16. pose proof (Z.mod_pos_bound (Z.of_N raw) 65535 ltac:(lia)). lia.
  - pose proof (Z.mod_pos_bound (Z.of_N raw) 65533 ltac:(lia)). lia.
Qed.

Lemma nm_send_inv pl raw m sent p : nm_inv m sent ->
  exists id m', nm_send pl raw m p = Ok (mkPacket id (ptype p) (dlen p) (pdata p), m',
                                    [Orig (mkPacket id (ptype p) (dlen p) (pdata p))]) /\
    random2 pl 2 65535 raw = Ok id /\
    nm_inv m' (sent ++ [Orig (mkPacket id (ptype p) (dlen p) (pdata p))]).
Proof.
  intros Hinv. destruct (random2_id_ok pl raw) as (id & E & R).
  assert (Hid : u16 id = id).
  { apply u16_id. destruct pl; lia. }
  unfold nm_send. rewrite E. cbn [obind]. rewrite Hid.
  destruct (nm_add_inv m sent (Orig (mkPacket id (ptype p) (dlen p) (pdata p))) Hinv)
    as (m' & Ea & Hi).
  cbn in Ea |- *. rewrite Ea. cbn. eauto.
Qed.

Lemma nm_step_inv pl m sent o : nm_inv m sent ->
  exists m' out, nm_step pl m o = Ok (m', out) /\ nm_inv m' (sent ++ out).
Proof.
  intros H. destruct o; cbn.
  - destruct (nm_receive_inv m sent inc H) as (r & m' & out & E & Hi & _). rewrite E; cbn; eauto.
  - destruct (nm_send_inv pl raw m sent p H) as (id & m' & E & _ & Hi). rewrite E; cbn; eauto.
Qed.

Lemma nm_run_inv pl ops : forall m sent, nm_inv m sent ->
  exists m' out, nm_run pl m ops = Ok (m', out) /\ nm_inv m' (sent ++ out).
Proof.
  induction ops as [|o ops IH]; intros m sent H; cbn.
  - do 2 eexists; split; [reflexivity|]. now rewrite app_nil_r.
  - destruct (nm_step_inv pl m sent o H) as (m1 & o1 & E1 & H1). rewrite E1; cbn.
    destruct (IH m1 _ H1) as (m2 & o2 & E2 & H2). rewrite E2; cbn.
    do 2 eexists; split; [reflexivity|]. now rewrite app_assoc.
Qed.

Lemma nm_run_init pl ops m out : nm_run pl nm_init ops = Ok (m, out) -> nm_inv m out.
Proof.
  intros E. destruct (nm_run_inv pl ops nm_init [] nm_inv_init) as (m' & out' & E' & H).
  rewrite E in E'; inversion E'; subst. exact H.
Qed.

Lemma last5_length ids : length (last5 ids) = 5%nat.
Proof. unfold last5. rewrite skipn_length, app_length. change (length [0;0;0;0;0]) with 5%nat. lia. Qed.

(** The last five of a list followed by k <= 5 further ids. *)
Lemma last5_app ids more : (length more <= 5)%nat ->
  last5 (ids ++ more) = skipn (length more) (last5 ids) ++ more.
Proof.
  intros H. unfold last5. rewrite app_length, app_assoc.
  set (L := [0;0;0;0;0] ++ ids). 
  assert (HL : length L = (5 + length ids)%nat) by (subst L; rewrite app_length; reflexivity).
  rewrite skipn_app. f_equal.
  - apply skipn_add.
  - replace (length ids + length more - length L)%nat with 0%nat by lia. reflexivity.
Qed.

Lemma last5_zero ids : (length ids < 5)%nat -> In 0 (last5 ids).
Proof.
  intros H. change ids with ([] ++ ids). rewrite last5_app by lia. apply in_or_app; left.
  cbn [last5 app length skipn].
  destruct (length ids) as [|[|[|[|[|k]]]]]; cbn; auto; lia.
Qed.

Lemma last5_incl ids x : (length ids <= 5)%nat -> In x ids -> In x (last5 ids).
Proof.
  intros H Hin. change ids with ([] ++ ids). rewrite last5_app by lia. apply in_or_app; auto.
Qed.
