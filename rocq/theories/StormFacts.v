(** Proof that six ids can circulate for ever between two nodes. *)
From Coq Require Import ZArith Lia List Bool PeanoNat.
From Verif Require Import CInt CIntFacts Packet NetMgr NetHist SpecNet NetFacts Flood SpecFlood FloodFacts.
Import ListNotations.
Open Scope Z_scope.

Definition storm_packet (id : Z) : packet := mkPacket id 2 3 (repeat 0 58).

(** Node 0 originates six packets (draws 0..5 give ids 2..7 on both builds); then
    transmission number k is heard once by the other node: transmissions
    0..5 come from node 0, 6..11 from node 1, 12..17 from node 0, ... *)
Definition storm_hear (k : nat) : event := Deliver (if Nat.even (k / 6) then 1 else 0) k.
Definition storm_start : list event :=
  map (fun r => Originate 0 (storm_packet 0) r) [0;1;2;3;4;5]%N.
Definition storm (rounds : nat) : list event := storm_start ++ map storm_hear (seq 0 (6 * rounds)).

Lemma world_run_app pl a : forall w b,
  world_run pl w (a ++ b) = (w1 <- world_run pl w a ;; world_run pl w1 b).
Proof.
  induction a as [|ev a IH]; intros w b; cbn; [reflexivity|].
  destruct (world_step pl w ev); cbn; auto.
Qed.

Lemma deliver_accept pl ns lg i k m j t :
  nth_error ns i = Some m -> nth_error lg k = Some (j, t) -> nm_wf m ->
  ~ In (pid (tx_packet t)) (window m) ->
  exists m', world_step pl (mkWorld ns lg) (Deliver i k) =
      Ok (mkWorld (list_set ns i m') (lg ++ [(i, Relay (tx_packet t))])) /\
    nm_wf m' /\ window m' = tl (window m) ++ [pid (tx_packet t)].
Proof.
  intros Hi Hk Hw Hn. cbn. rewrite Hi, Hk. cbn.
  destruct (existsb _ _) eqn:E.
  { apply existsb_window in E; auto. contradiction. }
  destruct (nm_add_ok m (pid (tx_packet t)) Hw) as (m' & Ea & Hw' & Hv). rewrite Ea. cbn. eauto.
Qed.

Definition block_ids : list Z := [2;3;4;5;6;7].
Definition is_block (i : nat) (b : list (nat * tx)) : Prop :=
  map fst b = repeat i 6 /\ map (fun e => pid (tx_packet (snd e))) b = block_ids.

Definition good_window (w : list Z) : Prop := w = [0;0;0;0;0] \/ w = [3;4;5;6;7].

Lemma nth_error_mid {A} (pre b suf : list A) n k x :
  length pre = n -> nth_error b k = Some x -> nth_error (pre ++ b ++ suf) (n + k) = Some x.
Proof.
  intros Hn Hk. subst n.
  rewrite nth_error_app2 by lia. replace (length pre + k - length pre)%nat with k by lia.
  rewrite nth_error_app1; auto. apply nth_error_Some. congruence.
Qed.

(** Node i hears the six transmissions of a block in order and relays them all. *)
Lemma hear_block pl ns pre b i jj m n :
  length pre = n -> is_block jj b -> nth_error ns i = Some m -> nm_wf m -> good_window (window m) ->
  exists m' b', world_run pl (mkWorld ns (pre ++ b)) (map (fun k => Deliver i (n + k)) (seq 0 6)) =
      Ok (mkWorld (list_set ns i m') (pre ++ b ++ b')) /\
    nm_wf m' /\ window m' = [3;4;5;6;7] /\ is_block i b'.
Proof.
  intros Hn [Hf Hids] Hi Hw Hg.
  destruct b as [|[j0 t0] [|[j1 t1] [|[j2 t2] [|[j3 t3] [|[j4 t4] [|[j5 t5] [|]]]]]]]; try discriminate Hids.
  cbn in Hids. injection Hids as I0 I1 I2 I3 I4 I5.
  set (b := [(j0, t0); (j1, t1); (j2, t2); (j3, t3); (j4, t4); (j5, t5)]) in *.
  assert (Hset : forall (l : list netmgr) v, (i < length l)%nat -> nth_error (list_set l i v) i = Some v).
  { clear. intros l v. revert i; induction l; intros [|i]; cbn; intros; try lia; auto. apply IHl; lia. }
  assert (Hl : (i < length ns)%nat) by (apply nth_error_Some; congruence).
  assert (Hss : forall (l : list netmgr) u v, list_set (list_set l i u) i v = list_set l i v).
  { clear. intros l u v. revert i; induction l; intros [|i]; cbn; auto. f_equal; auto. }
  cbn [seq map].
  assert (Step : forall suf mk k j t idt,
    nth_error b k = Some (j, t) -> pid (tx_packet t) = idt ->
    nm_wf mk -> ~ In idt (window mk) ->
    exists m', world_step pl (mkWorld (list_set ns i mk) (pre ++ b ++ suf)) (Deliver i (n + k)) =
      Ok (mkWorld (list_set ns i m') (pre ++ b ++ (suf ++ [(i, Relay (tx_packet t))]))) /\
      nm_wf m' /\ window m' = tl (window mk) ++ [idt]).
  { intros suf mk k j t idt Hk Hid Hwk Hnk.
    destruct (deliver_accept pl (list_set ns i mk) (pre ++ b ++ suf) i (n + k) mk j t) as (m' & E & A & B); auto.
    - apply nth_error_mid; auto.
    - rewrite Hid; exact Hnk.
    - exists m'. rewrite E, Hss, Hid in *. rewrite <- !app_assoc. auto. }
  assert (Self : list_set ns i m = ns).
  { clear - Hi. revert i Hi; induction ns; intros [|i]; cbn; intros H; auto; try discriminate.
    - inversion H; reflexivity.
    - f_equal; auto. }
  replace (mkWorld ns (pre ++ b)) with (mkWorld (list_set ns i m) (pre ++ b ++ []))
    by (rewrite Self, app_nil_r; reflexivity).
  assert (N0 : ~ In 2 (window m)) by (destruct Hg as [->| ->]; cbn; lia).
  destruct (Step [] m 0%nat j0 t0 2 eq_refl I0 Hw N0) as (m0 & E0 & W0 & V0).
  cbn [world_run]. rewrite E0. cbn [obind].
  assert (V0' : window m0 = [0;0;0;0;2] \/ window m0 = [4;5;6;7;2]) by (destruct Hg as [G|G]; rewrite G in V0; auto).
  assert (N1 : ~ In 3 (window m0)) by (destruct V0' as [->| ->]; cbn; lia).
  destruct (Step ([] ++ [(i, Relay (tx_packet t0))]) m0 1%nat j1 t1 3 eq_refl I1 W0 N1) as (m1 & E1 & W1 & V1).
  rewrite E1. cbn [obind].
  assert (V1' : window m1 = [0;0;0;2;3] \/ window m1 = [5;6;7;2;3]) by (destruct V0' as [G|G]; rewrite G in V1; auto).
  assert (N2 : ~ In 4 (window m1)) by (destruct V1' as [->| ->]; cbn; lia).
  destruct (Step (([] ++ [(i, Relay (tx_packet t0))]) ++ [(i, Relay (tx_packet t1))]) m1 2%nat j2 t2 4 eq_refl I2 W1 N2) as (m2 & E2 & W2 & V2).
  rewrite E2. cbn [obind].
  assert (V2' : window m2 = [0;0;2;3;4] \/ window m2 = [6;7;2;3;4]) by (destruct V1' as [G|G]; rewrite G in V2; auto).
  assert (N3 : ~ In 5 (window m2)) by (destruct V2' as [->| ->]; cbn; lia).
  destruct (Step ((([] ++ [(i, Relay (tx_packet t0))]) ++ [(i, Relay (tx_packet t1))]) ++ [(i, Relay (tx_packet t2))]) m2 3%nat j3 t3 5 eq_refl I3 W2 N3) as (m3 & E3 & W3 & V3).
  rewrite E3. cbn [obind].
  assert (V3' : window m3 = [0;2;3;4;5] \/ window m3 = [7;2;3;4;5]) by (destruct V2' as [G|G]; rewrite G in V3; auto).
  assert (N4 : ~ In 6 (window m3)) by (destruct V3' as [->| ->]; cbn; lia).
  destruct (Step (((([] ++ [(i, Relay (tx_packet t0))]) ++ [(i, Relay (tx_packet t1))]) ++ [(i, Relay (tx_packet t2))]) ++ [(i, Relay (tx_packet t3))]) m3 4%nat j4 t4 6 eq_refl I4 W3 N4) as (m4 & E4 & W4 & V4).
  rewrite E4. cbn [obind].
  assert (V4' : window m4 = [2;3;4;5;6]) by (destruct V3' as [G|G]; rewrite G in V4; auto).
  assert (N5 : ~ In 7 (window m4)) by (rewrite V4'; cbn; lia).
  destruct (Step ((((([] ++ [(i, Relay (tx_packet t0))]) ++ [(i, Relay (tx_packet t1))]) ++ [(i, Relay (tx_packet t2))]) ++ [(i, Relay (tx_packet t3))]) ++ [(i, Relay (tx_packet t4))]) m4 5%nat j5 t5 7 eq_refl I5 W4 N5) as (m5 & E5 & W5 & V5).
  rewrite E5. cbn [obind].
  rewrite V4' in V5. do 2 eexists. split; [reflexivity|]. split; [exact W5|]. split; [exact V5|].
  split; [reflexivity|]. cbn. rewrite I0, I1, I2, I3, I4, I5. reflexivity.
Qed.

(** The state between rounds: the last six transmissions form a block by node
    [r mod 2]; both caches are ready to accept the block again. *)
Definition storm_state (r : nat) (w : world) : Prop :=
  exists m0 m1 pre b, w = mkWorld [m0; m1] (pre ++ b) /\ nm_wf m0 /\ nm_wf m1 /\
    good_window (window m0) /\ good_window (window m1) /\
    length pre = (6 * r)%nat /\ is_block (if Nat.even r then 0%nat else 1%nat) b /\
    originated (pre ++ b) = block_ids /\
    (forall k j t, nth_error (pre ++ b) k = Some (j, t) -> j = if Nat.even (k / 6) then 0%nat else 1%nat).

Lemma storm_start_state pl : exists w, world_run pl (world_init 2) storm_start = Ok w /\ storm_state 0 w.
Proof.
  eexists. split; [destruct pl; vm_compute; reflexivity|].
  eexists _, _, [], _. split; [reflexivity|].
  split; [split; [reflexivity|vm_compute; split; (reflexivity || discriminate)]|].
  split; [split; [reflexivity|vm_compute; split; (reflexivity || discriminate)]|].
  split; [right; vm_compute; reflexivity|]. split; [left; vm_compute; reflexivity|].
  split; [reflexivity|]. split; [split; vm_compute; reflexivity|].
  split; [vm_compute; reflexivity|].
  intros k j t H. do 6 (destruct k as [|k]; [cbn in H; inversion H; reflexivity|]).
  exfalso. cbn in H. destruct k; discriminate.
Qed.

Lemma deliver_originated pl n w w' i k : flood_inv n w -> world_step pl w (Deliver i k) = Ok w' ->
  originated (air w') = originated (air w).
Proof.
  intros Hi E. destruct (flood_step pl n w (Deliver i k) Hi) as (w1 & new & E1 & _ & A & C).
  rewrite E in E1; inversion E1; subst w1. rewrite A, originated_app.
  destruct C as [->|[(? & ? & X & _)|(j & q & -> & _)]]; [apply app_nil_r| discriminate X | apply app_nil_r].
Qed.

Lemma delivers_originated pl n l : forall w w', flood_inv n w ->
  world_run pl w (map (fun ik => Deliver (fst ik) (snd ik)) l) = Ok w' ->
  originated (air w') = originated (air w).
Proof.
  induction l as [|[i k] l IH]; intros w w' Hi E; cbn [map world_run fst snd] in E.
  - inversion E; reflexivity.
  - destruct (flood_step pl n w (Deliver i k) Hi) as (w1 & new & E1 & H1 & _).
    rewrite E1 in E. cbn [obind] in E. rewrite (IH w1 w' H1 E). eapply deliver_originated; eauto.
Qed.

Lemma storm_hear_round r :
  map storm_hear (seq (6 * r) 6) =
  map (fun k => Deliver (if Nat.even r then 1%nat else 0%nat) (6 * r + k)) (seq 0 6).
Proof.
  assert (D : forall k, (k < 6)%nat -> ((6 * r + k) / 6 = r)%nat).
  { intros k Hk. rewrite Nat.mul_comm, Nat.div_add_l by lia. rewrite Nat.div_small by lia. lia. }
  cbn [seq map]. unfold storm_hear.
  replace (6 * r)%nat with (6 * r + 0)%nat at 1 by lia.
  rewrite (D 0%nat) by lia.
  replace (S (6 * r)) with (6 * r + 1)%nat by lia. rewrite (D 1%nat) by lia.
  replace (S (6 * r + 1)) with (6 * r + 2)%nat by lia. rewrite (D 2%nat) by lia.
  replace (S (6 * r + 2)) with (6 * r + 3)%nat by lia. rewrite (D 3%nat) by lia.
  replace (S (6 * r + 3)) with (6 * r + 4)%nat by lia. rewrite (D 4%nat) by lia.
  replace (S (6 * r + 4)) with (6 * r + 5)%nat by lia. rewrite (D 5%nat) by lia.
  replace (6 * r + 0)%nat with (6 * r)%nat by lia. reflexivity.
Qed.

Lemma storm_round pl r w : flood_inv 2 w -> storm_state r w ->
  exists w', world_run pl w (map storm_hear (seq (6 * r) 6)) = Ok w' /\ flood_inv 2 w' /\
    storm_state (S r) w'.
Proof.
  intros Hinv (m0 & m1 & pre & b & -> & W0 & W1 & G0 & G1 & Hl & Hb & Ho & Hby).
  rewrite storm_hear_round.
  set (i := if Nat.even r then 1%nat else 0%nat).
  assert (Hi : exists m, nth_error [m0; m1] i = Some m /\ nm_wf m /\ good_window (window m)).
  { subst i; destruct (Nat.even r); cbn; eauto. }
  destruct Hi as (m & Hm & Wm & Gm).
  destruct (hear_block pl [m0; m1] pre b i _ m (6 * r) Hl Hb Hm Wm Gm)
    as (m' & b' & E & W' & V' & B').
  exists (mkWorld (list_set [m0; m1] i m') (pre ++ b ++ b')). split; [exact E|].
  destruct (flood_total pl 2 (map (fun k => Deliver i (6 * r + k)) (seq 0 6)) _ Hinv) as (w2 & E2 & Hinv2 & _).
  rewrite E in E2; inversion E2; subst w2; clear E2. split; [exact Hinv2|].
  assert (Horig : originated (pre ++ b ++ b') = block_ids).
  { rewrite <- Ho.
    refine (delivers_originated pl 2 (map (fun k => (i, (6 * r + k)%nat)) (seq 0 6)) _ (mkWorld (list_set [m0; m1] i m') (pre ++ b ++ b')) Hinv _).
    rewrite map_map. exact E. }
  exists (if Nat.even r then m0 else m'), (if Nat.even r then m' else m1), (pre ++ b), b'.
  assert (Gm' : good_window (window m')) by (right; exact V').
  split; [subst i; destruct (Nat.even r); cbn; rewrite app_assoc; reflexivity|].
  split; [destruct (Nat.even r); assumption|].
  split; [destruct (Nat.even r); assumption|].
  split; [destruct (Nat.even r); assumption|].
  split; [destruct (Nat.even r); assumption|].
  assert (Lb : length b = 6%nat).
  { destruct Hb as [Hf _]. apply (f_equal (@length _)) in Hf. rewrite map_length, repeat_length in Hf. exact Hf. }
  assert (Lb' : length b' = 6%nat).
  { destruct B' as [Hf _]. apply (f_equal (@length _)) in Hf. rewrite map_length, repeat_length in Hf. exact Hf. }
  split; [|split; [|split]].
  - rewrite app_length, Hl. lia.
  - rewrite Nat.even_succ, <- Nat.negb_even. subst i. destruct (Nat.even r); exact B'.
  - rewrite <- app_assoc. exact Horig.
  - intros k j t Hk. destruct (Nat.lt_ge_cases k (length (pre ++ b))) as [Hlt|Hge].
    + rewrite nth_error_app1 in Hk by exact Hlt. eapply Hby; eauto.
    + rewrite nth_error_app2 in Hk by exact Hge. rewrite app_length, Hl, Lb in *.
      assert (Hk6 : (k - (6 * r + 6) < 6)%nat) by (rewrite <- Lb'; apply nth_error_Some; congruence).
      replace (k / 6)%nat with (S r).
      2:{ replace k with (S r * 6 + (k - (6 * r + 6)))%nat by lia.
          rewrite Nat.div_add_l, Nat.div_small by lia. lia. }
      rewrite Nat.even_succ, <- Nat.negb_even.
      destruct B' as [Hf _].
      assert (Hj : nth_error (map fst b') (k - (6 * r + 6)) = Some j) by (rewrite nth_error_map, Hk; reflexivity).
      rewrite Hf in Hj. apply nth_error_In, repeat_spec in Hj. subst j i. destruct (Nat.even r); reflexivity.
Qed.

Lemma storm_runs pl R : exists w, world_run pl (world_init 2) (storm R) = Ok w /\ flood_inv 2 w /\ storm_state R w.
Proof.
  induction R as [|R (w & E & Hi & St)].
  - destruct (storm_start_state pl) as (w & E & St). exists w. split.
    { unfold storm. rewrite Nat.mul_0_r. cbn [seq map]. rewrite app_nil_r. exact E. }
    split; [|exact St]. destruct (flood_total pl 2 storm_start _ (flood_inv_init 2)) as (w' & E' & Hi & _).
    rewrite E in E'; inversion E'; subst; exact Hi.
  - destruct (storm_round pl R w Hi St) as (w' & E' & Hi' & S'). exists w'. split; [|auto].
    unfold storm. replace (6 * S R)%nat with (6 * R + 6)%nat by lia.
    rewrite seq_app, map_app, app_assoc, world_run_app. fold (storm R). rewrite E. cbn [obind]. exact E'.
Qed.
