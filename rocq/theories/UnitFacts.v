(** Proof support: running the statements of the test files on symbolic
    random numbers and memory contents. *)
From Coq Require Import ZArith Lia List Bool.
From Coq Require Import ZifyBool.
From Verif Require Import CInt CIntFacts Packet SpecPacket PacketFacts NetMgr NetHist SpecNet NetFacts Rsm RsmStep RsmEval RsmFacts Bench FakeNetFacts UnitTests.
Import ListNotations.
Open Scope Z_scope.
Ltac Zify.zify_post_hook ::= Z.div_mod_to_equations.

(** The tick relation determines the run. *)
Lemma tick_run e now n inc out n' : good n -> inc_ok inc ->
  tick e now n inc out n' -> RadioTick e now inc n = Ok (tt, n', out).
Proof.
  intros G I T. pose proof (g_nm _ G) as W. destruct T;
  try (pose proof (heard_wf _ _ _ I H) as Wp).
  - rewrite (tick_unheard _ _ _ _ W H). destruct H0 as [D0 H0].
    destruct (TimerExpired_cases now n) as [(D & E)|[(_ & D & E)|[(_ & _ & D & E)|(_ & _ & _ & E)]]]; rewrite E; try congruence.
    + destruct H0 as [S0|[Dc _]]; [|congruence]. rewrite S0. cbn [handleSlaveTimer]. unfold mbind, mret.
      rewrite finish_same by apply G. reflexivity.
    + destruct H0 as [S0|[_ Dc]]; [|congruence]. rewrite S0. cbn [handleSlaveTimer]. unfold mbind, mret.
      rewrite finish_same by apply G. reflexivity.
    + unfold mbind, mret. rewrite finish_same by apply G. reflexivity.
  - rewrite (tick_unheard _ _ _ _ W H). unfold TimerExpired. rewrite H1, H0. apply eval_takeover; auto.
  - rewrite (tick_unheard _ _ _ _ W H). unfold TimerExpired. rewrite H1, H0. apply eval_hb; auto.
  - rewrite (tick_unheard _ _ _ _ W H). unfold TimerExpired. rewrite H1, H2, H0. apply eval_ce; auto.
  - rewrite (tick_unheard _ _ _ _ W H). unfold TimerExpired. rewrite H1, H2, H3, H0. apply eval_bc; auto.
  - rewrite (tick_heard _ _ _ _ _ W H). rewrite eval_unknown by auto. reflexivity.
  - rewrite (tick_heard _ _ _ _ _ W H), H1. rewrite eval_slave_hb by auto.
    apply readableb_iff in H2. unfold readableb in H2. rewrite H2. reflexivity.
  - rewrite (tick_heard _ _ _ _ _ W H), H1. rewrite eval_slave_claim by auto. reflexivity.
  - rewrite (tick_heard _ _ _ _ _ W H), H1. rewrite eval_slave_se by auto.
    apply readableb_iff in H2. rewrite H2. cbn [andb].
    destruct (Z.eqb_spec (byte_at (pdata p) 0) (effect_index n)) as [E|E]; cbn [negb orb]; [|reflexivity].
    apply H3, readableb_iff in E. rewrite E. reflexivity.
  - rewrite (tick_heard _ _ _ _ _ W H), H1. rewrite eval_slave_sc by auto. reflexivity.
  - rewrite (tick_heard _ _ _ _ _ W H), H1. rewrite eval_master_hb by auto.
    destruct (Z.ltb_spec (pid p) (election_number e n)); [reflexivity|lia].
  - rewrite (tick_heard _ _ _ _ _ W H), H1. rewrite eval_master_hb by auto.
    destruct (Z.ltb_spec (pid p) (election_number e n)); [lia|reflexivity].
  - rewrite (tick_heard _ _ _ _ _ W H), H1. rewrite eval_master_claim by auto. reflexivity.
  - rewrite (tick_heard _ _ _ _ _ W H), H1. rewrite eval_master_se by auto.
    apply readableb_iff in H2. rewrite H2. reflexivity.
  - rewrite (tick_heard _ _ _ _ _ W H), H1. rewrite eval_master_sc by auto.
    apply readableb_iff in H2. rewrite H2. reflexivity.
Qed.

(** Own ids on the host: 2 + d mod 65535, kept in 16 bits. *)
Definition own_id (d : N) : Z := u16 (2 + Z.of_N d mod 65535).
Lemma id_of_own d : id_of Host d = own_id d.
Proof. reflexivity. Qed.
Lemma own_not_1 d : own_id d =? 1 = false.
Proof. unfold own_id, u16. pose proof (Z.mod_pos_bound (Z.of_N d) 65535 ltac:(lia)). lia. Qed.
Lemma own_last d : (own_id d =? 65535) = (Z.of_N d mod 65535 =? 65533).
Proof. unfold own_id, u16. pose proof (Z.mod_pos_bound (Z.of_N d) 65535 ltac:(lia)). lia. Qed.
Lemma own_zero d : (own_id d =? 0) = (Z.of_N d mod 65535 =? 65534).
Proof. unfold own_id, u16. pose proof (Z.mod_pos_bound (Z.of_N d) 65535 ltac:(lia)). lia. Qed.

(** A node of the tests, between two calls. *)
Definition nd c i s hb ce bc sa off ei np ne pk sp k : node :=
  mkNode (mkNm c i) s s hb ce bc sa off ei np ne pk sp false k.

Lemma run_and_good e now n inc out n' : good n -> inc_ok inc -> 0 <= now < 4294967296 ->
  tick e now n inc out n' -> RadioTick e now inc n = Ok (tt, n', out) /\ good n'.
Proof. intros G I R T. split; [apply tick_run; auto|eapply tick_good; eauto]. Qed.

Section Steps.
Variable d : nat -> N.
Let e := mkEnv Host d.
Variables (now : Z) (inc : option packet) (c : list Z) (i hb ce bc sa off ei np ne : Z) (pk sp : packet) (k : nat).
Hypothesis I : inc_ok inc.
Hypothesis Rn : 0 <= now < 4294967296.

Lemma go_quiet s : let n := nd c i s hb ce bc sa off ei np ne pk sp k in
  good n -> heard n inc = None -> timer_due now hb = false ->
  s = Slave \/ (timer_due now ce = false /\ timer_due now bc = false) ->
  RadioTick e now inc n = Ok (tt, n, []) /\ good n.
Proof. intros n G H T1 T2. apply run_and_good; auto. apply T_quiet; auto. Qed.

Lemma go_takeover hb' ce' bc' i' c' : let n := nd c i Slave hb ce bc sa off ei np ne pk sp k in
  good n -> heard n inc = None -> timer_due now hb = true ->
  u32 (now + 1000) = hb' -> ce_takeover now n = ce' -> u32 (now + 2000) = bc' ->
  u8 (i + 1) mod 5 = i' -> list_set c (Z.to_nat i) (own_id (d k)) = c' ->
  exists q, ptype q = HEARTBEAT /\
    let n' := nd c' i' Master hb' ce' bc' sa off ei np ne q sp (S k) in
    RadioTick e now inc n = Ok (tt, n', [Own ByHeartbeat q]) /\ good n'.
Proof.
  intros n G H T1 <- <- <- <- <-. exists (hb_packet e now n). split; [reflexivity|].
  apply run_and_good; auto. apply (T_takeover e now n inc); auto.
Qed.

Lemma go_hb hb' i' c' : let n := nd c i Master hb ce bc sa off ei np ne pk sp k in
  good n -> heard n inc = None -> timer_due now hb = true ->
  u32 (now + 1000) = hb' -> u8 (i + 1) mod 5 = i' -> list_set c (Z.to_nat i) (own_id (d k)) = c' ->
  exists q, ptype q = HEARTBEAT /\
    let n' := nd c' i' Master hb' ce bc sa off ei np ne q sp (S k) in
    RadioTick e now inc n = Ok (tt, n', [Own ByHeartbeat q]) /\ good n'.
Proof.
  intros n G H T1 <- <- <-. exists (hb_packet e now n). split; [reflexivity|].
  apply run_and_good; auto. apply (T_hb e now n inc); auto.
Qed.

Lemma go_bc bc' i' c' : let n := nd c i Master hb ce bc sa off ei np ne pk sp k in
  good n -> heard n inc = None -> timer_due now hb = false -> timer_due now ce = false -> timer_due now bc = true ->
  u32 (now + 2000) = bc' -> u8 (i + 1) mod 5 = i' -> list_set c (Z.to_nat i) (own_id (d k)) = c' ->
  exists q, ptype q = ptype sp /\ dlen q = dlen sp /\ pdata q = pdata sp /\
    let n' := nd c' i' Master hb ce bc' sa off ei np ne pk q (S k) in
    RadioTick e now inc n = Ok (tt, n', [Own ByRebroadcast q]) /\ good n'.
Proof.
  intros n G H T1 T2 T3 <- <- <-. exists (set_id (set_effect_packet n) (RsmStep.fresh e n)). do 3 (split; [reflexivity|]).
  apply run_and_good; auto. apply (T_bc e now n inc); auto.
Qed.

Lemma go_ce ce' i' c' : let n := nd c i Master hb ce bc sa off ei np ne pk sp k in
  good n -> heard n inc = None -> timer_due now hb = false -> timer_due now ce = true ->
  0 < ne -> 0 < np ->
  u32 (now + 60000) = ce' -> u8 (i + 1) mod 5 = i' -> list_set c (Z.to_nat i) (own_id (d (S (S k)))) = c' ->
  exists q sp' ei', ptype q = SET_EFFECT /\ dlen q = 3 /\
    byte_at (pdata q) 0 = Z.of_N (d k) mod ne /\ byte_at (pdata q) 1 = 0 /\
    byte_at (pdata q) 2 = Z.of_N (d (S k)) mod np /\
    ptype sp' = ptype q /\ dlen sp' = dlen q /\ pdata sp' = pdata q /\
    let n' := nd c' i' Master hb ce' bc sa off ei' np ne q sp' (S (S (S k))) in
    RadioTick e now inc n = Ok (tt, n', [Own ByChange q]) /\ good n'.
Proof.
  intros n G H T1 T2 P1 P2 <- <- <-.
  assert (C : can_pick e n) by (right; cbn; lia).
  destruct (run_and_good _ _ _ _ _ _ G I Rn (T_ce e now n inc H eq_refl T1 T2 C)) as [R G'].
  exists (set_id (pick_packet e n) (pick_id e n)), (pick_packet e n), (i8 (pick_effect e n)).
  pose proof (g_ne _ G) as B1. pose proof (g_np _ G) as B2. pose proof (g_pk _ G) as (_ & _ & _ & L & _).
  cbn [num_effects num_palettes packet_ n nd] in B1, B2, L.
  assert (E1 : pick_effect e n = Z.of_N (d k) mod ne).
  { unfold pick_effect, picked, random2. cbn. destruct (Z.eqb_spec ne 0); [lia|].
    pose proof (Z.mod_pos_bound (Z.of_N (d k)) ne P1). rewrite Z.add_0_l, u16_id; lia. }
  assert (E2 : pick_palette e n = Z.of_N (d (S k)) mod np).
  { unfold pick_palette, picked, random2. cbn. destruct (Z.eqb_spec np 0); [lia|].
    pose proof (Z.mod_pos_bound (Z.of_N (d (S k))) np P2). rewrite Z.add_0_l, u16_id; lia. }
  pose proof (Z.mod_pos_bound (Z.of_N (d k)) ne P1) as M1.
  pose proof (Z.mod_pos_bound (Z.of_N (d (S k))) np P2) as M2.
  assert (B : byte_at (pdata (pick_packet e n)) 0 = Z.of_N (d k) mod ne /\
              byte_at (pdata (pick_packet e n)) 1 = 0 /\
              byte_at (pdata (pick_packet e n)) 2 = Z.of_N (d (S k)) mod np).
  { unfold pick_packet, writeSetEffect. cbn [pdata packet_ n nd]. rewrite E1, E2.
    destruct (pdata pk) as [|x0 [|x1 [|x2 r]]]; try (cbn in L; lia).
    unfold byte_at. cbn [list_set nth].
    split; [|split; [reflexivity|]].
    - unfold u8, i8. destruct (_ <? _) eqn:?; lia.
    - unfold u8. lia. }
  destruct B as (B0 & B1' & B2').
  do 2 (split; [reflexivity|]). do 3 (split; [assumption|]). do 3 (split; [reflexivity|]).
  split; assumption.
Qed.

Lemma go_slave_hb p hb' off' i' c' : let n := nd c i Slave hb ce bc sa off ei np ne pk sp k in
  good n -> inc = Some p -> heard n inc = Some p -> ptype p = HEARTBEAT -> dlen p = 4 ->
  u32 (now + (5000 + Z.of_N (d k) mod 2000)) = hb' ->
  i32 (u32 (big_endian (payload 4 p) - u32 (i32 now))) = off' ->
  u8 (i + 1) mod 5 = i' -> list_set c (Z.to_nat i) (pid p) = c' ->
  let n' := nd c' i' Slave hb' ce bc sa off' ei np ne pk sp (S k) in
  RadioTick e now inc n = Ok (tt, n', [Forwarded p]) /\ good n'.
Proof.
  intros n G _ H T L <- <- <- <-. apply run_and_good; auto.
  apply (T_slave_hb e now n inc p); auto. right; auto.
Qed.

Lemma go_slave_se p sa' i' c' : let n := nd c i Slave hb ce bc sa off ei np ne pk sp k in
  good n -> inc = Some p -> heard n inc = Some p -> ptype p = SET_EFFECT -> dlen p = 3 ->
  byte_at (pdata p) 0 <> ei ->
  now = sa' ->
  u8 (i + 1) mod 5 = i' -> list_set c (Z.to_nat i) (pid p) = c' ->
  let n' := nd c' i' Slave hb ce bc sa' off (i8 (byte_at (pdata p) 0)) np ne pk p k in
  RadioTick e now inc n = Ok (tt, n', [Forwarded p]) /\ good n'.
Proof.
  intros n G _ H T L Ne <- <- <-. apply run_and_good; auto.
  pose proof (T_slave_se e now n inc p H T eq_refl (or_intror (conj T L)) (fun E => match Ne E with end)) as X.
  assert (C : changed n p = true).
  { unfold changed. apply orb_true_iff. left. apply negb_true_iff, Z.eqb_neq. exact Ne. }
  rewrite C in X. exact X.
Qed.

Lemma go_master_claim p hb' i' c' : let n := nd c i Master hb ce bc sa off ei np ne pk sp k in
  good n -> inc = Some p -> heard n inc = Some p -> ptype p = CLAIM_MASTER ->
  u32 (now + (5000 + Z.of_N (d k) mod 2000)) = hb' ->
  u8 (i + 1) mod 5 = i' -> list_set c (Z.to_nat i) (pid p) = c' ->
  let n' := nd c' i' Slave hb' ce bc sa off ei np ne pk sp (S k) in
  RadioTick e now inc n = Ok (tt, n', [Forwarded p]) /\ good n'.
Proof.
  intros n G _ H T <- <- <-. apply run_and_good; auto. apply (T_master_claim e now n inc p); auto.
Qed.

(** The number a master draws in an election. *)
Definition ballot (r : N) : Z := u16 (1 + Z.of_N r mod 65535).

Lemma go_master_lose p hb' i' c' : let n := nd c i Master hb ce bc sa off ei np ne pk sp k in
  good n -> inc = Some p -> heard n inc = Some p -> ptype p = HEARTBEAT -> ballot (d k) <= pid p ->
  u32 (now + (5000 + Z.of_N (d (S k)) mod 2000)) = hb' ->
  u8 (i + 1) mod 5 = i' -> list_set c (Z.to_nat i) (pid p) = c' ->
  let n' := nd c' i' Slave hb' ce bc sa off ei np ne pk sp (S (S k)) in
  RadioTick e now inc n = Ok (tt, n', [Forwarded p]) /\ good n'.
Proof.
  intros n G _ H T L <- <- <-. apply run_and_good; auto. apply (T_master_lose e now n inc p); auto.
Qed.

Lemma go_master_win p c' i' : let n := nd c i Master hb ce bc sa off ei np ne pk sp k in
  good n -> inc = Some p -> heard n inc = Some p -> ptype p = HEARTBEAT -> pid p < ballot (d k) ->
  nm_push (nm_push (mkNm c i) (pid p)) (own_id (d (S k))) = mkNm c' i' ->
  exists q, ptype q = CLAIM_MASTER /\
  let n' := nd c' i' Master hb ce bc sa off ei np ne q sp (S (S k)) in
  RadioTick e now inc n = Ok (tt, n', [Forwarded p; Own ByElection q]) /\ good n'.
Proof.
  intros n G _ H T L E. exists (claim_packet e n). split; [reflexivity|].
  apply run_and_good; auto. unfold nd. rewrite <- E. apply (T_master_win e now n inc p); auto.
Qed.

Lemma go_master_se p ce' i' c' : let n := nd c i Master hb ce bc sa off ei np ne pk sp k in
  good n -> inc = Some p -> heard n inc = Some p -> ptype p = SET_EFFECT -> dlen p = 3 ->
  timer_of now (byte_at (pdata p) 1 * 1000) = ce' ->
  u8 (i + 1) mod 5 = i' -> list_set c (Z.to_nat i) (pid p) = c' ->
  let n' := nd c' i' Master hb ce' bc sa off (i8 (byte_at (pdata p) 0)) np ne pk p k in
  RadioTick e now inc n = Ok (tt, n', [Forwarded p]) /\ good n'.
Proof.
  intros n G _ H T L <- <- <-. apply run_and_good; auto. apply (T_master_se e now n inc p); auto. right; auto.
Qed.
End Steps.

(** ** The statements of a test *)

(** What memory can hold. *)
Definition junk_ok (j : junk) : Prop :=
  0 <= j_type j < 256 /\ length (j_data j) = 58%nat /\ Forall is_byte (j_data j).

Definition heartbeat_of (id t : Z) : packet :=
  mkPacket id 0 4 ([u8 (Z.shiftr t 24); u8 (Z.shiftr t 16); u8 (Z.shiftr t 8); u8 t] ++ repeat 0 54).
Definition claim_of (id : Z) : packet := mkPacket id 1 0 (repeat 0 58).
Definition set_effect_of (id a b c : Z) : packet :=
  mkPacket id 2 3 ([u8 a; u8 b; u8 c] ++ repeat 0 55).

Lemma junk_wf j id : junk_ok j -> 0 <= id < 65536 -> wf_packet (mkPacket id (j_type j) 0 (j_data j)).
Proof. intros (A & B & C) R. unfold wf_packet, is_byte; cbn. intuition lia. Qed.

Lemma zero_heartbeat j id t : junk_ok j ->
  zero_tail (writeHeartbeat t (mkPacket id (j_type j) 0 (j_data j))) = heartbeat_of id t.
Proof.
  intros (_ & L & _). destruct (j_data j) as [|x0 [|x1 [|x2 [|x3 r]]]]; try (cbn in L; lia). reflexivity.
Qed.
Lemma zero_claim j id : junk_ok j ->
  zero_tail (mkPacket id CLAIM_MASTER 0 (j_data j)) = claim_of id.
Proof. reflexivity. Qed.
Lemma zero_set_effect j id a b c : junk_ok j ->
  zero_tail (writeSetEffect a b c (mkPacket id (j_type j) 0 (j_data j))) = set_effect_of id a b c.
Proof.
  intros (_ & L & _). destruct (j_data j) as [|x0 [|x1 [|x2 r]]]; try (cbn in L; lia). reflexivity.
Qed.

Lemma upd_same {A} (f : nat -> A) a v : upd f a v a = v.
Proof. unfold upd. rewrite Nat.eqb_refl. reflexivity. Qed.

Definition put (H : nat -> option packet) (a : nat) (p : packet) : nat -> option packet :=
  fun b => if Nat.eqb b a then Some p else H b.
Definition drop (H : nat -> option packet) (a : nat) : nat -> option packet :=
  fun b => if Nat.eqb b a then None else H b.

Lemma set_received_eq H f r s a p : H a = Some p -> sound p -> exists H',
  fr_setReceivedPacket (Some a) (mkWorld H f r s) = Ok (mkWorld H' f (Some a) s) /\
  forall b, H' b = put H a (zero_tail p) b.
Proof.
  intros E So. unfold fr_setReceivedPacket, deref. cbn [heap Bench.fresh sent_packet received_packet]. rewrite E. cbn [obind].
  change PACKET_DATA_LENGTH with 58. rewrite clear_zero_tail by exact So. cbn [obind]. unfold assign.
  cbn [heap Bench.fresh sent_packet received_packet]. rewrite E. eexists. split; [reflexivity|]. reflexivity.
Qed.

(** [deliver]: the radio now offers the packet, with everything behind its
    payload cleared. *)
Lemma deliver_eq j id write now n H f r s ok p :
  write (mkPacket id (j_type j) 0 (j_data j)) = p -> sound p -> exists H',
  deliver j id write (mkRig now n (mkWorld H f r s) ok) =
    Ok (Some f, mkRig now n (mkWorld H' (S f) (Some f) s) ok) /\
  forall b, H' b = put H f (zero_tail p) b.
Proof.
  intros E So. unfold deliver, declare, tbind, new_packet, load, deref.
  cbn [g_radio g_now g_sut g_ok heap Bench.fresh sent_packet received_packet]. rewrite upd_same. cbn [obind].
  unfold store, assign. cbn [g_radio g_now g_sut g_ok heap Bench.fresh sent_packet received_packet]. rewrite upd_same. cbn [obind].
  unfold setReceived. cbn [g_radio g_now g_sut g_ok ptype dlen pdata]. rewrite E.
  edestruct (set_received_eq (upd (upd H f (Some (mkPacket 0 (j_type j) 0 (j_data j)))) f (Some p)) (S f) r s f p) as (H' & E1 & E2).
  { apply upd_same. } { exact So. }
  rewrite E1. cbn [obind]. unfold tret. cbn [g_radio g_now g_sut g_ok]. exists H'. split; [reflexivity|].
  intros b. rewrite E2. unfold put, upd. destruct (Nat.eqb b f); reflexivity.
Qed.

Lemma hb_sound j id t : junk_ok j -> 0 <= id < 65536 ->
  sound (writeHeartbeat t (mkPacket id (j_type j) 0 (j_data j))).
Proof. intros J R. split; [apply writeHeartbeat_wf, junk_wf; auto|]. left. split; reflexivity. Qed.
Lemma se_sound j id a b c : junk_ok j -> 0 <= id < 65536 ->
  sound (writeSetEffect a b c (mkPacket id (j_type j) 0 (j_data j))).
Proof. intros J R. split; [apply writeSetEffect_wf, junk_wf; auto|]. right; right. split; reflexivity. Qed.
Lemma claim_sound j id : junk_ok j -> 0 <= id < 65536 -> sound (mkPacket id CLAIM_MASTER 0 (j_data j)).
Proof.
  intros (A & B & C) R. split; [|right; left; split; reflexivity].
  unfold wf_packet, CLAIM_MASTER, is_byte; cbn. repeat split; try lia; auto.
Qed.

(** A transmission into an empty and into a full outbox. *)
Lemma transmit_new t p H f r : p = match t with Forwarded p => p | Own _ p => p end -> exists H',
  transmit [t] (mkWorld H f r None) = Ok (mkWorld H' (S f) r (Some f)) /\ forall b, H' b = put H f p b.
Proof.
  intros ->. cbn [transmit]. unfold fr_sendPacket, new_packet, assign. cbn [heap Bench.fresh sent_packet received_packet].
  rewrite upd_same. cbn [obind]. eexists. split; [reflexivity|]. intros b. unfold upd, put. destruct (Nat.eqb b f); reflexivity.
Qed.
Lemma transmit_old t p H f r a q : p = match t with Forwarded p => p | Own _ p => p end -> H a = Some q -> exists H',
  transmit [t] (mkWorld H f r (Some a)) = Ok (mkWorld H' f r (Some a)) /\ forall b, H' b = put H a p b.
Proof.
  intros -> E. cbn [transmit]. unfold fr_sendPacket, assign. cbn [heap Bench.fresh sent_packet received_packet].
  rewrite E. cbn [obind]. eexists. split; [reflexivity|]. reflexivity.
Qed.

Lemma tbind_tick {B} e (k : unit -> T node B) now n H f r s ok inc n' out w' :
  match r with None => inc = None | Some a => exists p, H a = Some p /\ inc = Some p end ->
  RadioTick e now inc n = Ok (tt, n', out) -> transmit out (mkWorld H f r s) = Ok w' ->
  tbind (radio_tick e) k (mkRig now n (mkWorld H f r s) ok) = k tt (mkRig now n' w' ok).
Proof.
  intros R E Tr. unfold tbind, radio_tick. cbn [g_radio g_now g_sut g_ok]. unfold fr_readPacket, deref.
  cbn [heap received_packet].
  assert (X : (match r with None => Ok None | Some a => p <- match H a with Some p => Ok p | None => Undef end ;; Ok (Some p) end) = Ok inc).
  { destruct r as [a|]; [destruct R as (p & -> & ->)|subst]; reflexivity. }
  rewrite X. cbn [obind]. rewrite E. cbn [obind]. rewrite Tr. reflexivity.
Qed.

Lemma tbind_state {B} (k : unit -> T node B) now n w ok s :
  tbind (expect_state s) k (mkRig now n w ok) = k tt (mkRig now n w (ok && role_eqb (state n) s)).
Proof. reflexivity. Qed.
Lemma last_state now n w ok s :
  expect_state s (mkRig now n w ok) = Ok (Some tt, mkRig now n w (ok && role_eqb (state n) s)).
Proof. reflexivity. Qed.
Lemma tbind_set {B} (k : unit -> T node B) t now n w ok t' : u32 t = t' ->
  tbind (setMillis t) k (mkRig now n w ok) = k tt (mkRig t' n w ok).
Proof. intros <-. reflexivity. Qed.
Lemma tbind_advance {B} (k : unit -> T node B) t now n w ok t' : u32 (now + t) = t' ->
  tbind (advanceMillis t) k (mkRig now n w ok) = k tt (mkRig t' n w ok).
Proof. intros <-. reflexivity. Qed.
Lemma tbind_expect {B} {X} (k : unit -> T X B) b now n w ok :
  tbind (expect b) k (mkRig now n w ok) = k tt (mkRig now n w (ok && b)).
Proof. reflexivity. Qed.
Lemma tbind_sent {B} {X} (k : option nat -> T X B) now n H f r s ok :
  tbind getSent k (mkRig now n (mkWorld H f r s) ok) = k s (mkRig now n (mkWorld H f r None) ok).
Proof. reflexivity. Qed.
Lemma tbind_load {B} {X} (k : packet -> T X B) now n H f r s ok a p : H a = Some p ->
  tbind (load (Some a)) k (mkRig now n (mkWorld H f r s) ok) = k p (mkRig now n (mkWorld H f r s) ok).
Proof. intros E. unfold tbind, load, deref. cbn [g_radio heap]. rewrite E. reflexivity. Qed.
Lemma tbind_store {B} {X} (k : unit -> T X B) now n H f r s ok a p q : H a = Some q -> exists H',
  tbind (store (Some a) p) k (mkRig now n (mkWorld H f r s) ok) = k tt (mkRig now n (mkWorld H' f r s) ok) /\
  forall b, H' b = put H a p b.
Proof. intros E. unfold tbind, store, assign. cbn [g_radio heap]. rewrite E. eexists. split; [reflexivity|]. reflexivity. Qed.
Lemma last_delete {X} now (n : X) H f r s ok a q : H a = Some q -> exists H',
  deleting (Some a) (mkRig now n (mkWorld H f r s) ok) = Ok (Some tt, mkRig now n (mkWorld H' f r s) ok) /\
  forall b, H' b = drop H a b.
Proof. intros E. unfold deleting, delete. cbn [g_radio heap]. rewrite E. eexists. split; [reflexivity|]. reflexivity. Qed.
Lemma tbind_delete {B} {X} (k : unit -> T X B) now n H f r s ok a q : H a = Some q -> exists H',
  tbind (deleting (Some a)) k (mkRig now n (mkWorld H f r s) ok) = k tt (mkRig now n (mkWorld H' f r s) ok) /\
  forall b, H' b = drop H a b.
Proof. intros E. unfold tbind, deleting, delete. cbn [g_radio heap]. rewrite E. eexists. split; [reflexivity|]. reflexivity. Qed.
Lemma tbind_deliver {B} (k : nat -> T node B) j id write now n H f r s ok p :
  write (mkPacket id (j_type j) 0 (j_data j)) = p -> sound p -> exists H',
  tbind (deliver j id write) k (mkRig now n (mkWorld H f r s) ok) =
    k f (mkRig now n (mkWorld H' (S f) (Some f) s) ok) /\
  forall b, H' b = put H f (zero_tail p) b.
Proof.
  intros E So. destruct (deliver_eq j id write now n H f r s ok p E So) as (H' & E1 & E2).
  exists H'. split; [|exact E2]. unfold tbind at 1. rewrite E1. reflexivity.
Qed.

(** [expect_sent] when the outbox holds a packet. *)
Lemma expect_sent_eq ty now n H f r a ok p : H a = Some p -> exists H',
  expect_sent ty (mkRig now n (mkWorld H f r (Some a)) ok) =
    Ok (Some tt, mkRig now n (mkWorld H' f r None) (ok && (ptype p =? ty))) /\
  forall b, H' b = drop H a b.
Proof.
  intros E. unfold expect_sent. rewrite tbind_sent. unfold tbind at 1, asserting. cbn [is_null negb].
  rewrite (tbind_load _ _ _ _ _ _ _ _ _ _ E), tbind_expect.
  apply last_delete with (q := p). exact E.
Qed.
Lemma tbind_expect_sent {B} (k : unit -> T node B) ty now n H f r a ok p : H a = Some p -> exists H',
  tbind (expect_sent ty) k (mkRig now n (mkWorld H f r (Some a)) ok) =
    k tt (mkRig now n (mkWorld H' f r None) (ok && (ptype p =? ty))) /\
  forall b, H' b = drop H a b.
Proof.
  intros E. destruct (expect_sent_eq ty now n H f r a ok p E) as (H' & E1 & E2).
  exists H'. split; [|exact E2]. unfold tbind at 1. rewrite E1. reflexivity.
Qed.

(** The end of a test. *)
Lemma report_none {X} now (n : X) H f r ok o :
  report (Ok (o, mkRig now n (mkWorld H f r None) ok)) = Ok ok.
Proof. reflexivity. Qed.
Lemma report_some {X} now (n : X) H f r a p ok o : H a = Some p ->
  report (Ok (o, mkRig now n (mkWorld H f r (Some a)) ok)) = Ok ok.
Proof. intros E. unfold report, fr_destroy, delete. cbn [g_radio sent_packet heap]. rewrite E. reflexivity. Qed.

(** The start of a test. *)
Lemma start_good d j1 j2 : junk_ok j1 -> junk_ok j2 -> exists hb0 pk sp,
  construct (mkEnv Host d) 0 (j_type j1) (j_type j2) (j_data j1) (j_data j2) =
    Ok (nd [0;0;0;0;0] 0 Slave hb0 0 0 0 0 0 1 1 pk sp 1) /\
  good (nd [0;0;0;0;0] 0 Slave hb0 0 0 0 0 0 1 1 pk sp 1) /\
  hb0 = 5000 + Z.of_N (d 0%nat) mod 2000 /\ 5000 <= hb0 <= 6999 /\
  ptype sp = SET_EFFECT /\ dlen sp = 3 /\
  byte_at (pdata sp) 0 = 1 /\ byte_at (pdata sp) 1 = 0 /\ byte_at (pdata sp) 2 = 0.
Proof.
  intros J1 J2. rewrite construct_eq. cbn [draw].
  pose proof (Z.mod_pos_bound (Z.of_N (d 0%nat)) 2000 ltac:(lia)) as R.
  assert (U : u32 (0 + (5000 + Z.of_N (d 0%nat) mod 2000)) = 5000 + Z.of_N (d 0%nat) mod 2000) by (rewrite u32_id; lia).
  rewrite U. do 3 eexists. split; [reflexivity|].
  split.
  { constructor; cbn; try lia.
    - split; cbn; lia.
    - reflexivity.
    - apply junk_wf; auto; lia.
    - apply writeSetEffect_wf, junk_wf; auto; lia. }
  split; [reflexivity|]. split; [lia|]. do 2 (split; [reflexivity|]).
  destruct J2 as (_ & L & _). destruct (j_data j2) as [|x0 [|x1 [|x2 r]]]; try (cbn in L; lia).
  repeat split; reflexivity.
Qed.
