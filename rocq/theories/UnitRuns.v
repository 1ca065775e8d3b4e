(** Proof support: the runs of the state machine's unit tests. *)
From Coq Require Import ZArith Lia List Bool.
From Coq Require Import ZifyBool.
From Verif Require Import CInt CIntFacts Packet SpecPacket PacketFacts NetMgr NetHist SpecNet NetFacts Rsm RsmStep RsmEval RsmFacts Bench FakeNetFacts UnitTests UnitFacts.
Import ListNotations.
Open Scope Z_scope.
Ltac Zify.zify_post_hook ::= Z.div_mod_to_equations.

Ltac look := repeat (match goal with
  | E : forall b, ?H b = _ |- context [?H ?a] => rewrite E
  end; unfold put, drop; cbn [Nat.eqb]; rewrite ?Nat.eqb_refl).

Ltac num := vm_compute; reflexivity.
Ltac cache := cbn [list_set Z.to_nat Pos.to_nat Pos.iter_op Nat.add]; reflexivity.
(** The next statement is a tick that transmits into an empty or a full outbox,
    or transmits nothing. *)
Ltac tick_new R t p := match goal with
  | |- context [tbind (radio_tick _) _ (mkRig _ _ (mkWorld ?H ?f ?r None) _)] =>
      let H' := fresh "H" in let Tr := fresh "Tr" in let D := fresh "D" in
      destruct (transmit_new t p H f r eq_refl) as (H' & Tr & D);
      erewrite tbind_tick; [|first [reflexivity | eexists; split; [look; reflexivity|reflexivity]]|exact R|exact Tr]; clear Tr
  end.
Ltac tick_old R t p := match goal with
  | |- context [tbind (radio_tick _) _ (mkRig _ _ (mkWorld ?H ?f ?r (Some ?a)) _)] =>
      let H' := fresh "H" in let Tr := fresh "Tr" in let D := fresh "D" in
      edestruct (transmit_old t p H f r a) as (H' & Tr & D); [reflexivity|look; reflexivity|];
      erewrite tbind_tick; [|first [reflexivity | eexists; split; [look; reflexivity|reflexivity]]|exact R|exact Tr]; clear Tr
  end.
Ltac tick_none R :=
  erewrite tbind_tick; [|first [reflexivity | eexists; split; [look; reflexivity|reflexivity]]|exact R|reflexivity].
Ltac sent_is T := match goal with
  | |- context [tbind (expect_sent ?ty) ?k (mkRig ?now ?n (mkWorld ?H ?f ?r (Some ?a)) ?ok)] =>
      let H' := fresh "H" in let E := fresh "E" in let D := fresh "D" in
      edestruct (tbind_expect_sent k ty now n H f r a ok) as (H' & E & D); [look; reflexivity|];
      rewrite E; clear E; rewrite T; cbn [Z.eqb Pos.eqb HEARTBEAT SET_EFFECT CLAIM_MASTER andb]
  end.
Ltac put_in write := match goal with
  | |- context [tbind (deliver ?j ?id ?w) ?k (mkRig ?now ?n (mkWorld ?H ?f ?r ?s) ?ok)] =>
      let H' := fresh "H" in let E := fresh "E" in let D := fresh "D" in
      edestruct (tbind_deliver k j id w now n H f r s ok) as (H' & E & D); [reflexivity|write|];
      rewrite E; clear E
  end.
Ltac due := unfold timer_due; lia.
Ltac clock := first [rewrite (tbind_set _ _ _ _ _ _ _ eq_refl) | rewrite (tbind_advance _ _ _ _ _ _ _ eq_refl)].

Section Runs.
Variable d : nat -> N.
Local Notation e := (mkEnv Host d).
Variables j1 j2 j : junk.
Hypothesis J1 : junk_ok j1.
Hypothesis J2 : junk_ok j2.
Hypothesis J : junk_ok j.

Ltac begin := unfold on_state_machine;
  let hb0 := fresh "hb0" in let pk := fresh "pk" in let sp := fresh "sp" in
  destruct (start_good d j1 j2 J1 J2) as (hb0 & pk & sp & -> & G & Ehb & Rhb & Tsp & Lsp & B0 & B1 & B2);
  cbn [obind]; unfold fr_init.

Lemma run_initializes : on_state_machine e j1 j2 initializes = Ok true.
Proof. begin. reflexivity. Qed.

Lemma run_noOffset : on_state_machine e j1 j2 returnNetworkMillisForNoOffset = Ok true.
Proof. begin. reflexivity. Qed.

Lemma run_fakeWorks : on_state_machine e j1 j2 (fakeWorks e) = Ok true.
Proof.
  begin. unfold fakeWorks. rewrite tbind_sent, tbind_expect. cbn [is_null andb].
  edestruct (go_quiet d 0 None) as [R _]; [exact Logic.I|lia|exact G|reflexivity|due|left; reflexivity|].
  erewrite tbind_tick; [|reflexivity|exact R|reflexivity]. reflexivity.
Qed.

(** After the longest silence the node is a master with a heartbeat sent. *)
Lemma run_takeover hb0 np ne pk sp ok now :
  good (nd [0;0;0;0;0] 0 Slave hb0 0 0 0 0 0 np ne pk sp 1) -> 5000 <= hb0 <= 6999 ->
  exists H q, ptype q = HEARTBEAT /\ (forall b, H b = put (fun _ => None) 0 q b) /\
    let n := nd [own_id (d 1%nat);0;0;0;0] 1 Master 8001 60000 9001 0 0 0 np ne q sp 2 in
    good n /\ forall B (k : T node B),
    (setMillis kMaxSlaveTimeout ;~ radio_tick e ;~ expect_state Master ;~ k)
      (mkRig now (nd [0;0;0;0;0] 0 Slave hb0 0 0 0 0 0 np ne pk sp 1) (mkWorld (fun _ => None) 0 None None) ok) =
    k (mkRig 7001 n (mkWorld H 1 None (Some 0%nat)) ok).
Proof.
  intros G R.
  edestruct (go_takeover d 7001 None) as (q & Tq & Rn & G');
    [exact Logic.I|lia|exact G|reflexivity|due|reflexivity|reflexivity|reflexivity|reflexivity|reflexivity|].
  destruct (transmit_new (Own ByHeartbeat q) q (fun _ => None) 0 None eq_refl) as (H & Tr & EH).
  exists H, q. split; [exact Tq|]. split; [exact EH|].
  split; [exact G'|]. intros B k. clock. change (u32 kMaxSlaveTimeout) with 7001.
  erewrite tbind_tick; [|reflexivity|exact Rn|exact Tr].
  rewrite tbind_state. cbn [state nd role_eqb]. rewrite andb_true_r. reflexivity.
Qed.

Lemma run_becomesMaster : on_state_machine e j1 j2 (becomesMasterAfterTimeout e) = Ok true.
Proof.
  begin. unfold becomesMasterAfterTimeout. rewrite tbind_state. cbn [state nd role_eqb andb].
  edestruct (go_quiet d 0 None) as [R _]; [exact Logic.I|lia|exact G|reflexivity|due|left; reflexivity|].
  erewrite tbind_tick; [|reflexivity|exact R|reflexivity].
  rewrite tbind_state. cbn [state nd role_eqb andb].
  clock. change (u32 kMaxSlaveTimeout) with 7001.
  edestruct (go_takeover d 7001 None) as (q & Tq & Rn & G');
    [exact Logic.I|lia|exact G|reflexivity|due|reflexivity|reflexivity|reflexivity|reflexivity|reflexivity|].
  destruct (transmit_new (Own ByHeartbeat q) q (fun _ => None) 0 None eq_refl) as (H & Tr & EH).
  erewrite tbind_tick; [|reflexivity|exact Rn|exact Tr].
  rewrite last_state. cbn [state nd role_eqb andb]. eapply report_some. look. reflexivity.
Qed.

Lemma run_sendsHeartbeats : on_state_machine e j1 j2 (sendsHeartbeats e) = Ok true.
Proof.
  begin. unfold sendsHeartbeats. 
  destruct (run_takeover hb0 1 1 pk sp true 0 G Rhb) as (H & q & Tq & D & G1 & E0). rewrite E0. clear E0.
  sent_is Tq.
  clock. change (u32 (7001 + (kMasterHeartbeatInterval + 1))) with 8002.
  edestruct (go_hb d 8002 None) as (q2 & Tq2 & R2 & G2);
    [exact Logic.I|lia|exact G1|reflexivity|reflexivity|num|num|cache|].
  tick_new R2 (Own ByHeartbeat q2) q2. sent_is Tq2.
  clock. change (u32 (8002 + (kMasterHeartbeatInterval + 1))) with 9003.
  edestruct (go_hb d 9003 None) as (q3 & Tq3 & R3 & G3);
    [exact Logic.I|lia|exact G2|reflexivity|reflexivity|num|num|cache|].
  tick_new R3 (Own ByHeartbeat q3) q3. sent_is Tq3. reflexivity.
Qed.

Lemma heard_first c i s hb ce bc sa off ei np ne pk sp k p :
  existsb (fun x => x =? pid p) c = false ->
  heard (nd c i s hb ce bc sa off ei np ne pk sp k) (Some p) = Some p.
Proof. intros E. cbn [heard nd nm nm_cache]. rewrite E. reflexivity. Qed.
Lemma heard_again c i s hb ce bc sa off ei np ne pk sp k p :
  existsb (fun x => x =? pid p) c = true ->
  heard (nd c i s hb ce bc sa off ei np ne pk sp k) (Some p) = None.
Proof. intros E. cbn [heard nd nm nm_cache]. rewrite E. reflexivity. Qed.

Lemma zero_ok p : sound p -> inc_ok (Some (zero_tail p)).
Proof. intros So. apply zero_tail_sound in So. apply So. Qed.

Lemma hb_ok id t : 0 <= id < 65536 -> inc_ok (Some (heartbeat_of id t)).
Proof. intros R. rewrite <- (zero_heartbeat j id t J). apply zero_ok, hb_sound; auto. Qed.
Lemma se_ok id a b c : 0 <= id < 65536 -> inc_ok (Some (set_effect_of id a b c)).
Proof. intros R. rewrite <- (zero_set_effect j id a b c J). apply zero_ok, se_sound; auto. Qed.
Lemma claim_ok id : 0 <= id < 65536 -> inc_ok (Some (claim_of id)).
Proof. intros R. rewrite <- (zero_claim j id J). apply zero_ok, claim_sound; auto. Qed.

Lemma run_doesntBecomeMaster : on_state_machine e j1 j2 (doesntBecomeMasterIfReceivesPackets e j) = Ok true.
Proof.
  begin. unfold doesntBecomeMasterIfReceivesPackets.
  put_in ltac:(apply hb_sound; [exact J|lia]). rewrite zero_heartbeat in D by exact J.
  clock. clock. change (u32 (u32 (0 + kMaxSlaveTimeout) + 2)) with 7003.
  pose proof (Z.mod_pos_bound (Z.of_N (d 1%nat)) 2000 ltac:(lia)) as R1.
  edestruct (go_slave_hb d 7003 (Some (heartbeat_of 1 0))) as [R G1];
    [apply hb_ok; lia|lia|exact G|reflexivity|reflexivity|reflexivity|reflexivity|apply u32_id; lia|num|num|cache|].
  tick_new R (Forwarded (heartbeat_of 1 0)) (heartbeat_of 1 0).
  rewrite tbind_state. cbn [state nd role_eqb andb].
  clock. change (u32 (7003 + kMasterHeartbeatInterval)) with 8003.
  edestruct (go_quiet d 8003 (Some (heartbeat_of 1 0))) as [R2 _];
    [apply hb_ok; lia|lia|exact G1|reflexivity|due|left; reflexivity|].
  tick_none R2.
  rewrite tbind_state. cbn [state nd role_eqb andb].
  clock. change (u32 (8003 + kMasterHeartbeatInterval)) with 9003.
  edestruct (go_quiet d 9003 (Some (heartbeat_of 1 0))) as [R3 _];
    [apply hb_ok; lia|lia|exact G1|reflexivity|due|left; reflexivity|].
  tick_none R3.
  rewrite last_state. cbn [state nd role_eqb andb]. eapply report_some. look. reflexivity.
Qed.

Lemma run_respectsClaim : on_state_machine e j1 j2 (respectsClaimMaster e j) = Ok true.
Proof.
  begin. unfold respectsClaimMaster. rewrite tbind_state. cbn [state nd role_eqb andb].
  destruct (run_takeover hb0 1 1 pk sp true 0 G Rhb) as (H & q & Tq & D & G1 & E0). rewrite E0. clear E0.
  put_in ltac:(apply (claim_sound j); [exact J|cbn; lia]). cbn [pid pdata] in D0. rewrite zero_claim in D0 by exact J.
  edestruct (go_master_claim d 7001 (Some (claim_of 1))) as [R G2];
    [apply claim_ok; lia|lia|exact G1|reflexivity|apply heard_first; cbn [existsb pid claim_of]; rewrite own_not_1; reflexivity
    |reflexivity|reflexivity|num|cache|].
  tick_old R (Forwarded (claim_of 1)) (claim_of 1).
  rewrite last_state. cbn [state nd role_eqb andb]. eapply report_some. look. reflexivity.
Qed.

Lemma run_electionSlave : on_state_machine e j1 j2 (doesElectionAndBecomesSlave e j) =
  Ok (negb (Z.of_N (d 1%nat) mod 65535 =? 65533)).
Proof.
  begin. unfold doesElectionAndBecomesSlave.
  destruct (run_takeover hb0 1 1 pk sp true 0 G Rhb) as (H & q & Tq & D & G1 & E0). rewrite E0. clear E0.
  put_in ltac:(apply hb_sound; [exact J|lia]). rewrite zero_heartbeat in D0 by exact J.
  rewrite <- own_last. destruct (own_id (d 1%nat) =? 65535) eqn:Eid; cbn [negb].
  - edestruct (go_quiet d 7001 (Some (heartbeat_of 65535 0))) as [R2 _];
      [apply hb_ok; lia|lia|exact G1|apply heard_again; cbn [existsb pid heartbeat_of]; rewrite Eid; reflexivity
      |due|right; split; reflexivity|].
    tick_none R2. rewrite last_state. cbn [state nd role_eqb andb]. eapply report_some. look. reflexivity.
  - edestruct (go_master_lose d 7001 (Some (heartbeat_of 65535 0))) as [R2 G2];
      [apply hb_ok; lia|lia|exact G1|reflexivity|apply heard_first; cbn [existsb pid heartbeat_of]; rewrite Eid; reflexivity
      |reflexivity| |reflexivity|num|cache|].
    { unfold ballot, u16. cbn [pid heartbeat_of]. pose proof (Z.mod_pos_bound (1 + Z.of_N (d 2%nat) mod 65535) 65536 ltac:(lia)). lia. }
    tick_old R2 (Forwarded (heartbeat_of 65535 0)) (heartbeat_of 65535 0).
    rewrite last_state. cbn [state nd role_eqb andb]. eapply report_some. look. reflexivity.
Qed.

Lemma transmit_two t t' p p' H f r a q : 
  p = match t with Forwarded p => p | Own _ p => p end ->
  p' = match t' with Forwarded p => p | Own _ p => p end -> H a = Some q -> exists H',
  transmit [t; t'] (mkWorld H f r (Some a)) = Ok (mkWorld H' f r (Some a)) /\ forall b, H' b = put H a p' b.
Proof.
  intros E E' Ea. destruct (transmit_old t p H f r a q E Ea) as (H1 & T1 & D1).
  destruct (transmit_old t' p' H1 f r a p E') as (H2 & T2 & D2).
  { rewrite D1. unfold put. rewrite Nat.eqb_refl. reflexivity. }
  exists H2. split.
  - cbn [transmit] in *. destruct (fr_sendPacket _ _) as [w1| |] in T1 |- *; try discriminate. cbn [obind] in *.
    injection T1 as ->. exact T2.
  - intros b. rewrite D2. unfold put at 1 2. rewrite D1. unfold put. destruct (Nat.eqb b a); reflexivity.
Qed.

Lemma run_electionMaster : on_state_machine e j1 j2 (doesElectionAndBecomesMaster e j) =
  Ok (negb (Z.of_N (d 2%nat) mod 65535 =? 0)).
Proof.
  begin. unfold doesElectionAndBecomesMaster.
  destruct (run_takeover hb0 1 1 pk sp true 0 G Rhb) as (H & q & Tq & D & G1 & E0). rewrite E0. clear E0.
  put_in ltac:(apply hb_sound; [exact J|lia]). rewrite zero_heartbeat in D0 by exact J.
  pose proof (Z.mod_pos_bound (Z.of_N (d 2%nat)) 65535 ltac:(lia)) as R0.
  assert (Eb : ballot (d 2%nat) = 1 + Z.of_N (d 2%nat) mod 65535) by (apply u16_id; lia).
  destruct (Z.eqb_spec (Z.of_N (d 2%nat) mod 65535) 0) as [Z0|Z0]; cbn [negb].
  - edestruct (go_master_lose d 7001 (Some (heartbeat_of 1 0))) as [R2 G2];
      [apply hb_ok; lia|lia|exact G1|reflexivity|apply heard_first; cbn [existsb pid heartbeat_of]; rewrite own_not_1; reflexivity
      |reflexivity|cbn [pid heartbeat_of]; lia|reflexivity|num|cache|].
    tick_old R2 (Forwarded (heartbeat_of 1 0)) (heartbeat_of 1 0).
    rewrite tbind_state. cbn [state nd role_eqb andb]. rewrite tbind_sent, tbind_expect. cbn [is_null negb andb].
    erewrite tbind_load by (look; reflexivity). rewrite tbind_expect. cbn [andb].
    edestruct (last_delete (X := node)) as (H3 & E3 & _); [|rewrite E3; reflexivity]. look. reflexivity.
  - edestruct (go_master_win d 7001 (Some (heartbeat_of 1 0))) as (q2 & Tq2 & R2 & G2);
      [apply hb_ok; lia|lia|exact G1|reflexivity|apply heard_first; cbn [existsb pid heartbeat_of]; rewrite own_not_1; reflexivity
      |reflexivity|cbn [pid heartbeat_of]; lia|reflexivity|].
    match goal with
    | |- context [tbind (radio_tick _) _ (mkRig _ _ (mkWorld ?H ?f ?r (Some ?a)) _)] =>
        edestruct (transmit_two (Forwarded (heartbeat_of 1 0)) (Own ByElection q2) (heartbeat_of 1 0) q2 H f r a) as (H2 & Tr & D2);
          [reflexivity|reflexivity|look; reflexivity|]
    end.
    erewrite tbind_tick; [|eexists; split; [look; reflexivity|reflexivity]|exact R2|exact Tr].
    rewrite tbind_state. cbn [state nd role_eqb andb]. rewrite tbind_sent, tbind_expect. cbn [is_null negb andb].
    erewrite tbind_load by (look; reflexivity). rewrite tbind_expect. rewrite Tq2. cbn [Z.eqb Pos.eqb CLAIM_MASTER andb].
    edestruct (last_delete (X := node)) as (H3 & E3 & _); [|rewrite E3; reflexivity]. look. reflexivity.
Qed.

Lemma run_time : on_state_machine e j1 j2 (slaveGetsTimeFromNetwork e j) = Ok true.
Proof.
  begin. unfold slaveGetsTimeFromNetwork.
  put_in ltac:(apply hb_sound; [exact J|lia]). rewrite zero_heartbeat in D by exact J.
  edestruct (go_slave_hb d 0 (Some (heartbeat_of 1 10000))) as [R G1];
    [apply hb_ok; lia|lia|exact G|reflexivity|reflexivity|reflexivity|reflexivity|reflexivity|num|num|cache|].
  tick_new R (Forwarded (heartbeat_of 1 10000)) (heartbeat_of 1 10000).
  unfold tbind, network_millis, expect, setMillis. cbn [g_now g_sut g_radio g_ok].
  eapply eq_trans; [eapply report_some; look; reflexivity|]. reflexivity.
Qed.

Lemma run_time_negative : on_state_machine e j1 j2 (slaveGetsTimeFromNetwork_negativeOffset e j) = Ok true.
Proof.
  begin. unfold slaveGetsTimeFromNetwork_negativeOffset. clock. change (u32 10000) with 10000.
  put_in ltac:(apply hb_sound; [exact J|lia]). rewrite zero_heartbeat in D by exact J.
  edestruct (go_slave_hb d 10000 (Some (heartbeat_of 1 0))) as [R G1];
    [apply hb_ok; lia|lia|exact G|reflexivity|reflexivity|reflexivity|reflexivity|reflexivity|num|num|cache|].
  tick_new R (Forwarded (heartbeat_of 1 0)) (heartbeat_of 1 0).
  unfold tbind, network_millis, expect, setMillis. cbn [g_now g_sut g_radio g_ok].
  eapply eq_trans; [eapply report_some; look; reflexivity|]. reflexivity.
Qed.

Lemma run_effectIndex : on_state_machine e j1 j2 (slaveReturnsEffectIndexFromNetwork e j) = Ok true.
Proof.
  begin. unfold slaveReturnsEffectIndexFromNetwork.
  unfold tbind at 1, get_effect_index at 1. rewrite tbind_expect. cbn [g_sut GetEffectIndex effect_index nd].
  put_in ltac:(apply se_sound; [exact J|lia]). rewrite zero_set_effect in D by exact J.
  edestruct (go_slave_se d 0 (Some (set_effect_of 1 42 0 0))) as [R G1];
    [apply se_ok; lia|lia|exact G|reflexivity|reflexivity|reflexivity|reflexivity|vm_compute; discriminate|reflexivity|num|cache|].
  tick_new R (Forwarded (set_effect_of 1 42 0 0)) (set_effect_of 1 42 0 0).
  unfold tbind, get_effect_index, expect. cbn [g_now g_sut g_radio g_ok].
  eapply eq_trans; [eapply report_some; look; reflexivity|]. reflexivity.
Qed.

Lemma reads p a b c : ptype p = SET_EFFECT -> dlen p = 3 ->
  byte_at (pdata p) 0 = a -> byte_at (pdata p) 1 = b -> byte_at (pdata p) 2 = c ->
  readEffectIndexFromSetEffect Host p = Ok a /\ readDelayFromSetEffect Host p = Ok b /\
  readPaletteIndexFromSetEffect Host p = Ok c.
Proof.
  intros T L <- <- <-. unfold readEffectIndexFromSetEffect, readDelayFromSetEffect, readPaletteIndexFromSetEffect, check_kind, oassert.
  rewrite T, L. repeat split; reflexivity.
Qed.

Lemma run_setEffectPacket : on_state_machine e j1 j2 (slaveReturnsSetEffectPacketFromNetwork e j) = Ok true.
Proof.
  begin. unfold slaveReturnsSetEffectPacketFromNetwork.
  destruct (reads sp 1 0 0 Tsp Lsp B0 B1 B2) as (E0 & E1 & E2).
  unfold tbind at 1, load_ptr at 1. cbn [g_sut GetSetEffect set_effect_packet nd plat].
  rewrite E0, E1, E2. unfold lifting. unfold tbind at 1. rewrite tbind_expect. unfold tbind at 1. rewrite tbind_expect.
  unfold tbind at 1. rewrite tbind_expect. cbn [Z.eqb Pos.eqb andb].
  put_in ltac:(apply se_sound; [exact J|lia]). rewrite zero_set_effect in D by exact J.
  edestruct (go_slave_se d 0 (Some (set_effect_of 1 42 0 0))) as [R G1];
    [apply se_ok; lia|lia|exact G|reflexivity|reflexivity|reflexivity|reflexivity|vm_compute; discriminate|reflexivity|num|cache|].
  tick_new R (Forwarded (set_effect_of 1 42 0 0)) (set_effect_of 1 42 0 0).
  unfold tbind at 1, load_ptr at 1. cbn [g_sut GetSetEffect set_effect_packet nd].
  erewrite tbind_load by (look; reflexivity). unfold expect. cbn [g_now g_sut g_radio g_ok].
  eapply eq_trans; [eapply report_some; look; reflexivity|]. reflexivity.
Qed.

(** [expect_set_effect] when the tick sends a set-effect packet. *)
Lemma set_effect_round now n n' H f ok t p a b c :
  RadioTick e now None n = Ok (tt, n', [t]) -> p = match t with Forwarded p => p | Own _ p => p end ->
  ptype p = SET_EFFECT -> dlen p = 3 ->
  byte_at (pdata p) 0 = a -> byte_at (pdata p) 1 = b -> byte_at (pdata p) 2 = c -> exists H',
  expect_set_effect e (mkRig now n (mkWorld H f None None) ok) =
    Ok (Some tt, mkRig now n' (mkWorld H' (S f) None None) (ok && negb (a =? 0) && (b =? 0) && negb (c =? 0))).
Proof.
  intros R E T L Ba Bb Bc. unfold expect_set_effect.
  destruct (reads p a b c T L Ba Bb Bc) as (Ea & Eb & Ec).
  destruct (transmit_new t p H f None E) as (H1 & Tr & D).
  erewrite tbind_tick; [|reflexivity|exact R|exact Tr]. rewrite tbind_sent. unfold tbind at 1, asserting. cbn [is_null negb].
  erewrite tbind_load by (look; reflexivity). rewrite tbind_expect, T. cbn [plat]. rewrite Ea, Eb, Ec.
  unfold lifting. unfold tbind at 1. rewrite tbind_expect. unfold tbind at 1. rewrite tbind_expect.
  unfold tbind at 1. rewrite tbind_expect. cbn [Z.eqb Pos.eqb SET_EFFECT]. rewrite andb_true_r.
  edestruct (last_delete (X := node)) as (H3 & E3 & _); [|rewrite E3; eexists; reflexivity]. look. reflexivity.
Qed.

Lemma tbind_ok {A B} {X} (c : T X A) (k : A -> T X B) g a g' : c g = Ok (Some a, g') -> tbind c k g = k a g'.
Proof. intros E. unfold tbind. rewrite E. reflexivity. Qed.

Lemma good_numbers c i s hb ce bc sa off ei np ne pk sp k np' ne' :
  good (nd c i s hb ce bc sa off ei np ne pk sp k) -> 0 <= np' < 256 -> 0 <= ne' < 256 ->
  good (nd c i s hb ce bc sa off ei np' ne' pk sp k).
Proof. intros [] ? ?. constructor; assumption. Qed.

Lemma run_masterSends : on_state_machine e j1 j2 (masterSendsSetEffect e) =
  Ok (negb (Z.of_N (d 3%nat) mod 255 =? 0) && negb (Z.of_N (d 4%nat) mod 255 =? 0)).
Proof.
  begin. unfold masterSendsSetEffect.
  assert (G0 : good (nd [0;0;0;0;0] 0 Slave hb0 0 0 0 0 0 255 255 pk sp 1)) by (eapply good_numbers; [exact G|lia|lia]).
  erewrite (tbind_ok (set_num_effects 255)) by reflexivity.
  erewrite (tbind_ok (set_num_palettes 255)) by reflexivity.
  change (with_num_palettes (u8 255) (with_num_effects (u8 255) (nd [0;0;0;0;0] 0 Slave hb0 0 0 0 0 0 1 1 pk sp 1)))
    with (nd [0;0;0;0;0] 0 Slave hb0 0 0 0 0 0 255 255 pk sp 1).
  cbn [g_now g_sut g_radio g_ok].
  destruct (run_takeover hb0 255 255 pk sp true 0 G0 Rhb) as (H & q & Tq & D & G1 & E0). rewrite E0. clear E0.
  sent_is Tq. clock. change (u32 (kMaxSlaveTimeout + kChangeEffectInterval + 1)) with 67002.
  edestruct (go_hb d 67002 None) as (q2 & Tq2 & R2 & G2);
    [exact Logic.I|lia|exact G1|reflexivity|reflexivity|num|num|cache|].
  tick_new R2 (Own ByHeartbeat q2) q2. sent_is Tq2.
  edestruct (go_ce d 67002 None) as (q3 & sp3 & ei3 & Tq3 & Lq3 & X0 & X1 & X2 & Ts & Ls & Ds & R3 & G3);
    [exact Logic.I|lia|exact G2|reflexivity|reflexivity|reflexivity|lia|lia|num|num|cache|].
  edestruct (set_effect_round 67002) as (H5 & E5); [exact R3|reflexivity|exact Tq3|exact Lq3|exact X0|exact X1|exact X2|].
  erewrite (tbind_ok (expect_set_effect e)) by exact E5. clear E5.
  clock. change (u32 (kMaxSlaveTimeout + kChangeEffectInterval + kBroadcastEffectInterval + 1)) with 69002.
  edestruct (go_hb d 69002 None) as (q4 & Tq4 & R4 & G4);
    [exact Logic.I|lia|exact G3|reflexivity|reflexivity|num|num|cache|].
  tick_new R4 (Own ByHeartbeat q4) q4. sent_is Tq4.
  edestruct (go_bc d 69002 None) as (q5 & T5 & L5 & D5 & R5 & G5);
    [exact Logic.I|lia|exact G4|reflexivity|reflexivity|reflexivity|reflexivity|num|num|cache|].
  edestruct (set_effect_round 69002) as (H9 & E9);
    [exact R5|reflexivity|congruence|congruence|rewrite D5, Ds; exact X0|rewrite D5, Ds; exact X1|rewrite D5, Ds; exact X2|].
  rewrite E9. rewrite report_none. f_equal.
  destruct (_ =? 0); destruct (_ =? 0); reflexivity.
Qed.

Lemma run_respectsDelay : on_state_machine e j1 j2 (masterRespectsSetEffectDelay e j) =
  Ok (negb (Z.of_N (d 5%nat) mod 255 =? 0)).
Proof.
  begin. unfold masterRespectsSetEffectDelay.
  assert (G0 : good (nd [0;0;0;0;0] 0 Slave hb0 0 0 0 0 0 1 255 pk sp 1)) by (eapply good_numbers; [exact G|lia|lia]).
  erewrite (tbind_ok (set_num_effects 255)) by reflexivity.
  change (with_num_effects (u8 255) (nd [0;0;0;0;0] 0 Slave hb0 0 0 0 0 0 1 1 pk sp 1))
    with (nd [0;0;0;0;0] 0 Slave hb0 0 0 0 0 0 1 255 pk sp 1).
  cbn [g_now g_sut g_radio g_ok].
  destruct (run_takeover hb0 1 255 pk sp true 0 G0 Rhb) as (H & q & Tq & D & G1 & E0). rewrite E0. clear E0.
  sent_is Tq.
  put_in ltac:(apply se_sound; [exact J|lia]). rewrite zero_set_effect in D1 by exact J.
  set (s0 := set_effect_of 1 2 120 0) in *.
  assert (Is : inc_ok (Some s0)) by (apply se_ok; lia).
  edestruct (go_master_se d 7001 (Some s0)) as [R1 G2];
    [exact Is|lia|exact G1|reflexivity|apply heard_first; cbn [existsb pid set_effect_of s0]; rewrite own_not_1; reflexivity
    |reflexivity|reflexivity|num|num|cache|].
  tick_new R1 (Forwarded s0) s0.
  assert (K : forall a b c, existsb (fun x => x =? pid s0) [own_id (d 1%nat); pid s0; a; b; c] = true).
  { intros. cbn [existsb pid s0 set_effect_of]. rewrite own_not_1. reflexivity. }
  edestruct (go_quiet d 7001 (Some s0)) as [R2 _];
    [exact Is|lia|exact G2|apply heard_again, K|reflexivity|right; split; reflexivity|].
  tick_none R2.
  clock. change (u32 (kMaxSlaveTimeout + kChangeEffectInterval + 1)) with 67002.
  edestruct (go_hb d 67002 (Some s0)) as (q3 & Tq3 & R3 & G3);
    [exact Is|lia|exact G2|apply heard_again, K|reflexivity|num|num|cache|].
  tick_old R3 (Own ByHeartbeat q3) q3. sent_is Tq3.
  edestruct (go_bc d 67002 (Some s0)) as (q4 & Tq4 & Lq4 & Dq4 & R4 & G4);
    [exact Is|lia|exact G3|apply heard_again, K|reflexivity|reflexivity|reflexivity|num|num|cache|].
  tick_new R4 (Own ByRebroadcast q4) q4.
  rewrite tbind_sent. erewrite tbind_load by (look; reflexivity). erewrite tbind_load by (look; reflexivity).
  match goal with |- context [tbind (store (Some ?a) ?p) ?k (mkRig ?now ?n (mkWorld ?H ?f ?r ?s) ?ok)] =>
    edestruct (tbind_store k now n H f r s ok a p) as (H7 & E7 & D7); [look; reflexivity|]; rewrite E7; clear E7 end.
  erewrite tbind_load by (look; reflexivity). erewrite tbind_load by (look; reflexivity).
  rewrite Tq4, Lq4, Dq4. 
  erewrite (tbind_ok (asserting _)) by reflexivity.
  match goal with |- context [tbind (deleting (Some ?a)) ?k (mkRig ?now ?n (mkWorld ?H ?f ?r ?s) ?ok)] =>
    edestruct (tbind_delete k now n H f r s ok a) as (H8 & E8 & D8); [look; reflexivity|]; rewrite E8; clear E8 end.
  clock. change (u32 (kMaxSlaveTimeout + 120 * 1000 + 1)) with 127002.
  edestruct (go_hb d 127002 (Some s0)) as (q5 & Tq5 & R5 & G5);
    [exact Is|lia|exact G4|apply heard_again, K|reflexivity|num|num|cache|].
  tick_new R5 (Own ByHeartbeat q5) q5. sent_is Tq5.
  edestruct (go_ce d 127002 (Some s0)) as (q6 & sp6 & ei6 & Tq6 & Lq6 & X0 & X1 & X2 & Ts & Ls & Ds & R6 & G6);
    [exact Is|lia|exact G5|apply heard_again, K|reflexivity|reflexivity|lia|lia|num|num|cache|].
  tick_new R6 (Own ByChange q6) q6.
  rewrite tbind_sent. erewrite (tbind_ok (asserting _)) by reflexivity.
  erewrite tbind_load by (look; reflexivity). rewrite tbind_expect, Tq6. cbn [plat].
  destruct (reads q6 _ _ _ Tq6 Lq6 X0 X1 X2) as (Ea & _ & _). rewrite Ea.
  unfold lifting. unfold tbind at 1. rewrite tbind_expect. cbn [Z.eqb Pos.eqb SET_EFFECT andb].
  edestruct (last_delete (X := node)) as (Hz & Ez & _); [|rewrite Ez; reflexivity]. look. reflexivity.
Qed.

(** ** SetEffect *)

(** Comparing packets that agree. *)
Lemma expect_byte n i d1 d2 g x y : aget d1 i = Ok x -> aget d2 i = Ok y ->
  expect_bytes (S n) i d1 d2 g = expect_bytes n (i + 1) d1 d2 (mkRig (g_now g) (g_sut g) (g_radio g) (g_ok g && (x =? y))).
Proof. intros E1 E2. cbn [expect_bytes]. unfold lifting, tbind. rewrite E1, E2. reflexivity. Qed.

Lemma bytes_agree d1 d2 g : (3 <= length d1)%nat -> (3 <= length d2)%nat ->
  byte_at d1 0 = byte_at d2 0 -> byte_at d1 1 = byte_at d2 1 -> byte_at d1 2 = byte_at d2 2 ->
  expect_bytes 3 0 d1 d2 g = Ok (Some tt, g).
Proof.
  intros L1 L2 E0 E1 E2. destruct d1 as [|x0 [|x1 [|x2 r]]]; try (cbn in L1; lia).
  destruct d2 as [|y0 [|y1 [|y2 r']]]; try (cbn in L2; lia).
  cbn in E0, E1, E2. subst.
  rewrite (expect_byte 2 0 _ _ _ y0 y0) by reflexivity. rewrite (expect_byte 1 _ _ _ _ y1 y1) by reflexivity.
  rewrite (expect_byte 0 _ _ _ _ y2 y2) by reflexivity.
  cbn [expect_bytes]. unfold tret. cbn [g_now g_sut g_radio g_ok].
  rewrite !Z.eqb_refl, !andb_true_r. destruct g; reflexivity.
Qed.

Definition se_packet (p : packet) (delay : Z) : Prop :=
  wf_packet p /\ ptype p = SET_EFFECT /\ dlen p = 3 /\
  byte_at (pdata p) 0 = 1 /\ byte_at (pdata p) 1 = delay /\ byte_at (pdata p) 2 = 2.

Lemma se_length p delay : se_packet p delay -> (3 <= length (pdata p))%nat.
Proof. intros ((_ & _ & _ & L & _) & _). lia. Qed.

(** The state machine after [SetEffect] and the tick behind it. *)
Lemma run_sets_effect delay hb0 pk sp : (delay = 5 \/ delay = 0) ->
  good (nd [0;0;0;0;0] 0 Slave hb0 0 0 0 0 0 1 1 pk sp 1) -> 5000 <= hb0 <= 6999 ->
  exists H q, se_packet q delay /\
    let n := nd [own_id (d 1%nat);0;0;0;0] 1 Slave hb0 (if delay =? 0 then 60000 else 5000) 0 0 0 1 1 1 pk q 2 in
    good n /\
    sets_effect e j delay (mkRig 0 (nd [0;0;0;0;0] 0 Slave hb0 0 0 0 0 0 1 1 pk sp 1) (mkWorld (fun _ => None) 0 None None) true) =
    Ok (Some tt, mkRig 0 n (mkWorld H 2 None None) true).
Proof.
  intros Dl G Rhb. set (p0 := writeSetEffect 1 delay 2 (mkPacket 1 (j_type j) 0 (j_data j))).
  assert (Dr : 0 <= delay < 256) by lia.
  assert (P0 : se_packet p0 delay).
  { split; [apply writeSetEffect_wf, junk_wf; auto; lia|]. do 2 (split; [reflexivity|]).
    destruct J as (_ & L & _). unfold p0, writeSetEffect. cbn [pdata].
    destruct (j_data j) as [|x0 [|x1 [|x2 r]]]; try (cbn in L; lia).
    unfold byte_at. cbn [list_set nth]. unfold u8. repeat split; try reflexivity. lia. }
  set (n0 := nd [0;0;0;0;0] 0 Slave hb0 0 0 0 0 0 1 1 pk sp 1).
  set (q := set_id p0 (own_id (d 1%nat))).
  assert (Q : se_packet q delay).
  { destruct P0 as (W & P). split; [|exact P]. apply set_id_wf; [exact W|]. rewrite <- id_of_own. apply id_of_range. }
  assert (ES : SetEffect e 0 p0 n0 = Ok (tt, nd [own_id (d 1%nat);0;0;0;0] 1 Slave hb0 (if delay =? 0 then 60000 else 5000) 0 0 0 1 1 1 pk q 2, [Own ByApi q])).
  { rewrite SetEffect_eq by (auto; apply P0). destruct P0 as (W & T & L & B0 & B1 & B2).
    unfold readableb, kind_ok. cbn [plat]. rewrite T, L. cbn [Z.eqb Pos.eqb andb SET_EFFECT].
    unfold api_after, api_delay. rewrite B0, B1. destruct Dl; subst delay; reflexivity. }
  assert (G1 : good (nd [own_id (d 1%nat);0;0;0;0] 1 Slave hb0 (if delay =? 0 then 60000 else 5000) 0 0 0 1 1 1 pk q 2)).
  { eapply (step_good e 0 n0 (OSetEffect p0)); [exact G|apply P0|lia|].
    eapply step_inv; [exact G|apply P0|]. cbn [step]. exact ES. }
  edestruct (go_quiet d 0 None) as [R2 _]; [exact Logic.I|lia|exact G1|reflexivity|due|left; reflexivity|].
  unfold sets_effect. unfold declare. unfold tbind at 1, new_packet. cbn [g_radio g_now g_sut g_ok heap Bench.fresh sent_packet received_packet].
  erewrite tbind_load by apply upd_same. cbn [ptype dlen pdata].
  match goal with |- context [tbind (store (Some ?a) ?p) ?k (mkRig ?now ?n (mkWorld ?H ?f ?r ?s) ?ok)] =>
    edestruct (tbind_store k now n H f r s ok a p) as (H1 & E1 & D1); [apply upd_same|]; rewrite E1; clear E1 end.
  fold p0 in D1.
  assert (H10 : H1 0%nat = Some p0) by (rewrite D1; reflexivity).
  assert (ET : set_effect e 0 (mkRig 0 n0 (mkWorld H1 1 None None) true) =
    (w <- transmit [Own ByApi q] (mkWorld H1 1 None None) ;;
     Ok (Some tt, mkRig 0 (nd [own_id (d 1%nat);0;0;0;0] 1 Slave hb0 (if delay =? 0 then 60000 else 5000) 0 0 0 1 1 1 pk q 2) w true))).
  { unfold set_effect, deref. cbn [g_radio g_now g_sut g_ok heap]. rewrite H10. cbn [obind]. rewrite ES. reflexivity. }
  destruct (transmit_new (Own ByApi q) q H1 1 None eq_refl) as (H2 & Tr & D2).
  rewrite Tr in ET. cbn [obind] in ET.
  rewrite (tbind_ok _ _ _ _ _ ET). clear ET Tr.
  tick_none R2.
  pose proof P0 as (_ & _ & L0 & X0 & X1 & X2). pose proof Q as (_ & _ & Lq & Y0 & Y1 & Y2).
  assert (C1 : forall g, g_radio g = mkWorld H2 2 None (Some 1%nat) -> GetSetEffect (g_sut g) = q ->
    expectPacketsEqual ToMember (ToHeap (Some 0%nat)) g = Ok (Some tt, g)).
  { intros g Eg En. unfold expectPacketsEqual. unfold tbind at 1, load_ptr at 1. rewrite En.
    unfold tbind at 1, load_ptr, load, deref. rewrite Eg. cbn [heap].
    replace (H2 0%nat) with (Some p0) by (rewrite D2; unfold put; cbn; symmetry; exact H10).
    cbn [obind]. unfold tbind, expect. rewrite Lq, L0. cbn [Z.eqb Pos.eqb Z.to_nat Pos.to_nat Pos.iter_op Nat.add].
    rewrite andb_true_r. destruct g as [gt gn gw gk]; cbn [g_now g_sut g_radio g_ok].
    apply bytes_agree; try congruence; eapply se_length; eauto. }
  erewrite (tbind_ok (expectPacketsEqual _ _)) by (apply C1; reflexivity).
  rewrite tbind_sent.
  assert (C2 : forall g, g_radio g = mkWorld H2 2 None None ->
    expectPacketsEqual (ToHeap (Some 1%nat)) (ToHeap (Some 0%nat)) g = Ok (Some tt, g)).
  { intros g Eg. unfold expectPacketsEqual, load_ptr, load, deref. unfold tbind at 1. rewrite Eg. cbn [heap].
    replace (H2 1%nat) with (Some q) by (rewrite D2; reflexivity). cbn [obind]. unfold tbind at 1. rewrite Eg. cbn [heap].
    replace (H2 0%nat) with (Some p0) by (rewrite D2; unfold put; cbn; symmetry; exact H10).
    cbn [obind]. unfold tbind, expect. rewrite Lq, L0. cbn [Z.eqb Pos.eqb Z.to_nat Pos.to_nat Pos.iter_op Nat.add].
    rewrite andb_true_r. destruct g as [gt gn gw gk]; cbn [g_now g_sut g_radio g_ok].
    apply bytes_agree; try congruence; eapply se_length; eauto. }
  erewrite (tbind_ok (expectPacketsEqual _ _)) by (apply C2; reflexivity).
  edestruct (last_delete (X := node)) as (H3 & E3 & _); [|rewrite E3; exists H3, q; split; [exact Q|]; split; [exact G1|reflexivity]].
  look. reflexivity.
Qed.

Lemma bytes_differ d1 d2 g : (3 <= length d1)%nat -> (3 <= length d2)%nat ->
  byte_at d1 2 <> byte_at d2 2 ->
  expect_bytes 3 0 d1 d2 g = Ok (Some tt, mkRig (g_now g) (g_sut g) (g_radio g) false).
Proof.
  intros L1 L2 Ne. destruct d1 as [|x0 [|x1 [|x2 r]]]; try (cbn in L1; lia).
  destruct d2 as [|y0 [|y1 [|y2 r']]]; try (cbn in L2; lia).
  cbn in Ne.
  rewrite (expect_byte 2 0 _ _ _ x0 y0) by reflexivity. rewrite (expect_byte 1 _ _ _ _ x1 y1) by reflexivity.
  rewrite (expect_byte 0 _ _ _ _ x2 y2) by reflexivity.
  cbn [expect_bytes]. unfold tret. cbn [g_now g_sut g_radio g_ok].
  apply Z.eqb_neq in Ne. rewrite Ne, andb_false_r. reflexivity.
Qed.

(** The last tick of the two tests changes nothing GetSetEffect shows. *)
Lemma last_tick now delay hb0 pk q H : 5001 <= now < 4294967296 ->
  se_packet q delay -> 5000 <= hb0 <= 6999 ->
  good (nd [own_id (d 1%nat);0;0;0;0] 1 Slave hb0 (if delay =? 0 then 60000 else 5000) 0 0 0 1 1 1 pk q 2) ->
  exists n' w, set_effect_packet n' = q /\ (forall t b o, report (Ok (o, mkRig t n' w b)) = Ok b) /\
  forall ok B (k : T node B),
    (radio_tick e ;~ k)
      (mkRig now (nd [own_id (d 1%nat);0;0;0;0] 1 Slave hb0 (if delay =? 0 then 60000 else 5000) 0 0 0 1 1 1 pk q 2) (mkWorld H 2 None None) ok) =
    k (mkRig now n' w ok).
Proof.
  intros Rn Q Rhb G. destruct (timer_due now hb0) eqn:Td.
  - edestruct (go_takeover d now None) as (p & Tp & R & G');
      [exact Logic.I|lia|exact G|reflexivity|exact Td|reflexivity|reflexivity|reflexivity|reflexivity|reflexivity|].
    destruct (transmit_new (Own ByHeartbeat p) p H 2 None eq_refl) as (H' & Tr & D).
    eexists. eexists. split; [|split; [|intros ok B k; erewrite tbind_tick; [reflexivity|reflexivity|exact R|exact Tr]]].
    + reflexivity.
    + intros t b o. eapply report_some. look. reflexivity.
  - edestruct (go_quiet d now None) as [R G']; [exact Logic.I|lia|exact G|reflexivity|exact Td|left; reflexivity|].
    eexists. eexists. split; [|split; [|intros ok B k; erewrite tbind_tick; [reflexivity|reflexivity|exact R|reflexivity]]].
    + reflexivity.
    + intros t b o. reflexivity.
Qed.

Lemma run_setEffect_gen delay until : (delay = 5 /\ until = 5001) \/ (delay = 0 /\ until = 60001) ->
  on_state_machine e j1 j2 (sets_effect e j delay ;~ setMillis until ;~ radio_tick e ;~ expectPacketsEqual ToMember ToMember) = Ok true /\
  on_state_machine e j1 j2 (reverts e j delay until) = Ok false.
Proof.
  intros Du. split; begin.
  - destruct (run_sets_effect delay hb0 pk sp ltac:(lia) G Rhb) as (H & q & Q & G1 & ES).
    rewrite (tbind_ok _ _ _ _ _ ES). rewrite (tbind_set _ _ _ _ _ _ until) by (destruct Du as [[_ ->]|[_ ->]]; reflexivity).
    destruct (last_tick until delay hb0 pk q H ltac:(lia) Q Rhb G1) as (n' & w & En & Rep & Ek).
    rewrite Ek. unfold expectPacketsEqual. unfold tbind at 1, load_ptr at 1. unfold tbind at 1, load_ptr at 1.
    cbn [g_sut]. unfold GetSetEffect. rewrite En. rewrite tbind_expect.
    pose proof Q as (_ & _ & Lq & _). rewrite Lq. cbn [Z.eqb Pos.eqb Z.to_nat Pos.to_nat Pos.iter_op Nat.add andb].
    rewrite bytes_agree by (try reflexivity; eapply se_length; eauto). apply Rep.
  - unfold reverts. unfold tbind at 1, load_ptr at 1. cbn [g_sut GetSetEffect set_effect_packet nd].
    destruct (run_sets_effect delay hb0 pk sp ltac:(lia) G Rhb) as (H & q & Q & G1 & ES).
    rewrite (tbind_ok _ _ _ _ _ ES). rewrite (tbind_set _ _ _ _ _ _ until) by (destruct Du as [[_ ->]|[_ ->]]; reflexivity).
    destruct (last_tick until delay hb0 pk q H ltac:(lia) Q Rhb G1) as (n' & w & En & Rep & Ek).
    rewrite Ek. unfold tbind at 1, load_ptr at 1.
    cbn [g_sut]. unfold GetSetEffect. rewrite En. rewrite tbind_expect.
    pose proof Q as (_ & _ & Lq & _ & _ & X2). rewrite Lq, Lsp. cbn [Z.eqb Pos.eqb Z.to_nat Pos.to_nat Pos.iter_op Nat.add andb].
    rewrite bytes_differ; [apply Rep|eapply se_length; eauto| |rewrite X2, B2; discriminate].
    pose proof (g_se _ G) as (_ & _ & _ & L & _). cbn [set_effect_packet nd] in L. lia.
Qed.

Lemma run_setEffect_delay : on_state_machine e j1 j2 (SetEffect_Delay e j) = Ok true.
Proof. apply (run_setEffect_gen 5 5001). auto. Qed.
Lemma run_setEffect_nodelay : on_state_machine e j1 j2 (SetEffect_NoDelay e j) = Ok true.
Proof. apply (run_setEffect_gen 0 60001). auto. Qed.
End Runs.
