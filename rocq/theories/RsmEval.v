(** Proof support: evaluation of one radio tick. *)
From Coq Require Import ZArith Lia List Bool.
From Coq Require Import ZifyBool.
From Verif Require Import CInt CIntFacts Packet SpecPacket PacketFacts NetMgr NetHist SpecNet NetFacts Rsm RsmStep.
Import ListNotations.
Open Scope Z_scope.
Ltac Zify.zify_post_hook ::= Z.div_mod_to_equations.

Definition prepend {A} (o : list rtx) (r : outcome (A * node * list rtx)) : outcome (A * node * list rtx) :=
  match r with Ok (a, n, o2) => Ok (a, n, o ++ o2) | Undef => Undef | Abort => Abort end.

Lemma tick_heard e now n inc p : nm_wf (nm n) -> heard n inc = Some p ->
  RadioTick e now inc n =
  prepend [Forwarded p]
    (((match state n with Slave => handleSlavePacket e now p | Master => handleMasterPacket e now p end)
      ;; finish_tick e now) (hear p n)).
Proof.
  intros W E. unfold RadioTick. unfold mbind at 1, mget.
  rewrite (mbind_ok _ _ _ _ _ _ (eq_trans (mreceive_eq n inc W) ltac:(rewrite E; reflexivity))).
  unfold mbind at 1. change (state (hear p n)) with (state n). unfold prepend.
  destruct ((_ ;; _) (hear p n)) as [[[? ?] ?]| |]; reflexivity.
Qed.

Lemma tick_unheard e now n inc : nm_wf (nm n) -> heard n inc = None ->
  RadioTick e now inc n =
    ((match TimerExpired now n with
      | TimerNone => mret tt
      | _ => match state n with Slave => handleSlaveTimer (TimerExpired now n) | Master => handleMasterTimer e now (TimerExpired now n) end
      end) ;; finish_tick e now) n.
Proof.
  intros W E. unfold RadioTick. unfold mbind at 1, mget.
  rewrite (mbind_ok _ _ _ _ _ _ (eq_trans (mreceive_eq n inc W) ltac:(rewrite E; reflexivity))).
  transitivity (prepend (@nil rtx) (prepend (@nil rtx) (prepend (@nil rtx)
    (((match TimerExpired now n with
      | TimerNone => mret tt
      | _ => match state n with Slave => handleSlaveTimer (TimerExpired now n) | Master => handleMasterTimer e now (TimerExpired now n) end
      end) ;; finish_tick e now) n)))); [reflexivity|].
  destruct ((_ ;; _) n) as [[[? ?] ?]| |]; reflexivity.
Qed.

Lemma TimerExpired_cases now n :
  (timer_due now (t_hb n) = true /\ TimerExpired now n = TimerHeartbeat) \/
  (timer_due now (t_hb n) = false /\ timer_due now (t_ce n) = true /\ TimerExpired now n = TimerChangeEffect) \/
  (timer_due now (t_hb n) = false /\ timer_due now (t_ce n) = false /\ timer_due now (t_bc n) = true /\
     TimerExpired now n = TimerBroadcastEffect) \/
  (timer_due now (t_hb n) = false /\ timer_due now (t_ce n) = false /\ timer_due now (t_bc n) = false /\
     TimerExpired now n = TimerNone).
Proof.
  unfold TimerExpired. destruct (timer_due now (t_hb n)), (timer_due now (t_ce n)), (timer_due now (t_bc n)); auto 10.
Qed.

Ltac nodes := match goal with n : node |- _ => destruct n; cbn in *; subst end.

Lemma eval_takeover e now n : good n -> state n = Slave ->
  (handleSlaveTimer TimerHeartbeat ;; finish_tick e now) n =
  Ok (tt, with_state Master (with_next_state Master
        (with_t_hb (u32 (now + 1000)) (with_t_bc (u32 (now + 2000)) (with_t_ce (ce_takeover now n)
          (with_packet_ (hb_packet e now n)
            (with_nm (nm_push (nm n) (fresh e n)) (with_rng (S (rng n)) n))))))), [Own ByHeartbeat (hb_packet e now n)]).
Proof.
  intros G S0. cbn [handleSlaveTimer]. unfold mbind at 1, mupd.
  rewrite finish_master; [|apply G|exact S0|reflexivity]. reflexivity.
Qed.

Lemma eval_hb e now n : good n -> state n = Master ->
  (handleMasterTimer e now TimerHeartbeat ;; finish_tick e now) n =
  Ok (tt, with_t_hb (u32 (now + 1000))
          (with_packet_ (hb_packet e now n)
            (with_nm (nm_push (nm n) (fresh e n)) (with_rng (S (rng n)) n))), [Own ByHeartbeat (hb_packet e now n)]).
Proof.
  intros G S0. cbn [handleMasterTimer]. unfold mbind at 1.
  rewrite (mbind_ok _ _ _ _ _ _ (SendHeartbeat_eq e now n (g_nm _ G))).
  rewrite SetTimer_hb. rewrite finish_same; [reflexivity|]. apply (g_next _ G).
Qed.

Lemma eval_bc e now n : good n -> state n = Master ->
  (handleMasterTimer e now TimerBroadcastEffect ;; finish_tick e now) n =
  Ok (tt, with_t_bc (u32 (now + 2000))
         (with_set_effect_packet (set_id (set_effect_packet n) (fresh e n))
            (with_nm (nm_push (nm n) (fresh e n)) (with_rng (S (rng n)) n))),
      [Own ByRebroadcast (set_id (set_effect_packet n) (fresh e n))]).
Proof.
  intros G S0. cbn [handleMasterTimer]. unfold mbind at 1 2, mget.
  rewrite (mbind_ok _ _ _ _ _ _ (msend_eq e ByRebroadcast (set_effect_packet n) n (g_nm _ G))).
  unfold mbind at 1, mupd. rewrite SetTimer_bc. rewrite finish_same; [reflexivity|]. apply (g_next _ G).
Qed.

Lemma picked_ok pl hi raw i : 0 <= hi < 256 -> random2 pl 0 hi raw = Ok i ->
  i = picked pl hi raw /\ (pl = Arduino \/ hi <> 0).
Proof.
  intros R E. unfold picked. rewrite E. split; [reflexivity|]. destruct pl; [|auto].
  right. intros ->. cbn in E. discriminate.
Qed.

Lemma mdraw_eq e n : mdraw e n = Ok (draw e (rng n), with_rng (S (rng n)) n, []).
Proof. reflexivity. Qed.

Lemma picked_can pl hi raw : (pl = Arduino \/ hi <> 0) -> random2 pl 0 hi raw = Ok (picked pl hi raw).
Proof.
  intros H. unfold picked, random2. destruct pl; [|reflexivity].
  destruct (Z.eqb_spec hi 0); [destruct H; congruence|reflexivity].
Qed.

Lemma eval_ce e now n : good n -> state n = Master -> can_pick e n ->
  (handleMasterTimer e now TimerChangeEffect ;; finish_tick e now) n =
  Ok (tt, with_t_ce (u32 (now + 60000))
         (with_effect_index (i8 (pick_effect e n))
           (with_set_effect_packet (pick_packet e n)
             (with_packet_ (set_id (pick_packet e n) (pick_id e n))
               (with_nm (nm_push (nm n) (pick_id e n)) (with_rng (S (S (S (rng n)))) n))))),
      [Own ByChange (set_id (pick_packet e n) (pick_id e n))]).
Proof.
  intros G S0 C. cbn [handleMasterTimer].
  assert (C1 : plat e = Arduino \/ num_effects n <> 0) by (destruct C; tauto).
  assert (C2 : plat e = Arduino \/ num_palettes n <> 0) by (destruct C; tauto).
  unfold mrandom, mget, mupd, mlift, mdraw. unfold mbind at 1 2 3 4 5.
  rewrite (picked_can _ _ _ C1). 
  unfold mbind at 1 2 3 4. cbn [num_palettes with_effect_index with_rng rng].
  rewrite (picked_can _ _ _ C2).
  unfold mbind at 1 2 3 4 5 6.
  rewrite msend_eq by (cbn; apply G). rewrite SetTimer_ce.
  rewrite finish_same by (cbn; apply G). reflexivity.
Qed.

Lemma eval_ce_undef e now n : good n -> state n = Master -> ~ can_pick e n ->
  (handleMasterTimer e now TimerChangeEffect ;; finish_tick e now) n = Undef.
Proof.
  intros G S0 C. cbn [handleMasterTimer]. unfold can_pick in C.
  unfold mrandom, mget, mupd, mlift, mdraw. unfold mbind at 1 2 3 4 5.
  destruct (random2 (plat e) 0 (num_effects n) _) eqn:E1; [|reflexivity|].
  - apply picked_ok in E1 as [-> P1]; [|apply G].
    unfold mbind at 1 2 3 4. cbn [num_palettes with_effect_index with_rng rng].
    destruct (random2 (plat e) 0 (num_palettes n) _) eqn:E2; [|reflexivity|].
    + apply picked_ok in E2 as [-> P2]; [|apply G]. tauto.
    + destruct (plat e); cbn in E2; [destruct (num_palettes n =? 0)|]; discriminate.
  - destruct (plat e); cbn in E1; [destruct (num_effects n =? 0)|]; discriminate.
Qed.

Lemma eval_slave_hb e now n p : good n -> wf_packet p -> state n = Slave -> ptype p = HEARTBEAT ->
  (handleSlavePacket e now p ;; finish_tick e now) (hear p n) =
  if match plat e with Arduino => true | Host => kind_ok HEARTBEAT 4 p end
  then Ok (tt, with_t_hb (u32 (now + silence e n))
        (with_millis_offset (i32 (u32 (big_endian (payload 4 p) - u32 (i32 now))))
          (with_rng (S (rng n)) (hear p n))), [])
  else Abort.
Proof.
  intros G W S0 T. unfold handleSlavePacket. rewrite T. cbn [Z.eqb].
  rewrite read_heartbeat_val by exact W. change HEARTBEAT with 0. cbn [Z.eqb].
  assert (X : forall t, ((_ <-- mlift (Ok t);
     mupd (with_millis_offset (i32 (u32 (t - u32 (i32 now)))));;
     r <-- mrand e; SetTimer now TimerHeartbeat (u32 (kSlaveNoPacketTimeout + r mod kSlaveNoPacketRandom)));;
     finish_tick e now) (hear p n) = Ok (tt, with_t_hb (u32 (now + silence e n))
        (with_millis_offset (i32 (u32 (t - u32 (i32 now)))) (with_rng (S (rng n)) (hear p n))), [])).
  { intros t. unfold mlift, mupd, mrand, mdraw, mret, mbind at 1 2 3 4 5.
    rewrite u32_silence, SetTimer_hb, timer_of_silence, finish_same by (cbn; apply G). reflexivity. }
  destruct (plat e).
  - destruct (kind_ok 0 4 p); [apply (X (big_endian (payload 4 p)))|reflexivity].
  - apply (X (big_endian (payload 4 p))).
Qed.

Lemma eval_slave_claim e now n p : good n -> state n = Slave -> ptype p = CLAIM_MASTER ->
  (handleSlavePacket e now p ;; finish_tick e now) (hear p n) =
  Ok (tt, with_t_hb (u32 (now + silence e n)) (with_rng (S (rng n)) (hear p n)), []).
Proof.
  intros G S0 T. unfold handleSlavePacket. rewrite T. cbn [Z.eqb CLAIM_MASTER HEARTBEAT Pos.eqb].
  unfold mlift, mupd, mrand, mdraw, mret, mbind.
  rewrite u32_silence, SetTimer_hb, timer_of_silence, finish_same by (cbn; apply G). reflexivity.
Qed.

Definition readableb (e : env) (ty len : Z) (p : packet) : bool :=
  match plat e with Arduino => true | Host => kind_ok ty len p end.

Lemma readableb_iff e ty len p : readableb e ty len p = true <-> readable e ty len p.
Proof.
  unfold readableb, readable, kind_ok. destruct (plat e).
  - rewrite andb_true_iff, !Z.eqb_eq. intuition discriminate.
  - tauto.
Qed.

Lemma read_eval e ty len p (v : Z) :
  (_ <- check_kind (plat e) ty len p ;; Ok v) = if readableb e ty len p then Ok v else Abort.
Proof. rewrite read_guarded. unfold readableb. destruct (plat e); reflexivity. Qed.

Lemma eval_slave_se e now n p : good n -> state n = Slave -> ptype p = SET_EFFECT ->
  (handleSlavePacket e now p ;; finish_tick e now) (hear p n) =
  if readableb e SET_EFFECT 3 p &&
     (negb (byte_at (pdata p) 0 =? effect_index n) || readableb e SET_EFFECT 3 (set_effect_packet n))
  then Ok (tt, with_seen_at (if changed n p then now else seen_at n)
        (with_set_effect_packet p (with_effect_index (i8 (byte_at (pdata p) 0)) (hear p n))), [])
  else Abort.
Proof.
  intros G S0 T. unfold handleSlavePacket. rewrite T. cbn [Z.eqb SET_EFFECT CLAIM_MASTER HEARTBEAT Pos.eqb].
  unfold readEffectIndexFromSetEffect, readPaletteIndexFromSetEffect. rewrite !read_eval.
  destruct (readableb e SET_EFFECT 3 p) eqn:R; [|reflexivity].
  unfold mlift at 1 2. unfold mbind at 1 2 3 4 5 6, mget. cbn [andb].
  change (effect_index (hear p n)) with (effect_index n).
  change (set_effect_packet (hear p n)) with (set_effect_packet n).
  destruct (byte_at (pdata p) 0 =? effect_index n) eqn:E1; cbn [negb orb]; unfold changed; rewrite ?E1.
  - rewrite !read_eval.
    destruct (readableb e SET_EFFECT 3 (set_effect_packet n)) eqn:R2; [|reflexivity].
    unfold mlift, mupd, mret. unfold mbind. cbn [negb orb].
    destruct (byte_at (pdata p) 2 =? byte_at (pdata (set_effect_packet n)) 2) eqn:E2; cbn [negb];
    rewrite finish_same by (cbn; apply G); reflexivity.
  - unfold mbind, mret, mupd. cbn [negb orb].
    rewrite finish_same by (cbn; apply G); reflexivity.
Qed.

Lemma eval_slave_sc e now n p : good n -> state n = Slave -> ptype p = SET_CONTROL ->
  (handleSlavePacket e now p ;; finish_tick e now) (hear p n) =
  Ok (tt, with_seen_at now (with_set_effect_packet p (hear p n)), []).
Proof.
  intros G S0 T. unfold handleSlavePacket. rewrite T. cbn [Z.eqb SET_EFFECT CLAIM_MASTER HEARTBEAT SET_CONTROL Pos.eqb].
  unfold mbind, mupd. rewrite finish_same by (cbn; apply G). reflexivity.
Qed.

Lemma eval_unknown e now n p : good n ->
  ptype p <> HEARTBEAT -> ptype p <> CLAIM_MASTER -> ptype p <> SET_EFFECT -> ptype p <> SET_CONTROL ->
  ((match state n with Slave => handleSlavePacket e now p | Master => handleMasterPacket e now p end)
      ;; finish_tick e now) (hear p n) = Ok (tt, hear p n, []).
Proof.
  intros G H0 H1 H2 H3. apply Z.eqb_neq in H0, H1, H2, H3.
  destruct (state n); unfold handleSlavePacket, handleMasterPacket; rewrite H0, H1, H2, H3;
  unfold mbind, mret; rewrite finish_same by (cbn; apply G); reflexivity.
Qed.

Lemma random2_election pl raw :
  exists i, random2 pl 1 65535 raw = Ok i /\ match pl with Arduino => 1 <= i <= 65534 | Host => 1 <= i <= 65535 end.
Proof.
  destruct pl; cbn; eexists; split; try reflexivity.
  - pose proof (Z.mod_pos_bound (Z.of_N raw) 65535 ltac:(lia)). rewrite u16_id; lia.
  - pose proof (Z.mod_pos_bound (Z.of_N raw) 65534 ltac:(lia)). lia.
Qed.

Lemma election_number_range e n :
  match plat e with Arduino => 1 <= election_number e n <= 65534 | Host => 1 <= election_number e n <= 65535 end.
Proof.
  unfold election_number. destruct (random2_election (plat e) (draw e (rng n))) as (i & E & R). rewrite E.
  destruct (plat e); lia.
Qed.

Lemma eval_master_hb e now n p : good n -> state n = Master -> ptype p = HEARTBEAT ->
  (handleMasterPacket e now p ;; finish_tick e now) (hear p n) =
  if pid p <? election_number e n
  then Ok (tt, with_packet_ (claim_packet e n)
        (with_nm (nm_push (nm_push (nm n) (pid p)) (pid (claim_packet e n)))
          (with_rng (S (S (rng n))) n)), [Own ByElection (claim_packet e n)])
  else Ok (tt, with_state Slave (with_next_state Slave
        (with_t_hb (u32 (now + (5000 + Z.of_N (draw e (S (rng n))) mod 2000)))
          (with_rng (S (S (rng n))) (hear p n)))), []).
Proof.
  intros G S0 T. unfold handleMasterPacket. rewrite T. cbn [Z.eqb HEARTBEAT].
  unfold PerformMasterElection, mrandom.
  unfold mbind at 1 2 3. rewrite mdraw_eq. unfold mlift. cbn [hear with_nm rng].
  pose proof (election_number_range e n) as R. unfold election_number in *.
  destruct (random2_election (plat e) (draw e (rng n))) as (i & E & R2). rewrite E in *.
  assert (U : u16 i = i) by (apply u16_id; destruct (plat e); lia). rewrite U.
  destruct (pid p <? i) eqn:L.
  - unfold mbind at 1 2, mget. rewrite msend_eq by (cbn; apply nm_push_wf, G).
    unfold mupd. rewrite finish_same by (cbn; apply G). reflexivity.
  - unfold mupd. rewrite finish_slave; [|exact S0|reflexivity]. reflexivity.
Qed.

Lemma eval_master_claim e now n p : good n -> state n = Master -> ptype p = CLAIM_MASTER ->
  (handleMasterPacket e now p ;; finish_tick e now) (hear p n) =
  Ok (tt, with_state Slave (with_next_state Slave
        (with_t_hb (u32 (now + silence e n))
          (with_rng (S (rng n)) (hear p n)))), []).
Proof.
  intros G S0 T. unfold handleMasterPacket. rewrite T. cbn [Z.eqb CLAIM_MASTER HEARTBEAT Pos.eqb].
  unfold mbind at 1, mupd. rewrite finish_slave; [|exact S0|reflexivity]. reflexivity.
Qed.

Lemma byte_range d i : Forall is_byte d -> 0 <= byte_at d i < 256.
Proof. intros H. apply (Forall_nth_byte d i H). Qed.

Lemma wf_byte p i : wf_packet p -> 0 <= byte_at (pdata p) i < 256.
Proof. intros W. apply byte_range, W. Qed.

Lemma u32_delay b : 0 <= b < 256 -> u32 (b * 1000) = b * 1000.
Proof. intros. apply u32_id. lia. Qed.

Lemma eval_master_se e now n p : good n -> wf_packet p -> state n = Master -> ptype p = SET_EFFECT ->
  (handleMasterPacket e now p ;; finish_tick e now) (hear p n) =
  if readableb e SET_EFFECT 3 p
  then Ok (tt, with_t_ce (timer_of now (byte_at (pdata p) 1 * 1000))
        (with_set_effect_packet p (with_effect_index (i8 (byte_at (pdata p) 0)) (hear p n))), [])
  else Abort.
Proof.
  intros G W S0 T. unfold handleMasterPacket. rewrite T. cbn [Z.eqb SET_EFFECT CLAIM_MASTER HEARTBEAT Pos.eqb].
  unfold readEffectIndexFromSetEffect, readDelayFromSetEffect. rewrite !read_eval.
  destruct (readableb e SET_EFFECT 3 p) eqn:R; [|reflexivity].
  unfold mlift, mupd. unfold mbind. rewrite SetTimer_ce, u32_delay by (apply wf_byte; auto).
  rewrite finish_same by (cbn; apply G). reflexivity.
Qed.

Lemma eval_master_sc e now n p : good n -> wf_packet p -> state n = Master -> ptype p = SET_CONTROL ->
  (handleMasterPacket e now p ;; finish_tick e now) (hear p n) =
  if readableb e SET_CONTROL 4 p
  then Ok (tt, with_t_ce (timer_of now (byte_at (pdata p) 0 * 1000))
        (with_set_effect_packet p (hear p n)), [])
  else Abort.
Proof.
  intros G W S0 T. unfold handleMasterPacket. rewrite T. cbn [Z.eqb SET_EFFECT CLAIM_MASTER HEARTBEAT SET_CONTROL Pos.eqb].
  unfold readDelayFromSetControl. rewrite !read_eval.
  destruct (readableb e SET_CONTROL 4 p) eqn:R; [|reflexivity].
  unfold mlift, mupd. unfold mbind. rewrite SetTimer_ce, u32_delay by (apply wf_byte; auto).
  rewrite finish_same by (cbn; apply G). reflexivity.
Qed.

(** The packet delivered is a value of type RadioPacket. *)
Definition inc_ok (inc : option packet) : Prop := match inc with Some p => wf_packet p | None => True end.

Lemma heard_some n inc p : heard n inc = Some p -> inc = Some p.
Proof. unfold heard. destruct inc as [q|]; [|discriminate]. destruct (existsb _ _); congruence. Qed.

(** When a tick fails, and how. *)
Definition tick_aborts (e : env) (n : node) (inc : option packet) : Prop :=
  exists p, heard n inc = Some p /\ plat e = Host /\
    ((ptype p = HEARTBEAT /\ state n = Slave /\ dlen p <> 4) \/
     (ptype p = SET_EFFECT /\ dlen p <> 3) \/
     (ptype p = SET_EFFECT /\ state n = Slave /\ dlen p = 3 /\ byte_at (pdata p) 0 = effect_index n /\
        ~ (ptype (set_effect_packet n) = SET_EFFECT /\ dlen (set_effect_packet n) = 3)) \/
     (ptype p = SET_CONTROL /\ state n = Master /\ dlen p <> 4)).

Definition tick_undef (e : env) (now : Z) (n : node) (inc : option packet) : Prop :=
  heard n inc = None /\ state n = Master /\ timer_due now (t_hb n) = false /\
  timer_due now (t_ce n) = true /\ ~ can_pick e n.

Lemma not_readable e ty len p : readableb e ty len p = false -> ptype p = ty -> plat e = Host /\ dlen p <> len.
Proof.
  unfold readableb, kind_ok. destruct (plat e); [|discriminate]. intros H T.
  rewrite T, Z.eqb_refl in H. cbn in H. split; [reflexivity|lia].
Qed.

Lemma can_pick_dec e n : can_pick e n \/ ~ can_pick e n.
Proof.
  unfold can_pick. destruct (plat e); [|auto].
  destruct (Z.eq_dec (num_effects n) 0), (Z.eq_dec (num_palettes n) 0); intuition congruence.
Qed.

Theorem tick_total e now n inc : good n -> inc_ok inc ->
  (exists n' out, RadioTick e now inc n = Ok (tt, n', out) /\ tick e now n inc out n') \/
  (RadioTick e now inc n = Abort /\ tick_aborts e n inc) \/
  (RadioTick e now inc n = Undef /\ tick_undef e now n inc).
Proof.
  intros G I. destruct (heard n inc) as [p|] eqn:H.
  - pose proof (heard_some _ _ _ H) as ->. cbn in I. rename I into W.
    rewrite (tick_heard e now n _ p (g_nm _ G) H).
    destruct (Z.eq_dec (ptype p) HEARTBEAT) as [T|N0].
    { destruct (state n) eqn:S0.
      - rewrite eval_slave_hb by auto. fold (readableb e HEARTBEAT 4 p).
        destruct (readableb e HEARTBEAT 4 p) eqn:R.
        + left. do 2 eexists. split; [reflexivity|]. cbn. eapply T_slave_hb; auto. now apply readableb_iff.
        + right. left. split; [reflexivity|]. destruct (not_readable _ _ _ _ R T). exists p. auto 10.
      - rewrite eval_master_hb by auto. left.
        destruct (pid p <? election_number e n) eqn:L; do 2 eexists; (split; [reflexivity|]); cbn.
        + eapply T_master_win; auto. lia.
        + eapply T_master_lose; auto. lia. }
    destruct (Z.eq_dec (ptype p) CLAIM_MASTER) as [T|N1].
    { destruct (state n) eqn:S0.
      - rewrite eval_slave_claim by auto. left. do 2 eexists; split; [reflexivity|]. cbn. eapply T_slave_claim; auto.
      - rewrite eval_master_claim by auto. left. do 2 eexists; split; [reflexivity|]. cbn. eapply T_master_claim; auto. }
    destruct (Z.eq_dec (ptype p) SET_EFFECT) as [T|N2].
    { destruct (state n) eqn:S0.
      - rewrite eval_slave_se by auto.
        destruct (readableb e SET_EFFECT 3 p) eqn:R; cbn [andb].
        + destruct (byte_at (pdata p) 0 =? effect_index n) eqn:E1; cbn [negb orb].
          * destruct (readableb e SET_EFFECT 3 (set_effect_packet n)) eqn:R2.
            -- left. do 2 eexists; split; [reflexivity|]. eapply T_slave_se; auto; intros; now apply readableb_iff.
            -- right; left. split; [reflexivity|]. exists p.
               assert (plat e = Host) as P. { unfold readableb in R2. destruct (plat e); congruence. }
               unfold readableb in R, R2. rewrite P in R, R2. unfold kind_ok in R, R2.
               split; [exact H|]. split; [exact P|]. right; right; left. repeat split; auto; try lia.
          * left. do 2 eexists; split; [reflexivity|]. eapply T_slave_se; auto; [now apply readableb_iff|lia].
        + right. left. split; [reflexivity|]. destruct (not_readable _ _ _ _ R T). exists p. auto 10.
      - rewrite eval_master_se by auto.
        destruct (readableb e SET_EFFECT 3 p) eqn:R.
        + left. do 2 eexists. split; [reflexivity|]. cbn. eapply T_master_se; auto. now apply readableb_iff.
        + right. left. split; [reflexivity|]. destruct (not_readable _ _ _ _ R T). exists p. auto 10. }
    destruct (Z.eq_dec (ptype p) SET_CONTROL) as [T|N3].
    { destruct (state n) eqn:S0.
      - rewrite eval_slave_sc by auto. left. do 2 eexists; split; [reflexivity|]. cbn. eapply T_slave_sc; auto.
      - rewrite eval_master_sc by auto.
        destruct (readableb e SET_CONTROL 4 p) eqn:R.
        + left. do 2 eexists. split; [reflexivity|]. cbn. eapply T_master_sc; auto. now apply readableb_iff.
        + right. left. split; [reflexivity|]. destruct (not_readable _ _ _ _ R T). exists p. auto 10. }
    rewrite eval_unknown by auto. left. do 2 eexists; split; [reflexivity|]. eapply T_unknown; auto.
  - rewrite (tick_unheard e now n inc (g_nm _ G) H).
    destruct (TimerExpired_cases now n) as [(A&E)|[(A&B&E)|[(A&B&C&E)|(A&B&C&E)]]]; rewrite E.
    + destruct (state n) eqn:S0.
      * rewrite eval_takeover by auto. left; do 2 eexists; split; [reflexivity|]. apply T_takeover; auto.
      * rewrite eval_hb by auto. left; do 2 eexists; split; [reflexivity|]. apply T_hb; auto.
    + destruct (state n) eqn:S0.
      * left; do 2 eexists; split; [|apply T_quiet; auto].
        cbn [handleSlaveTimer]. unfold mbind, mret. rewrite finish_same by apply G. reflexivity.
      * destruct (can_pick_dec e n) as [C|C].
        -- rewrite eval_ce by auto. left; do 2 eexists; split; [reflexivity|]. apply T_ce; auto.
        -- rewrite eval_ce_undef by auto. right; right. split; [reflexivity|]. repeat split; auto.
    + destruct (state n) eqn:S0.
      * left; do 2 eexists; split; [|apply T_quiet; auto].
        cbn [handleSlaveTimer]. unfold mbind, mret. rewrite finish_same by apply G. reflexivity.
      * rewrite eval_bc by auto. left; do 2 eexists; split; [reflexivity|]. apply T_bc; auto.
    + left; do 2 eexists; split; [|apply T_quiet; auto].
      cbn [handleSlaveTimer]. unfold mbind, mret. rewrite finish_same by apply G. reflexivity.
Qed.

Lemma tick_inv e now n inc u n' out : good n -> inc_ok inc ->
  RadioTick e now inc n = Ok (u, n', out) -> tick e now n inc out n'.
Proof.
  intros G I E. destruct (tick_total e now n inc G I) as [(n1 & o1 & E1 & T)|[(E1 & _)|(E1 & _)]]; try congruence.
Qed.
