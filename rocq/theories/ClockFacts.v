(** Proof support: one radio tick with a moving clock (RsmClock.v). *)
From Coq Require Import ZArith Lia List Bool.
From Coq Require Import ZifyBool.
From Verif Require Import CInt CIntFacts Packet SpecPacket PacketFacts NetMgr NetHist SpecNet NetFacts Rsm RsmStep RsmEval RsmHist SpecRsm RsmFacts RsmTime BeginMasterRace RsmClock.
Import ListNotations.
Open Scope Z_scope.
Ltac Zify.zify_post_hook ::= Z.div_mod_to_equations.

(** The effect-change timer set by beginMaster. *)
Definition ce_clock (a b d : Z) (n : node) : Z :=
  if 60000 <? u32 (a - seen_at n) then u32 (b + 1)
  else timer_of d (u32 (60000 - u32 (b - seen_at n))).

Inductive ctick (e : env) (m : nat -> Z) (n : node) : option packet -> list rtx -> node -> Prop :=
| K_quiet inc : heard n inc = None ->
    (timer_due (m 0%nat) (t_hb n) = false /\
     (state n = Slave \/ (timer_due (m 1%nat) (t_ce n) = false /\ timer_due (m 2%nat) (t_bc n) = false))) ->
    ctick e m n inc [] n
| K_takeover inc : heard n inc = None -> state n = Slave -> timer_due (m 0%nat) (t_hb n) = true ->
    ctick e m n inc [Own ByHeartbeat (hb_packet e (m 5%nat) n)]
      (with_state Master (with_next_state Master
        (with_t_hb (u32 (m 6%nat + 1000)) (with_t_bc (u32 (m 7%nat + 2000)) (with_t_ce (ce_clock (m 8%nat) (m 9%nat) (m 10%nat) n)
          (with_packet_ (hb_packet e (m 5%nat) n)
            (with_nm (nm_push (nm n) (fresh e n)) (with_rng (S (rng n)) n))))))))
| K_hb inc : heard n inc = None -> state n = Master -> timer_due (m 0%nat) (t_hb n) = true ->
    ctick e m n inc [Own ByHeartbeat (hb_packet e (m 3%nat) n)]
      (with_t_hb (u32 (m 4%nat + 1000))
          (with_packet_ (hb_packet e (m 3%nat) n)
            (with_nm (nm_push (nm n) (fresh e n)) (with_rng (S (rng n)) n))))
| K_ce inc : heard n inc = None -> state n = Master ->
    timer_due (m 0%nat) (t_hb n) = false -> timer_due (m 1%nat) (t_ce n) = true -> can_pick e n ->
    ctick e m n inc [Own ByChange (set_id (pick_packet e n) (pick_id e n))]
      (with_t_ce (u32 ((m 3%nat) + 60000))
         (with_effect_index (i8 (pick_effect e n))
           (with_set_effect_packet (pick_packet e n)
             (with_packet_ (set_id (pick_packet e n) (pick_id e n))
               (with_nm (nm_push (nm n) (pick_id e n)) (with_rng (S (S (S (rng n)))) n))))))
| K_bc inc : heard n inc = None -> state n = Master ->
    timer_due (m 0%nat) (t_hb n) = false -> timer_due (m 1%nat) (t_ce n) = false -> timer_due (m 2%nat) (t_bc n) = true ->
    ctick e m n inc [Own ByRebroadcast (set_id (set_effect_packet n) (fresh e n))]
      (with_t_bc (u32 ((m 3%nat) + 2000))
         (with_set_effect_packet (set_id (set_effect_packet n) (fresh e n))
            (with_nm (nm_push (nm n) (fresh e n)) (with_rng (S (rng n)) n))))
| K_unknown inc p : heard n inc = Some p ->
    ptype p <> HEARTBEAT -> ptype p <> CLAIM_MASTER -> ptype p <> SET_EFFECT -> ptype p <> SET_CONTROL ->
    ctick e m n inc [Forwarded p] (hear p n)
| K_slave_hb inc p : heard n inc = Some p -> ptype p = HEARTBEAT -> state n = Slave ->
    readable e HEARTBEAT 4 p ->
    ctick e m n inc [Forwarded p]
      (with_t_hb (u32 (m 4%nat + silence e n))
        (with_millis_offset (i32 (u32 (big_endian (payload 4 p) - u32 (i32 (m 3%nat)))))
          (with_rng (S (rng n)) (hear p n))))
| K_slave_claim inc p : heard n inc = Some p -> ptype p = CLAIM_MASTER -> state n = Slave ->
    ctick e m n inc [Forwarded p]
      (with_t_hb (u32 ((m 3%nat) + silence e n)) (with_rng (S (rng n)) (hear p n)))
| K_slave_se inc p : heard n inc = Some p -> ptype p = SET_EFFECT -> state n = Slave ->
    readable e SET_EFFECT 3 p ->
    (byte_at (pdata p) 0 = effect_index n -> readable e SET_EFFECT 3 (set_effect_packet n)) ->
    ctick e m n inc [Forwarded p]
      (with_seen_at (if changed n p then (m 3%nat) else seen_at n)
        (with_set_effect_packet p (with_effect_index (i8 (byte_at (pdata p) 0)) (hear p n))))
| K_slave_sc inc p : heard n inc = Some p -> ptype p = SET_CONTROL -> state n = Slave ->
    ctick e m n inc [Forwarded p]
      (with_seen_at (m 3%nat) (with_set_effect_packet p (hear p n)))
| K_master_win inc p : heard n inc = Some p -> ptype p = HEARTBEAT -> state n = Master ->
    pid p < election_number e n ->
    ctick e m n inc [Forwarded p; Own ByElection (claim_packet e n)]
      (with_packet_ (claim_packet e n)
        (with_nm (nm_push (nm_push (nm n) (pid p)) (pid (claim_packet e n)))
          (with_rng (S (S (rng n))) n)))
| K_master_lose inc p : heard n inc = Some p -> ptype p = HEARTBEAT -> state n = Master ->
    election_number e n <= pid p ->
    ctick e m n inc [Forwarded p]
      (with_state Slave (with_next_state Slave
        (with_t_hb (u32 (m 5%nat + (5000 + Z.of_N (draw e (S (rng n))) mod 2000)))
          (with_rng (S (S (rng n))) (hear p n)))))
| K_master_claim inc p : heard n inc = Some p -> ptype p = CLAIM_MASTER -> state n = Master ->
    ctick e m n inc [Forwarded p]
      (with_state Slave (with_next_state Slave
        (with_t_hb (u32 (m 5%nat + silence e n))
          (with_rng (S (rng n)) (hear p n)))))
| K_master_se inc p : heard n inc = Some p -> ptype p = SET_EFFECT -> state n = Master ->
    readable e SET_EFFECT 3 p ->
    ctick e m n inc [Forwarded p]
      (with_t_ce (timer_of (m 3%nat) (byte_at (pdata p) 1 * 1000))
        (with_set_effect_packet p (with_effect_index (i8 (byte_at (pdata p) 0)) (hear p n))))
| K_master_sc inc p : heard n inc = Some p -> ptype p = SET_CONTROL -> state n = Master ->
    readable e SET_CONTROL 4 p ->
    ctick e m n inc [Forwarded p]
      (with_t_ce (timer_of (m 3%nat) (byte_at (pdata p) 0 * 1000))
        (with_set_effect_packet p (hear p n))).


(** Commands that leave the role alone. *)
Definition keeps {A} (h : M A) : Prop :=
  forall n u n' o, h n = Ok (u, n', o) -> state n' = state n /\ next_state n' = next_state n.
Lemma keeps_bind {A B} (c : M A) (f : A -> M B) : keeps c -> (forall a, keeps (f a)) -> keeps (mbind c f).
Proof.
  intros Kc Kf n u n' o E. unfold mbind in E. destruct (c n) as [[[a n1] o1]| |] eqn:E1; try discriminate.
  destruct (f a n1) as [[[b n2] o2]| |] eqn:E2; try discriminate. injection E as <- <- <-.
  destruct (Kc _ _ _ _ E1) as [A1 A2]. destruct (Kf _ _ _ _ _ E2) as [B1 B2]. split; congruence.
Qed.
Lemma keeps_ret {A} (a : A) : keeps (mret a).
Proof. intros n u n' o [= <- <- <-]. auto. Qed.
Lemma keeps_get {A} (f : node -> A) : keeps (mget f).
Proof. intros n u n' o [= <- <- <-]. auto. Qed.
Lemma keeps_lift {A} (x : outcome A) : keeps (mlift x).
Proof. intros n u n' o. unfold mlift. destruct x; try discriminate. intros [= <- <- <-]. auto. Qed.
Lemma keeps_upd f : (forall n, state (f n) = state n /\ next_state (f n) = next_state n) -> keeps (mupd f).
Proof. intros H n u n' o [= <- <- <-]. apply H. Qed.
Lemma keeps_draw e : keeps (mdraw e).
Proof. intros n u n' o [= <- <- <-]. auto. Qed.
Lemma keeps_send e s p : keeps (msend e s p).
Proof.
  unfold msend. apply keeps_bind; [apply keeps_draw|]. intros r n u n' o. destruct (nm_send _ _ _ _) as [[[p' m'] out]| |]; try discriminate.
  intros [= <- <- <-]. auto.
Qed.
Lemma keeps_timer now t d : keeps (SetTimer now t d).
Proof. unfold SetTimer. destruct t; [apply keeps_ret|..]; apply keeps_upd; auto. Qed.
Ltac kp := repeat match goal with
  | |- forall _, _ => intro
  | |- keeps (mbind _ _) => apply keeps_bind
  | |- keeps (mret _) => apply keeps_ret
  | |- keeps (mget _) => apply keeps_get
  | |- keeps (mlift _) => apply keeps_lift
  | |- keeps (mdraw _) => apply keeps_draw
  | |- keeps (msend _ _ _) => apply keeps_send
  | |- keeps (SetTimer _ _ _) => apply keeps_timer
  | |- keeps (mupd _) => apply keeps_upd; intros; split; reflexivity
  | |- keeps (if ?b then _ else _) => destruct b
  | |- keeps (mrand _) => unfold mrand
  | |- keeps (mrandom _ _ _) => unfold mrandom
  end.
Lemma keeps_slave e now p : keeps (handleSlavePacket e now p).
Proof. unfold handleSlavePacket. kp. Qed.
Lemma keeps_timers e now t : keeps (handleMasterTimer e now t).
Proof. unfold handleMasterTimer, SendHeartbeat. destruct t; kp. Qed.
Lemma keeps_master e now p : ptype p <> HEARTBEAT -> ptype p <> CLAIM_MASTER -> keeps (handleMasterPacket e now p).
Proof.
  intros A B. apply Z.eqb_neq in A, B. unfold handleMasterPacket. rewrite A, B. kp.
Qed.

Lemma finish_clock_same e m n : next_state n = state n -> finish_tick_clock e m n = Ok (tt, n, []).
Proof.
  intros E. unfold finish_tick_clock, mbind, mget, mupd, mret. rewrite E.
  destruct n as [? s]; cbn in *; subst. destruct s; reflexivity.
Qed.

Lemma swap_finish e now m (h : M unit) n : keeps h -> next_state n = state n ->
  (h ;; finish_tick_clock e m) n = (h ;; finish_tick e now) n.
Proof.
  intros K E. unfold mbind. destruct (h n) as [[[u n1] o]| |] eqn:Eh; try reflexivity.
  destruct (K _ _ _ _ Eh) as [A B]. rewrite finish_clock_same, finish_same by congruence. reflexivity.
Qed.

Lemma finish_clock_slave e m n : state n = Master -> next_state n = Slave ->
  finish_tick_clock e m n =
  Ok (tt, with_state Slave (with_t_hb (u32 (m 5%nat + silence e n)) (with_rng (S (rng n)) n)), []).
Proof.
  intros E1 E2. unfold finish_tick_clock, mbind at 1 2, mget. rewrite E1, E2. cbn [role_eqb].
  unfold mbind at 1 2. rewrite SetTimer_hb. rewrite beginSlave_eq.
  cbn. rewrite E2. destruct n; cbn in *; subst; reflexivity.
Qed.

Lemma beginMaster_clock_is e c n : nm_wf (nm n) ->
  beginMaster_clock e c n =
  Ok (tt, with_t_hb (u32 (c 1%nat + 1000)) (with_t_bc (u32 (c 2%nat + 2000)) (with_t_ce (ce_clock (c 3%nat) (c 4%nat) (c 5%nat) n)
          (with_packet_ (hb_packet e (c 0%nat) n)
            (with_nm (nm_push (nm n) (fresh e n)) (with_rng (S (rng n)) n))))),
      [Own ByHeartbeat (hb_packet e (c 0%nat) n)]).
Proof.
  intros W. unfold beginMaster_clock.
  rewrite (mbind_ok _ _ _ _ _ _ (SendHeartbeat_eq e (c 0%nat) n W)).
  rewrite (mbind_ok _ _ _ _ _ _ (SetTimer_hb (c 1%nat) _ _)).
  rewrite (mbind_ok _ _ _ _ _ _ (SetTimer_bc (c 2%nat) _ _)).
  unfold mbind at 1, mget. cbn [seen_at with_t_bc with_t_hb with_packet_ with_nm with_rng]. change kChangeEffectInterval with 60000.
  unfold ce_clock. destruct (60000 <? u32 (c 3%nat - seen_at n)); rewrite SetTimer_ce; reflexivity.
Qed.

Lemma finish_clock_master e m n : nm_wf (nm n) -> state n = Slave -> next_state n = Master ->
  finish_tick_clock e m n =
  Ok (tt, with_state Master (with_t_hb (u32 (m 6%nat + 1000)) (with_t_bc (u32 (m 7%nat + 2000)) (with_t_ce (ce_clock (m 8%nat) (m 9%nat) (m 10%nat) n)
          (with_packet_ (hb_packet e (m 5%nat) n)
            (with_nm (nm_push (nm n) (fresh e n)) (with_rng (S (rng n)) n)))))), [Own ByHeartbeat (hb_packet e (m 5%nat) n)]).
Proof.
  intros W E1 E2. unfold finish_tick_clock, mbind at 1 2, mget. rewrite E1, E2. cbn [role_eqb].
  unfold mbind at 1 2. rewrite SetTimer_hb. rewrite beginMaster_clock_is by exact W.
  cbn [Nat.add]. cbn. rewrite E2. destruct n; cbn in *; subst; reflexivity.
Qed.

Lemma ctick_heard e m n inc p : nm_wf (nm n) -> heard n inc = Some p ->
  RadioTick_clock e m inc n =
  prepend [Forwarded p]
    (((match state n with Slave => handleSlavePacket_clock e m p | Master => handleMasterPacket e (m 3%nat) p end)
      ;; finish_tick_clock e m) (hear p n)).
Proof.
  intros W E. unfold RadioTick_clock. unfold mbind at 1, mget.
  rewrite (mbind_ok _ _ _ _ _ _ (eq_trans (mreceive_eq n inc W) ltac:(rewrite E; reflexivity))).
  unfold mbind at 1. change (state (hear p n)) with (state n). unfold prepend.
  destruct ((_ ;; _) (hear p n)) as [[[? ?] ?]| |]; reflexivity.
Qed.

Lemma ctick_unheard e m n inc : nm_wf (nm n) -> heard n inc = None ->
  RadioTick_clock e m inc n =
    ((match TimerExpired_clock m n with
      | TimerNone => mret tt
      | _ => match state n with Slave => handleSlaveTimer (TimerExpired_clock m n) | Master => handleMasterTimer_clock e m (TimerExpired_clock m n) end
      end) ;; finish_tick_clock e m) n.
Proof.
  intros W E. unfold RadioTick_clock. unfold mbind at 1, mget.
  rewrite (mbind_ok _ _ _ _ _ _ (eq_trans (mreceive_eq n inc W) ltac:(rewrite E; reflexivity))).
  transitivity (prepend (@nil rtx) (prepend (@nil rtx) (prepend (@nil rtx)
    (((match TimerExpired_clock m n with
      | TimerNone => mret tt
      | _ => match state n with Slave => handleSlaveTimer (TimerExpired_clock m n) | Master => handleMasterTimer_clock e m (TimerExpired_clock m n) end
      end) ;; finish_tick_clock e m) n)))); [reflexivity|].
  destruct ((_ ;; _) n) as [[[? ?] ?]| |]; reflexivity.
Qed.

Lemma TimerExpired_clock_cases m n :
  (timer_due (m 0%nat) (t_hb n) = true /\ TimerExpired_clock m n = TimerHeartbeat) \/
  (timer_due (m 0%nat) (t_hb n) = false /\ timer_due (m 1%nat) (t_ce n) = true /\ TimerExpired_clock m n = TimerChangeEffect) \/
  (timer_due (m 0%nat) (t_hb n) = false /\ timer_due (m 1%nat) (t_ce n) = false /\ timer_due (m 2%nat) (t_bc n) = true /\
     TimerExpired_clock m n = TimerBroadcastEffect) \/
  (timer_due (m 0%nat) (t_hb n) = false /\ timer_due (m 1%nat) (t_ce n) = false /\ timer_due (m 2%nat) (t_bc n) = false /\
     TimerExpired_clock m n = TimerNone).
Proof.
  unfold TimerExpired_clock. destruct (timer_due (m 0%nat) (t_hb n)), (timer_due (m 1%nat) (t_ce n)), (timer_due (m 2%nat) (t_bc n)); auto 10.
Qed.

Lemma evalc_takeover e m n : good n -> state n = Slave ->
  (handleSlaveTimer TimerHeartbeat ;; finish_tick_clock e m) n =
  Ok (tt, with_state Master (with_next_state Master
        (with_t_hb (u32 (m 6%nat + 1000)) (with_t_bc (u32 (m 7%nat + 2000)) (with_t_ce (ce_clock (m 8%nat) (m 9%nat) (m 10%nat) n)
          (with_packet_ (hb_packet e (m 5%nat) n)
            (with_nm (nm_push (nm n) (fresh e n)) (with_rng (S (rng n)) n))))))), [Own ByHeartbeat (hb_packet e (m 5%nat) n)]).
Proof.
  intros G S0. cbn [handleSlaveTimer]. unfold mbind at 1, mupd.
  rewrite finish_clock_master; [|apply G|exact S0|reflexivity]. reflexivity.
Qed.

Lemma evalc_hb e m n : good n -> state n = Master ->
  (handleMasterTimer_clock e m TimerHeartbeat ;; finish_tick_clock e m) n =
  Ok (tt, with_t_hb (u32 (m 4%nat + 1000))
          (with_packet_ (hb_packet e (m 3%nat) n)
            (with_nm (nm_push (nm n) (fresh e n)) (with_rng (S (rng n)) n))), [Own ByHeartbeat (hb_packet e (m 3%nat) n)]).
Proof.
  intros G S0. cbn [handleMasterTimer_clock]. unfold mbind at 1.
  rewrite (mbind_ok _ _ _ _ _ _ (SendHeartbeat_eq e (m 3%nat) n (g_nm _ G))).
  rewrite SetTimer_hb. rewrite finish_clock_same; [reflexivity|]. apply (g_next _ G).
Qed.

Lemma evalc_slave_hb e m n p : good n -> wf_packet p -> state n = Slave -> ptype p = HEARTBEAT ->
  (handleSlavePacket_clock e m p ;; finish_tick_clock e m) (hear p n) =
  if readableb e HEARTBEAT 4 p
  then Ok (tt, with_t_hb (u32 (m 4%nat + silence e n))
        (with_millis_offset (i32 (u32 (big_endian (payload 4 p) - u32 (i32 (m 3%nat)))))
          (with_rng (S (rng n)) (hear p n))), [])
  else Abort.
Proof.
  intros G W S0 T. unfold handleSlavePacket_clock, readableb. rewrite T. cbn [Z.eqb].
  rewrite read_heartbeat_val by exact W. change HEARTBEAT with 0. cbn [Z.eqb].
  assert (X : forall t, ((_ <-- mlift (Ok t);
     mupd (with_millis_offset (i32 (u32 (t - u32 (i32 (m 3%nat))))));;
     r <-- mrand e; SetTimer (m 4%nat) TimerHeartbeat (u32 (kSlaveNoPacketTimeout + r mod kSlaveNoPacketRandom)));;
     finish_tick_clock e m) (hear p n) = Ok (tt, with_t_hb (u32 (m 4%nat + silence e n))
        (with_millis_offset (i32 (u32 (t - u32 (i32 (m 3%nat))))) (with_rng (S (rng n)) (hear p n))), [])).
  { intros t. unfold mlift, mupd, mrand, mdraw, mret, mbind at 1 2 3 4 5.
    rewrite u32_silence, SetTimer_hb, timer_of_silence, finish_clock_same by (cbn; apply G). reflexivity. }
  destruct (plat e).
  - destruct (kind_ok 0 4 p); [apply (X (big_endian (payload 4 p)))|reflexivity].
  - apply (X (big_endian (payload 4 p))).
Qed.

Lemma evalc_master_hb e m n p : good n -> state n = Master -> ptype p = HEARTBEAT ->
  (handleMasterPacket e (m 3%nat) p ;; finish_tick_clock e m) (hear p n) =
  if pid p <? election_number e n
  then Ok (tt, with_packet_ (claim_packet e n)
        (with_nm (nm_push (nm_push (nm n) (pid p)) (pid (claim_packet e n)))
          (with_rng (S (S (rng n))) n)), [Own ByElection (claim_packet e n)])
  else Ok (tt, with_state Slave (with_next_state Slave
        (with_t_hb (u32 (m 5%nat + (5000 + Z.of_N (draw e (S (rng n))) mod 2000)))
          (with_rng (S (S (rng n))) (hear p n)))), []).
Proof.
  intros G S0 T. unfold handleMasterPacket. rewrite T. cbn [Z.eqb HEARTBEAT].
  unfold PerformMasterElection, mrandom.
  unfold mbind at 1 2 3. rewrite mdraw_eq. unfold mlift. cbn [hear with_nm rng].
  pose proof (election_number_range e n) as R. unfold election_number in *.
  destruct (random2_election (plat e) (draw e (rng n))) as (i & E & R2). rewrite E in *.
  assert (U : u16 i = i) by (apply u16_id; destruct (plat e); lia). rewrite U.
  destruct (pid p <? i) eqn:L.
  - unfold mbind at 1 2, mget. rewrite msend_eq by (cbn; apply nm_push_wf, G).
    unfold mupd. rewrite finish_clock_same by (cbn; apply G). reflexivity.
  - unfold mupd. rewrite finish_clock_slave; [|exact S0|reflexivity]. reflexivity.
Qed.

Lemma evalc_master_claim e m n p : good n -> state n = Master -> ptype p = CLAIM_MASTER ->
  (handleMasterPacket e (m 3%nat) p ;; finish_tick_clock e m) (hear p n) =
  Ok (tt, with_state Slave (with_next_state Slave
        (with_t_hb (u32 (m 5%nat + silence e n))
          (with_rng (S (rng n)) (hear p n)))), []).
Proof.
  intros G S0 T. unfold handleMasterPacket. rewrite T. cbn [Z.eqb CLAIM_MASTER HEARTBEAT Pos.eqb].
  unfold mbind at 1, mupd. rewrite finish_clock_slave; [|exact S0|reflexivity]. reflexivity.
Qed.

(** Everything else reads the clock once. *)
Lemma evalc_slave e m n p : good n -> ptype p <> HEARTBEAT ->
  (handleSlavePacket_clock e m p ;; finish_tick_clock e m) (hear p n) =
  (handleSlavePacket e (m 3%nat) p ;; finish_tick e (m 3%nat)) (hear p n).
Proof.
  intros G T. unfold handleSlavePacket_clock. apply Z.eqb_neq in T. rewrite T.
  apply swap_finish; [apply keeps_slave|apply (g_next _ G)].
Qed.
Lemma evalc_master e m n p : good n -> ptype p <> HEARTBEAT -> ptype p <> CLAIM_MASTER ->
  (handleMasterPacket e (m 3%nat) p ;; finish_tick_clock e m) (hear p n) =
  (handleMasterPacket e (m 3%nat) p ;; finish_tick e (m 3%nat)) (hear p n).
Proof. intros G A B. apply swap_finish; [apply keeps_master; auto|apply (g_next _ G)]. Qed.
Lemma evalc_timer e m n t : good n -> t <> TimerHeartbeat ->
  (handleMasterTimer_clock e m t ;; finish_tick_clock e m) n =
  (handleMasterTimer e (m 3%nat) t ;; finish_tick e (m 3%nat)) n.
Proof.
  intros G T. replace (handleMasterTimer_clock e m t) with (handleMasterTimer e (m 3%nat) t) by (destruct t; congruence || reflexivity).
  apply swap_finish; [apply keeps_timers|apply (g_next _ G)].
Qed.
Lemma evalc_unknown e m n p : good n ->
  ptype p <> HEARTBEAT -> ptype p <> CLAIM_MASTER -> ptype p <> SET_EFFECT -> ptype p <> SET_CONTROL ->
  ((match state n with Slave => handleSlavePacket_clock e m p | Master => handleMasterPacket e (m 3%nat) p end)
      ;; finish_tick_clock e m) (hear p n) = Ok (tt, hear p n, []).
Proof.
  intros G H0 H1 H2 H3. rewrite <- (eval_unknown e (m 3%nat) n p G H0 H1 H2 H3).
  destruct (state n); [apply evalc_slave; auto|apply evalc_master; auto].
Qed.

Definition ctick_undef (e : env) (m : nat -> Z) (n : node) (inc : option packet) : Prop :=
  heard n inc = None /\ state n = Master /\ timer_due (m 0%nat) (t_hb n) = false /\
  timer_due (m 1%nat) (t_ce n) = true /\ ~ can_pick e n.

Theorem ctick_total e m n inc : good n -> inc_ok inc ->
  (exists n' out, RadioTick_clock e m inc n = Ok (tt, n', out) /\ ctick e m n inc out n') \/
  (RadioTick_clock e m inc n = Abort /\ tick_aborts e n inc) \/
  (RadioTick_clock e m inc n = Undef /\ ctick_undef e m n inc).
Proof.
  intros G I. destruct (heard n inc) as [p|] eqn:H.
  - pose proof (heard_some _ _ _ H) as ->. cbn in I. rename I into W.
    rewrite (ctick_heard e m n _ p (g_nm _ G) H).
    destruct (Z.eq_dec (ptype p) HEARTBEAT) as [T|N0].
    { destruct (state n) eqn:S0.
      - rewrite evalc_slave_hb by auto.
        destruct (readableb e HEARTBEAT 4 p) eqn:R.
        + left. do 2 eexists. split; [reflexivity|]. cbn. eapply K_slave_hb; auto. now apply readableb_iff.
        + right. left. split; [reflexivity|]. destruct (not_readable _ _ _ _ R T). exists p. auto 10.
      - rewrite evalc_master_hb by auto. left.
        destruct (pid p <? election_number e n) eqn:L; do 2 eexists; (split; [reflexivity|]); cbn.
        + eapply K_master_win; auto. lia.
        + eapply K_master_lose; auto. lia. }
    destruct (Z.eq_dec (ptype p) CLAIM_MASTER) as [T|N1].
    { destruct (state n) eqn:S0.
      - rewrite evalc_slave, eval_slave_claim by (auto || (rewrite T; discriminate)). left. do 2 eexists; split; [reflexivity|]. cbn. eapply K_slave_claim; auto.
      - rewrite evalc_master_claim by auto. left. do 2 eexists; split; [reflexivity|]. cbn. eapply K_master_claim; auto. }
    destruct (Z.eq_dec (ptype p) SET_EFFECT) as [T|N2].
    { destruct (state n) eqn:S0.
      - rewrite evalc_slave, eval_slave_se by auto.
        destruct (readableb e SET_EFFECT 3 p) eqn:R; cbn [andb].
        + destruct (byte_at (pdata p) 0 =? effect_index n) eqn:E1; cbn [negb orb].
          * destruct (readableb e SET_EFFECT 3 (set_effect_packet n)) eqn:R2.
            -- left. do 2 eexists; split; [reflexivity|]. eapply K_slave_se; auto; intros; now apply readableb_iff.
            -- right; left. split; [reflexivity|]. exists p.
               assert (plat e = Host) as P. { unfold readableb in R2. destruct (plat e); congruence. }
               unfold readableb in R, R2. rewrite P in R, R2. unfold kind_ok in R, R2.
               split; [exact H|]. split; [exact P|]. right; right; left. repeat split; auto; try lia.
          * left. do 2 eexists; split; [reflexivity|]. eapply K_slave_se; auto; [now apply readableb_iff|lia].
        + right. left. split; [reflexivity|]. destruct (not_readable _ _ _ _ R T). exists p. auto 10.
      - rewrite evalc_master, eval_master_se by auto.
        destruct (readableb e SET_EFFECT 3 p) eqn:R.
        + left. do 2 eexists. split; [reflexivity|]. cbn. eapply K_master_se; auto. now apply readableb_iff.
        + right. left. split; [reflexivity|]. destruct (not_readable _ _ _ _ R T). exists p. auto 10. }
    destruct (Z.eq_dec (ptype p) SET_CONTROL) as [T|N3].
    { destruct (state n) eqn:S0.
      - rewrite evalc_slave, eval_slave_sc by auto. left. do 2 eexists; split; [reflexivity|]. cbn. eapply K_slave_sc; auto.
      - rewrite evalc_master, eval_master_sc by auto.
        destruct (readableb e SET_CONTROL 4 p) eqn:R.
        + left. do 2 eexists. split; [reflexivity|]. cbn. eapply K_master_sc; auto. now apply readableb_iff.
        + right. left. split; [reflexivity|]. destruct (not_readable _ _ _ _ R T). exists p. auto 10. }
    rewrite evalc_unknown by auto. left. do 2 eexists; split; [reflexivity|]. eapply K_unknown; auto.
  - rewrite (ctick_unheard e m n inc (g_nm _ G) H).
    destruct (TimerExpired_clock_cases m n) as [(A&E)|[(A&B&E)|[(A&B&C&E)|(A&B&C&E)]]]; rewrite E.
    + destruct (state n) eqn:S0.
      * rewrite evalc_takeover by auto. left; do 2 eexists; split; [reflexivity|]. apply K_takeover; auto.
      * rewrite evalc_hb by auto. left; do 2 eexists; split; [reflexivity|]. apply K_hb; auto.
    + destruct (state n) eqn:S0.
      * left; do 2 eexists; split; [|apply K_quiet; auto].
        cbn [handleSlaveTimer]. unfold mbind, mret. rewrite finish_clock_same by apply G. reflexivity.
      * destruct (can_pick_dec e n) as [C|C].
        -- rewrite evalc_timer, eval_ce by (auto || discriminate). left; do 2 eexists; split; [reflexivity|]. apply K_ce; auto.
        -- rewrite evalc_timer, eval_ce_undef by (auto || discriminate). right; right. split; [reflexivity|]. repeat split; auto.
    + destruct (state n) eqn:S0.
      * left; do 2 eexists; split; [|apply K_quiet; auto].
        cbn [handleSlaveTimer]. unfold mbind, mret. rewrite finish_clock_same by apply G. reflexivity.
      * rewrite evalc_timer, eval_bc by (auto || discriminate). left; do 2 eexists; split; [reflexivity|]. apply K_bc; auto.
    + left; do 2 eexists; split; [|apply K_quiet; auto].
      cbn [handleSlaveTimer]. unfold mbind, mret. rewrite finish_clock_same by apply G. reflexivity.
Qed.


Lemma ctick_inv e m n inc u n' out : good n -> inc_ok inc ->
  RadioTick_clock e m inc n = Ok (u, n', out) -> ctick e m n inc out n'.
Proof.
  intros G I E. destruct (ctick_total e m n inc G I) as [(n1 & o1 & E1 & T)|[(E1 & _)|(E1 & _)]]; try congruence.
Qed.
