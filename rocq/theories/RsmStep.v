(** Proof support: every successful radio tick is one of fifteen cases. *)
From Coq Require Import ZArith Lia List Bool.
From Coq Require Import ZifyBool.
From Verif Require Import CInt CIntFacts Packet SpecPacket PacketFacts NetMgr NetHist SpecNet NetFacts Rsm.
Import ListNotations.
Open Scope Z_scope.
Ltac Zify.zify_post_hook ::= Z.div_mod_to_equations.

(** What nm_add does to a well-formed cache. *)
Definition nm_push (m : netmgr) (id : Z) : netmgr :=
  mkNm (list_set (nm_cache m) (Z.to_nat (nm_index m)) id)
       (u8 (nm_index m + 1) mod kRecentIdsCacheSize).

Lemma nm_add_push m id : nm_wf m -> nm_add m id = Ok (nm_push m id).
Proof.
  intros [Hl Hi]. unfold nm_add, aset.
  destruct (Z.ltb_spec (nm_index m) 0); [lia|].
  destruct (Nat.ltb_spec (Z.to_nat (nm_index m)) (length (nm_cache m))); [reflexivity|lia].
Qed.

Lemma nm_push_wf m id : nm_wf m -> nm_wf (nm_push m id).
Proof.
  intros H. destruct (nm_add_ok m id H) as (m' & E & W & _).
  rewrite (nm_add_push m id H) in E. inversion E; subst; exact W.
Qed.

Lemma nm_push_inv m sent t : nm_inv m sent -> nm_inv (nm_push m (pid (tx_packet t))) (sent ++ [t]).
Proof.
  intros H. destruct (nm_add_inv m sent t H) as (m' & E & W).
  rewrite (nm_add_push _ _ (proj1 H)) in E. inversion E; subst; exact W.
Qed.

(** The packet that comes out of receive. *)
Definition heard (n : node) (inc : option packet) : option packet :=
  match inc with
  | Some p => if existsb (fun x => x =? pid p) (nm_cache (nm n)) then None else Some p
  | None => None
  end.

Definition hear (p : packet) (n : node) : node := with_nm (nm_push (nm n) (pid p)) n.

Lemma mreceive_eq n inc : nm_wf (nm n) ->
  mreceive inc n = match heard n inc with
                   | Some p => Ok (Some p, hear p n, [Forwarded p])
                   | None => Ok (None, n, [])
                   end.
Proof.
  intros W. unfold mreceive, nm_receive, heard. destruct inc as [p|].
  - destruct (existsb _ _).
    + destruct n; reflexivity.
    + rewrite nm_add_push by exact W. reflexivity.
  - destruct n; reflexivity.
Qed.

Definition set_id (p : packet) (id : Z) : packet := mkPacket id (ptype p) (dlen p) (pdata p).

(** The id drawn from a raw draw. *)
Definition id_of (pl : platform) (raw : N) : Z :=
  match random2 pl 2 65535 raw with Ok i => i | _ => 0 end.

Lemma id_of_range pl raw : 0 <= id_of pl raw < 65536.
Proof.
  unfold id_of. destruct (random2_id_ok pl raw) as (id & E & R). rewrite E. destruct pl; lia.
Qed.

Lemma nm_send_eq pl raw m p : nm_wf m ->
  nm_send pl raw m p = Ok (set_id p (id_of pl raw), nm_push m (id_of pl raw),
                           [Orig (set_id p (id_of pl raw))]).
Proof.
  intros W. unfold nm_send, id_of. destruct (random2_id_ok pl raw) as (id & E & R).
  rewrite E. cbn [obind].
  assert (U : u16 id = id) by (apply u16_id; destruct pl; lia).
  rewrite U. cbn [pid]. rewrite nm_add_push by exact W. reflexivity.
Qed.

Definition fresh (e : env) (n : node) : Z := id_of (plat e) (draw e (rng n)).

Lemma msend_eq e s p n : nm_wf (nm n) ->
  msend e s p n = Ok (set_id p (fresh e n),
                    with_nm (nm_push (nm n) (fresh e n)) (with_rng (S (rng n)) n),
                    [Own s (set_id p (fresh e n))]).
Proof.
  intros W. unfold msend, mbind, mdraw. cbn [nm with_rng]. rewrite nm_send_eq by exact W.
  reflexivity.
Qed.

(** Data-type ranges and the between-calls invariant. *)
Record good (n : node) : Prop := mkGood {
  g_nm : nm_wf (nm n);
  g_next : next_state n = state n;
  g_pk : wf_packet (packet_ n);
  g_se : wf_packet (set_effect_packet n);
  g_hb : 0 <= t_hb n < 4294967296;
  g_ce : 0 <= t_ce n < 4294967296;
  g_bc : 0 <= t_bc n < 4294967296;
  g_sa : 0 <= seen_at n < 4294967296;
  g_mo : -2147483648 <= millis_offset n < 2147483648;
  g_ei : -128 <= effect_index n < 128;
  g_np : 0 <= num_palettes n < 256;
  g_ne : 0 <= num_effects n < 256
}.

(** The silence delay drawn by a slave. *)
Definition silence (e : env) (n : node) : Z := 5000 + Z.of_N (draw e (rng n)) mod 2000.

Lemma silence_range e n : 5000 <= silence e n <= 6999.
Proof. unfold silence. lia. Qed.

Definition hb_packet (e : env) (now : Z) (n : node) : packet :=
  set_id (writeHeartbeat (GetNetworkMillis now n) (packet_ n)) (fresh e n).

Definition claim_packet (e : env) (n : node) : packet :=
  mkPacket (id_of (plat e) (draw e (S (rng n)))) CLAIM_MASTER 0 (pdata (packet_ n)).

(** The effect-change timer set by beginMaster. *)
Definition ce_takeover (now : Z) (n : node) : Z :=
  let d := u32 (now - seen_at n) in
  if 60000 <? d then u32 (now + 1) else if d =? 60000 then 0 else u32 (now + (60000 - d)).

Definition timer_of (now d : Z) : Z := if d =? 0 then 0 else u32 (now + d).

Definition picked (pl : platform) (hi : Z) (raw : N) : Z :=
  match random2 pl 0 hi raw with Ok i => i | _ => 0 end.

(** Own effect change of a master. *)
Definition pick_effect (e : env) (n : node) : Z := picked (plat e) (num_effects n) (draw e (rng n)).
Definition pick_palette (e : env) (n : node) : Z := picked (plat e) (num_palettes n) (draw e (S (rng n))).
Definition pick_packet (e : env) (n : node) : packet :=
  writeSetEffect (u8 (i8 (pick_effect e n))) 0 (u8 (pick_palette e n)) (packet_ n).
Definition pick_id (e : env) (n : node) : Z := id_of (plat e) (draw e (S (S (rng n)))).

Definition can_pick (e : env) (n : node) : Prop :=
  plat e = Arduino \/ (num_effects n <> 0 /\ num_palettes n <> 0).

(** The draw of the election. *)
Definition election_number (e : env) (n : node) : Z :=
  match random2 (plat e) 1 65535 (draw e (rng n)) with Ok i => i | _ => 0 end.

(** Reading succeeds: always on the device, on the host when type and length fit. *)
Definition readable (e : env) (ty len : Z) (p : packet) : Prop :=
  plat e = Arduino \/ (ptype p = ty /\ dlen p = len).

Definition changed (n : node) (p : packet) : bool :=
  negb (byte_at (pdata p) 0 =? effect_index n) ||
  negb (byte_at (pdata p) 2 =? byte_at (pdata (set_effect_packet n)) 2).

Inductive tick (e : env) (now : Z) (n : node) : option packet -> list rtx -> node -> Prop :=
| T_quiet inc : heard n inc = None ->
    (timer_due now (t_hb n) = false /\
     (state n = Slave \/ (timer_due now (t_ce n) = false /\ timer_due now (t_bc n) = false))) ->
    tick e now n inc [] n
| T_takeover inc : heard n inc = None -> state n = Slave -> timer_due now (t_hb n) = true ->
    tick e now n inc [Own ByHeartbeat (hb_packet e now n)]
      (with_state Master (with_next_state Master
        (with_t_hb (u32 (now + 1000)) (with_t_bc (u32 (now + 2000)) (with_t_ce (ce_takeover now n)
          (with_packet_ (hb_packet e now n)
            (with_nm (nm_push (nm n) (fresh e n)) (with_rng (S (rng n)) n))))))))
| T_hb inc : heard n inc = None -> state n = Master -> timer_due now (t_hb n) = true ->
    tick e now n inc [Own ByHeartbeat (hb_packet e now n)]
      (with_t_hb (u32 (now + 1000))
          (with_packet_ (hb_packet e now n)
            (with_nm (nm_push (nm n) (fresh e n)) (with_rng (S (rng n)) n))))
| T_ce inc : heard n inc = None -> state n = Master ->
    timer_due now (t_hb n) = false -> timer_due now (t_ce n) = true -> can_pick e n ->
    tick e now n inc [Own ByChange (set_id (pick_packet e n) (pick_id e n))]
      (with_t_ce (u32 (now + 60000))
         (with_effect_index (i8 (pick_effect e n))
           (with_set_effect_packet (pick_packet e n)
             (with_packet_ (set_id (pick_packet e n) (pick_id e n))
               (with_nm (nm_push (nm n) (pick_id e n)) (with_rng (S (S (S (rng n)))) n))))))
| T_bc inc : heard n inc = None -> state n = Master ->
    timer_due now (t_hb n) = false -> timer_due now (t_ce n) = false -> timer_due now (t_bc n) = true ->
    tick e now n inc [Own ByRebroadcast (set_id (set_effect_packet n) (fresh e n))]
      (with_t_bc (u32 (now + 2000))
         (with_set_effect_packet (set_id (set_effect_packet n) (fresh e n))
            (with_nm (nm_push (nm n) (fresh e n)) (with_rng (S (rng n)) n))))
| T_unknown inc p : heard n inc = Some p ->
    ptype p <> HEARTBEAT -> ptype p <> CLAIM_MASTER -> ptype p <> SET_EFFECT -> ptype p <> SET_CONTROL ->
    tick e now n inc [Forwarded p] (hear p n)
| T_slave_hb inc p : heard n inc = Some p -> ptype p = HEARTBEAT -> state n = Slave ->
    readable e HEARTBEAT 4 p ->
    tick e now n inc [Forwarded p]
      (with_t_hb (u32 (now + silence e n))
        (with_millis_offset (i32 (u32 (big_endian (payload 4 p) - u32 (i32 now))))
          (with_rng (S (rng n)) (hear p n))))
| T_slave_claim inc p : heard n inc = Some p -> ptype p = CLAIM_MASTER -> state n = Slave ->
    tick e now n inc [Forwarded p]
      (with_t_hb (u32 (now + silence e n)) (with_rng (S (rng n)) (hear p n)))
| T_slave_se inc p : heard n inc = Some p -> ptype p = SET_EFFECT -> state n = Slave ->
    readable e SET_EFFECT 3 p ->
    (byte_at (pdata p) 0 = effect_index n -> readable e SET_EFFECT 3 (set_effect_packet n)) ->
    tick e now n inc [Forwarded p]
      (with_seen_at (if changed n p then now else seen_at n)
        (with_set_effect_packet p (with_effect_index (i8 (byte_at (pdata p) 0)) (hear p n))))
| T_slave_sc inc p : heard n inc = Some p -> ptype p = SET_CONTROL -> state n = Slave ->
    tick e now n inc [Forwarded p]
      (with_seen_at now (with_set_effect_packet p (hear p n)))
| T_master_win inc p : heard n inc = Some p -> ptype p = HEARTBEAT -> state n = Master ->
    pid p < election_number e n ->
    tick e now n inc [Forwarded p; Own ByElection (claim_packet e n)]
      (with_packet_ (claim_packet e n)
        (with_nm (nm_push (nm_push (nm n) (pid p)) (pid (claim_packet e n)))
          (with_rng (S (S (rng n))) n)))
| T_master_lose inc p : heard n inc = Some p -> ptype p = HEARTBEAT -> state n = Master ->
    election_number e n <= pid p ->
    tick e now n inc [Forwarded p]
      (with_state Slave (with_next_state Slave
        (with_t_hb (u32 (now + (5000 + Z.of_N (draw e (S (rng n))) mod 2000)))
          (with_rng (S (S (rng n))) (hear p n)))))
| T_master_claim inc p : heard n inc = Some p -> ptype p = CLAIM_MASTER -> state n = Master ->
    tick e now n inc [Forwarded p]
      (with_state Slave (with_next_state Slave
        (with_t_hb (u32 (now + silence e n))
          (with_rng (S (rng n)) (hear p n)))))
| T_master_se inc p : heard n inc = Some p -> ptype p = SET_EFFECT -> state n = Master ->
    readable e SET_EFFECT 3 p ->
    tick e now n inc [Forwarded p]
      (with_t_ce (timer_of now (byte_at (pdata p) 1 * 1000))
        (with_set_effect_packet p (with_effect_index (i8 (byte_at (pdata p) 0)) (hear p n))))
| T_master_sc inc p : heard n inc = Some p -> ptype p = SET_CONTROL -> state n = Master ->
    readable e SET_CONTROL 4 p ->
    tick e now n inc [Forwarded p]
      (with_t_ce (timer_of now (byte_at (pdata p) 0 * 1000))
        (with_set_effect_packet p (hear p n))).

Lemma wf_read_hb e p t : wf_packet p -> readTimeFromHeartbeat (plat e) p = Ok t ->
  ptype p = HEARTBEAT -> t = big_endian (payload 4 p) /\ readable e HEARTBEAT 4 p.
Proof.
  intros W E T. rewrite read_heartbeat_val in E by exact W. unfold readable.
  destruct (plat e); [|inversion E; auto].
  unfold kind_ok in E. change HEARTBEAT with 0 in *.
  destruct (ptype p =? 0) eqn:E1; [|discriminate]. destruct (dlen p =? 4) eqn:E2; [|discriminate].
  inversion E; subst. split; [reflexivity|right; lia].
Qed.

Lemma read_inv e ty len p (v x : Z) :
  (_ <- check_kind (plat e) ty len p ;; Ok v) = Ok x -> x = v /\ readable e ty len p.
Proof.
  rewrite read_guarded. unfold readable, kind_ok. destruct (plat e).
  - destruct (ptype p =? ty) eqn:E1; [|discriminate]. destruct (dlen p =? len) eqn:E2; [|discriminate].
    intros E; inversion E. split; [reflexivity|right; lia].
  - intros E; inversion E; auto.
Qed.

Lemma read_ok e ty len p (v : Z) : readable e ty len p ->
  (_ <- check_kind (plat e) ty len p ;; Ok v) = Ok v.
Proof.
  rewrite read_guarded. unfold readable, kind_ok. destruct (plat e); [|reflexivity].
  intros [?|[-> ->]]; [discriminate|]. rewrite !Z.eqb_refl. reflexivity.
Qed.

Lemma node_eta n : mkNode (nm n) (state n) (next_state n) (t_hb n) (t_ce n) (t_bc n) (seen_at n)
  (millis_offset n) (effect_index n) (num_palettes n) (num_effects n) (packet_ n)
  (set_effect_packet n) (tick_run n) (rng n) = n.
Proof. destruct n; reflexivity. Qed.

Lemma SetTimer_hb now d n : SetTimer now TimerHeartbeat d n = Ok (tt, with_t_hb (timer_of now d) n, []).
Proof. reflexivity. Qed.
Lemma SetTimer_ce now d n : SetTimer now TimerChangeEffect d n = Ok (tt, with_t_ce (timer_of now d) n, []).
Proof. reflexivity. Qed.
Lemma SetTimer_bc now d n : SetTimer now TimerBroadcastEffect d n = Ok (tt, with_t_bc (timer_of now d) n, []).
Proof. reflexivity. Qed.

Lemma u32_silence r : u32 (kSlaveNoPacketTimeout + Z.of_N r mod kSlaveNoPacketRandom) = 5000 + Z.of_N r mod 2000.
Proof.
  unfold kSlaveNoPacketTimeout, kSlaveNoPacketRandom. apply u32_id.
  pose proof (Z.mod_pos_bound (Z.of_N r) 2000 ltac:(lia)). lia.
Qed.

Lemma timer_of_silence now r : timer_of now (5000 + Z.of_N r mod 2000) = u32 (now + (5000 + Z.of_N r mod 2000)).
Proof.
  unfold timer_of. destruct (Z.eqb_spec (5000 + Z.of_N r mod 2000) 0); [|reflexivity].
  pose proof (Z.mod_pos_bound (Z.of_N r) 2000 ltac:(lia)). lia.
Qed.

Lemma mbind_ok {A B} (c : M A) (f : A -> M B) n a n1 o1 :
  c n = Ok (a, n1, o1) ->
  mbind c f n = match f a n1 with Ok (b, n2, o2) => Ok (b, n2, o1 ++ o2) | Undef => Undef | Abort => Abort end.
Proof. intros E. unfold mbind. rewrite E. reflexivity. Qed.

Lemma beginSlave_eq e now n :
  beginSlave e now n = Ok (tt, with_t_hb (u32 (now + silence e n)) (with_rng (S (rng n)) n), []).
Proof.
  unfold beginSlave, mrand, mdraw, mbind, mret. rewrite u32_silence, SetTimer_hb, timer_of_silence. reflexivity.
Qed.

Lemma SendHeartbeat_eq e now n : nm_wf (nm n) ->
  SendHeartbeat e now n =
  Ok (tt, with_packet_ (hb_packet e now n)
            (with_nm (nm_push (nm n) (fresh e n)) (with_rng (S (rng n)) n)), [Own ByHeartbeat (hb_packet e now n)]).
Proof.
  intros W. unfold SendHeartbeat, mbind, mget, mupd. rewrite msend_eq by exact W. reflexivity.
Qed.

Lemma ce_takeover_eq now n s : s = seen_at n ->
  (if kChangeEffectInterval <? u32 (now - s) then SetTimer now TimerChangeEffect 1
   else SetTimer now TimerChangeEffect (u32 (kChangeEffectInterval - u32 (now - s)))) =
  (fun n0 => Ok (tt, with_t_ce (ce_takeover now n) n0, [])).
Proof.
  intros ->. unfold ce_takeover, kChangeEffectInterval. cbv zeta.
  pose proof (u32_range (now - seen_at n)) as R. set (d := u32 (now - seen_at n)) in *.
  destruct (60000 <? d) eqn:E.
  - unfold SetTimer. reflexivity.
  - assert (U : u32 (60000 - d) = 60000 - d) by (apply u32_id; lia). rewrite U.
    unfold SetTimer. replace (60000 - d =? 0) with (d =? 60000) by lia.
    destruct (d =? 60000); reflexivity.
Qed.

Lemma beginMaster_eq e now n : nm_wf (nm n) ->
  beginMaster e now n =
  Ok (tt, with_t_hb (u32 (now + 1000)) (with_t_bc (u32 (now + 2000)) (with_t_ce (ce_takeover now n)
          (with_packet_ (hb_packet e now n)
            (with_nm (nm_push (nm n) (fresh e n)) (with_rng (S (rng n)) n))))),
      [Own ByHeartbeat (hb_packet e now n)]).
Proof.
  intros W. unfold beginMaster.
  rewrite (mbind_ok _ _ _ _ _ _ (SendHeartbeat_eq e now n W)).
  rewrite (mbind_ok _ _ _ _ _ _ (SetTimer_hb now _ _)).
  rewrite (mbind_ok _ _ _ _ _ _ (SetTimer_bc now _ _)).
  unfold mbind at 1, mget. rewrite (ce_takeover_eq now n) by reflexivity. reflexivity.
Qed.

Lemma finish_same e now n : next_state n = state n ->
  finish_tick e now n = Ok (tt, n, []).
Proof.
  intros E. unfold finish_tick, mbind, mget, mupd, mret. rewrite E.
  destruct n as [? s]; cbn in *; subst. destruct s; reflexivity.
Qed.

Lemma finish_slave e now n : state n = Master -> next_state n = Slave ->
  finish_tick e now n =
  Ok (tt, with_state Slave (with_t_hb (u32 (now + silence e n)) (with_rng (S (rng n)) n)), []).
Proof.
  intros E1 E2. unfold finish_tick, mbind at 1 2, mget. rewrite E1, E2. cbn [role_eqb].
  unfold mbind at 1 2. rewrite SetTimer_hb. rewrite beginSlave_eq.
  cbn. rewrite E2. destruct n; cbn in *; subst; reflexivity.
Qed.

Lemma finish_master e now n : nm_wf (nm n) -> state n = Slave -> next_state n = Master ->
  finish_tick e now n =
  Ok (tt, with_state Master (with_t_hb (u32 (now + 1000)) (with_t_bc (u32 (now + 2000)) (with_t_ce (ce_takeover now n)
          (with_packet_ (hb_packet e now n)
            (with_nm (nm_push (nm n) (fresh e n)) (with_rng (S (rng n)) n)))))), [Own ByHeartbeat (hb_packet e now n)]).
Proof.
  intros W E1 E2. unfold finish_tick, mbind at 1 2, mget. rewrite E1, E2. cbn [role_eqb].
  unfold mbind at 1 2. rewrite SetTimer_hb. rewrite beginMaster_eq by exact W.
  cbn. rewrite E2. destruct n; cbn in *; subst; reflexivity.
Qed.
