(** C132: what a node promises although its clock moves while a call runs. *)
From Coq Require Import ZArith Lia List Bool.
From Coq Require Import ZifyBool.
From Verif Require Import CInt CIntFacts Packet SpecPacket PacketFacts NetMgr NetHist SpecNet NetFacts Rsm RsmStep RsmEval RsmHist SpecRsm RsmFacts RsmTime RoleFacts EffectFacts RsmRun PropHold BeginMasterRace RsmClock ClockFacts SpecClock ClockRun.
Import ListNotations.
Open Scope Z_scope.
Ltac Zify.zify_post_hook ::= Z.div_mod_to_equations.

Lemma ctick_of e m ev inc : call ev = OTick inc ->
  cstepR e m (before ev) (call ev) (sent ev) (after ev) -> ctick e m (before ev) inc (sent ev) (after ev).
Proof. intros C S. rewrite C in S. inversion S; subst; auto. Qed.

Lemma mbind_ext {A B} (c : M A) (f g : A -> M B) n : (forall a m, f a m = g a m) -> mbind c f n = mbind c g n.
Proof. intros H. unfold mbind. destruct (c n) as [[[a m] o]| |]; [rewrite H|..]; reflexivity. Qed.

(** A clock that stands still during the call gives the model of Rsm.v. *)
Theorem C132_standing_clock e now o n : step_clock e (fun _ => now) o n = step e now o n.
Proof.
  destruct o as [inc|p|v|v]; try reflexivity. cbn [step_clock step].
  assert (H1 : forall p, handleSlavePacket_clock e (fun _ => now) p = handleSlavePacket e now p).
  { intros p. unfold handleSlavePacket_clock, handleSlavePacket. destruct (ptype p =? HEARTBEAT); reflexivity. }
  assert (H2 : forall t, handleMasterTimer_clock e (fun _ => now) t = handleMasterTimer e now t) by (intros []; reflexivity).
  change (RadioTick_clock e (fun _ => now) inc) with
    (t <-- mget (TimerExpired now); r <-- mreceive inc; s <-- mget state;
     match r with
     | Some p => match s with Slave => handleSlavePacket_clock e (fun _ => now) p | Master => handleMasterPacket e now p end
     | None => match t with TimerNone => mret tt | _ => match s with Slave => handleSlaveTimer t | Master => handleMasterTimer_clock e (fun _ => now) t end end
     end ;; finish_tick e now).
  unfold RadioTick. apply mbind_ext. intros t n1. apply mbind_ext. intros r n2. apply mbind_ext. intros s n3.
  destruct r as [p|], t, s; rewrite ?H1, ?H2; reflexivity.
Qed.
Print Assumptions C132_standing_clock.

(** On the device no call fails, whatever the clock does meanwhile. *)
Theorem C132_device_never_fails e t0 h n o (m : nat -> Z) :
  chist e t0 h n -> plat e = Arduino -> op_ok o ->
  exists n' out, step_clock e m o n = Ok (tt, n', out).
Proof.
  intros H A O. pose proof (chist_good _ _ _ _ H) as G. destruct o as [inc|p|v|v]; cbn [step_clock].
  - destruct (ctick_total e m n inc G) as [X|[[_ X]|[_ X]]].
    + destruct inc; exact O.
    + destruct X as (out & n' & E & _). eauto.
    + destruct X as (p & _ & Hp & _). congruence.
    + destruct X as (_ & _ & _ & _ & X). exfalso. apply X. left; exact A.
  - rewrite SetEffect_eq by auto. unfold readableb. rewrite A. eauto.
  - eexists _, _. reflexivity.
  - eexists _, _. reflexivity.
Qed.
Print Assumptions C132_device_never_fails.

(** C17 with a moving clock. *)
Theorem C132_takeover_only_after_silence e t0 h x :
  chistory e t0 (h ++ [x]) -> ends_before (wrap - 7000) t0 (h ++ [x]) ->
  took_over (what x) ->
  t0 + 5000 < started x /\
  forall y, In y h -> contact (what y) \/ stepped_down (what y) -> started y + 5000 < started x.
Proof.
  intros [n H] B [R1 R2]. apply chist_last in H as (H & -> & F & At & L1 & L2 & G & O & S).
  apply ends_before_last in B as [B Bt].
  pose proof (ctimer_inv _ _ _ _ H B) as I.
  unfold role_before, role_after, GetCurrentState in *. rewrite R1 in I.
  destruct I as (r & (Ca & Cb & Cc) & D).
  assert (K : r + 5000 < started x).
  { pose proof (chist_t0 _ _ _ _ H) as P0. pose proof (forward_between _ 0 F ltac:(lia)) as B0.
    destruct x as [c [t o n n' out]]; cbn [reading what started ended] in *; proj.
    destruct S as [inc out n' T|p R|v|v]; proj; try congruence.
    destruct T; proj; try congruence.
    match goal with X : timer_due _ (t_hb n) = true |- _ =>
      apply timer_due_iff in X; [|apply G]; rewrite u32_id in X by (unfold wrap, started, ended in *; cbn in *; lia); unfold started; cbn; lia end. }
  split; [lia|]. intros y I' X. assert (started y <= r) by (apply Cc; tauto). lia.
Qed.
Print Assumptions C132_takeover_only_after_silence.

(** C18 with a moving clock. *)
Theorem C132_silent_network_gets_a_master e t0 h x :
  chistory e t0 (h ++ [x]) -> ends_before (wrap - 7000) t0 (h ++ [x]) ->
  role_before (what x) = Slave -> packet_free (what x) ->
  t0 + 6999 < started x ->
  (forall y, In y h -> contact (what y) \/ stepped_down (what y) -> ended y + 6999 < started x) ->
  role_after (what x) = Master /\ exists p, sent (what x) = [Own ByHeartbeat p] /\ ptype p = 0.
Proof.
  intros [n H] B R1 Pf Q0 Q. apply chist_last in H as (H & -> & F & At & L1 & L2 & G & O & S).
  apply ends_before_last in B as [B Bt].
  pose proof (ctimer_inv _ _ _ _ H B) as I.
  apply (cstep_packet_free e _ _ S) in Pf as (inc & C & Hh).
  pose proof (ctick_of _ _ _ _ C S) as T.
  unfold role_before, role_after, GetCurrentState in *. rewrite R1 in I.
  destruct I as (r & (Ca & Cb & Cc) & D). pose proof (chist_t0 _ _ _ _ H) as P0.
  pose proof (forward_between _ 0 F ltac:(lia)) as B0.
  assert (K : timer_due (u32 (reading x 0%nat)) (t_hb (before (what x))) = true).
  { apply timer_due_iff; [apply G|]. unfold started, ended in *. rewrite u32_id by (unfold wrap in *; lia).
    destruct Ca as [->|(y & I' & Ry & X)]; [lia|]. specialize (Q y I' X). lia. }
  destruct x as [c [t o m m' out]]; cbn [reading what] in *; proj.
  destruct T; proj; try congruence; [intuition congruence|]. split; [reflexivity|]. eexists; split; reflexivity.
Qed.
Print Assumptions C132_silent_network_gets_a_master.

(** C20 with a moving clock: heartbeats are more than a second apart, a due one is
    sent, and it carries the network time of a moment within the call. *)
Theorem C132_heartbeats_apart e t0 h1 x1 h2 x2 :
  chistory e t0 (h1 ++ x1 :: h2 ++ [x2]) ->
  api_ok (map what (h1 ++ x1 :: h2 ++ [x2])) ->
  ends_before (wrap - 7000) t0 (h1 ++ x1 :: h2 ++ [x2]) ->
  own_heartbeat (what x1) -> own_heartbeat (what x2) ->
  started x1 + 1000 < started x2.
Proof.
  intros HH A B B1 B2. destruct HH as [n H].
  assert (S1 : by_site ByHeartbeat (what x1)).
  { eapply cheartbeat_site_in; eauto. apply in_or_app; right; left; reflexivity. }
  assert (S2 : by_site ByHeartbeat (what x2)).
  { eapply cheartbeat_site_in; eauto. apply in_or_app; right; right. apply in_or_app; right; left; reflexivity. }
  replace (h1 ++ x1 :: h2 ++ [x2]) with ((h1 ++ x1 :: h2) ++ [x2]) in *
    by (rewrite <- app_assoc; reflexivity).
  apply chist_last in H as (H & -> & F & At & L1 & L2 & G & O & S).
  apply ends_before_last in B as [B Bt].
  pose proof (ctimer_inv _ _ _ _ H B) as I. pose proof (chist_t0 _ _ _ _ H) as P0.
  pose proof (forward_between _ 0 F ltac:(lia)) as B0.
  assert (In1 : In x1 (h1 ++ x1 :: h2)) by (apply in_or_app; right; left; reflexivity).
  assert (K : timer_due (u32 (reading x2 0%nat)) (t_hb (before (what x2))) = true).
  { destruct S2 as (p & Ip). destruct x2 as [c [t o m m' out]]; cbn [reading what] in *; proj.
    destruct S as [inc out m' T|q R|v|v]; proj; own_in Ip. destruct T; own_in Ip; assumption. }
  apply timer_due_iff in K; [|apply G]. unfold started, ended in *. rewrite u32_id in K by (unfold wrap in *; lia).
  destruct (state (before (what x2))).
  - destruct I as (r & (Ca & Cb & Cc) & D). specialize (Cc x1 In1 (or_intror (or_intror S1))). unfold started in *. lia.
  - destruct I as (y & r & Iy & By & Ry & Ty & Uy). specialize (Uy x1 In1 S1). unfold started in *. lia.
Qed.
Print Assumptions C132_heartbeats_apart.

Theorem C132_heartbeat_due_is_sent e t0 h x :
  chistory e t0 (h ++ [x]) -> api_ok (map what (h ++ [x])) ->
  ends_before (wrap - 7000) t0 (h ++ [x]) ->
  role_before (what x) = Master -> packet_free (what x) ->
  (forall y, In y h -> own_heartbeat (what y) -> ended y + 1000 < started x) ->
  own_heartbeat (what x) /\ role_after (what x) = Master.
Proof.
  intros [n H] A B R Pf Q. pose proof (cheartbeat_site e t0 h x (ex_intro _ _ H) A) as HS.
  apply chist_last in H as (H & -> & F & At & L1 & L2 & G & O & S).
  rewrite map_app in A. apply api_ok_last in A as [A Ap].
  apply ends_before_last in B as [B Bt].
  pose proof (ctimer_inv _ _ _ _ H B) as I. pose proof (chist_t0 _ _ _ _ H) as P0.
  pose proof (forward_between _ 0 F ltac:(lia)) as B0.
  apply (cstep_packet_free e _ _ S) in Pf as (inc & C & Hh).
  pose proof (ctick_of _ _ _ _ C S) as T.
  unfold role_before, role_after, GetCurrentState in *. rewrite R in I.
  destruct I as (y & r & Iy & By & Ry & Ty & Uy).
  assert (K : timer_due (u32 (reading x 0%nat)) (t_hb (before (what x))) = true).
  { apply timer_due_iff; [apply G|]. unfold started, ended in *. rewrite u32_id by (unfold wrap in *; lia).
    pose proof (chist_ordered _ _ _ _ H y Iy) as Oy. unfold started, ended in Oy. assert (own_heartbeat (what y)) by (eapply cheartbeat_site_in; eauto).
    specialize (Q y Iy H0). lia. }
  rewrite HS. destruct x as [c [t o m m' out]]; cbn [reading what] in *; proj.
  destruct T; proj; try congruence; [intuition congruence|].
  split; [|assumption]. eexists; left; reflexivity.
Qed.
Print Assumptions C132_heartbeat_due_is_sent.

Theorem C132_heartbeats_carry_network_time e t0 h x p :
  chistory e t0 (h ++ [x]) -> api_ok (map what (h ++ [x])) ->
  originated (what x) p -> ptype p = 0 ->
  dlen p = 4 /\ exists r, started x <= r <= ended x /\
    big_endian (payload 4 p) = GetNetworkMillis (u32 r) (before (what x)).
Proof.
  intros [n H] A (s & I) P.
  apply chist_last in H as (H & -> & F & At & L1 & L2 & G & O & S).
  rewrite map_app in A. apply api_ok_last in A as [A Ap].
  pose proof (ceffect_type _ _ _ _ H A) as E.
  pose proof (forward_between _ 3 F ltac:(lia)) as B3. pose proof (forward_between _ 5 F ltac:(lia)) as B5.
  destruct x as [c [t o m m' out]]; cbn [reading what] in *; proj.
  assert (Sh : forall r, dlen (hb_packet e (u32 r) m) = 4 /\ big_endian (payload 4 (hb_packet e (u32 r) m)) = GetNetworkMillis (u32 r) m).
  { intros r. destruct (write_heartbeat_shape (GetNetworkMillis (u32 r) m) (packet_ m)) as (A1 & A2 & _ & _ & _ & A3).
    - apply G.
    - unfold GetNetworkMillis. apply u32_range.
    - split; [exact A2|exact A3]. }
  destruct S as [inc out m' T|q R|v|v]; proj; try (destruct I; fail).
  - destruct T; cbn in I;
      repeat (destruct I as [I|I]; [inversion I; subst; clear I|]); try destruct I;
      try (exfalso; cbn in P; unfold SET_EFFECT, CLAIM_MASTER in *; lia).
    + destruct (Sh (c 5%nat)) as [S1 S2]. split; [exact S1|]. exists (c 5%nat). split; [exact B5|exact S2].
    + destruct (Sh (c 3%nat)) as [S1 S2]. split; [exact S1|]. exists (c 3%nat). split; [exact B3|exact S2].
  - destruct I as [I|[]]. inversion I; subst. specialize (Ap q eq_refl). cbn in P. lia.
Qed.
Print Assumptions C132_heartbeats_carry_network_time.

(** C25 with a moving clock: the network time is exact up to the duration of the
    call that accepted the heartbeat. *)
Theorem C132_network_time_follows_heartbeat e t0 h1 x0 p h2 n :
  chist e t0 (h1 ++ x0 :: h2) n ->
  role_before (what x0) = Slave -> accepted (what x0) p -> ptype p = 0 ->
  (forall x q, In x h2 -> role_before (what x) = Slave -> accepted (what x) q -> ptype q <> 0) ->
  exists r, started x0 <= r <= ended x0 /\
    forall t', GetNetworkMillis (u32 t') n = u32 (big_endian (payload 4 p) + (t' - r)).
Proof.
  intros H R A P Q. exists (reading x0 3%nat).
  assert (X : exists n0, chist e t0 (h1 ++ [x0]) n0) by (rewrite cons_snoc in H; apply chist_prefix in H; exact H).
  destruct X as [n0 X]. apply chist_last in X as (H0 & -> & F & At & L1 & L2 & G & O & S).
  split; [apply (forward_between _ 3 F); lia|].
  assert (Rg : 0 <= big_endian (payload 4 p) < 4294967296).
  { destruct A as [C _]. rewrite C in O. cbn in O.
    destruct O as (_ & _ & _ & Ln & Fb). unfold payload.
    destruct (data4 (pdata p) ltac:(lia)) as (a & b & c & d & r & E). rewrite E in *.
    inversion Fb as [|? ? Fa F1]; inversion F1 as [|? ? Fb' F2]; inversion F2 as [|? ? Fc F3];
    inversion F3 as [|? ? Fd _]; subst. unfold is_byte in *. cbn. lia. }
  assert (M0 : millis_offset (after (what x0)) = i32 (u32 (big_endian (payload 4 p) - u32 (i32 (u32 (reading x0 3%nat)))))).
  { pose proof (proj1 (cstep_accepted e _ (what x0) p S) A) as (inc & C & Hh).
    pose proof (ctick_of _ _ _ _ C S) as T.
    destruct x0 as [c [t o m m' out]]; cbn [reading what] in *; proj.
    destruct T; proj; try congruence; assert (Ep : p0 = p) by congruence; subst p0;
    try reflexivity; unfold HEARTBEAT, CLAIM_MASTER, SET_EFFECT, SET_CONTROL in *; congruence. }
  clear S O G L1 L2 At F H0.
  assert (M : millis_offset n = i32 (u32 (big_endian (payload 4 p) - u32 (i32 (u32 (reading x0 3%nat)))))).
  { rewrite <- M0. clear M0. revert n H Q. induction h2 as [|x h2 IH] using rev_ind; intros n H Q.
    - apply chist_last in H as (_ & -> & _). reflexivity.
    - replace (h1 ++ x0 :: h2 ++ [x]) with ((h1 ++ x0 :: h2) ++ [x]) in H by (rewrite <- app_assoc; reflexivity).
      apply chist_last in H as (H & -> & F & At & L1 & L2 & G & O & S).
      specialize (IH _ H ltac:(intros; eapply Q; eauto; apply in_or_app; auto)).
      destruct (coffset_step e _ _ S) as [E|(Rx & q & Aq & Pq & _)]; [congruence|].
      exfalso. eapply Q; eauto. apply in_or_app; right; left; reflexivity. }
  intros t'. unfold GetNetworkMillis. rewrite M. apply network_time. exact Rg.
Qed.
Print Assumptions C132_network_time_follows_heartbeat.

(** C30, C31 with a moving clock. *)
Theorem C132_hold_time_honoured e t0 h x p :
  chistory e t0 (h ++ [x]) -> role_before (what x) = Master ->
  accepted (what x) p -> ptype p = 2 \/ ptype p = 3 ->
  0 < hold_seconds p -> ended x + 1000 * hold_seconds p < wrap ->
  role_after (what x) = Master /\
  cchange_scheduled e t0 (h ++ [x]) (started x + 1000 * hold_seconds p) (ended x + 1000 * hold_seconds p).
Proof.
  intros [n H] R Ac P D W. apply chist_last in H as (H & -> & F & At & L1 & L2 & G & O & S).
  pose proof (chist_t0 _ _ _ _ H) as P0. pose proof (forward_between _ 3 F ltac:(lia)) as B3.
  assert (X : t_ce (after (what x)) = timer_of (u32 (reading x 3%nat)) (hold_seconds p * 1000) /\ role_after (what x) = Master).
  { pose proof (proj1 (cstep_accepted _ _ _ _ S) Ac) as (inc & C & Hh).
    pose proof (ctick_of _ _ _ _ C S) as T. destruct x as [c [t o m m' out]]; cbn [reading what] in *; proj.
    destruct T; proj; try congruence;
    match goal with X : heard _ _ = Some ?q, Y : heard _ _ = Some p |- _ =>
      assert (q = p) by congruence; subst q end; try (types; lia).
    all: split; [|assumption]; unfold hold_seconds, byte_at;
      match goal with X : ptype ?q = _ |- context [ptype ?q] => rewrite X end; reflexivity. }
  destruct X as [E M]. split; [exact M|].
  unfold started, ended in *. assert (t_ce (after (what x)) = reading x 3%nat + 1000 * hold_seconds p).
  { rewrite E. unfold timer_of. destruct (Z.eqb_spec (hold_seconds p * 1000) 0); [lia|].
    unfold wrap in *. rewrite (u32_small (reading x 3%nat) (hold_seconds p * 1000) (4294967296 - hold_seconds p * 1000)); lia. }
  apply cscheduled_intro; lia.
Qed.
Print Assumptions C132_hold_time_honoured.

Theorem C132_own_changes_every_minute e t0 h x :
  chistory e t0 (h ++ [x]) -> own_change (what x) -> ended x + 60000 < wrap ->
  cchange_scheduled e t0 (h ++ [x]) (started x + 60000) (ended x + 60000).
Proof.
  intros [n H] (p & I) W. apply chist_last in H as (H & -> & F & At & L1 & L2 & G & O & S).
  pose proof (chist_t0 _ _ _ _ H) as P0. pose proof (forward_between _ 3 F ltac:(lia)) as B3.
  unfold started, ended in *. assert (t_ce (after (what x)) = reading x 3%nat + 60000).
  { unfold wrap in *. rewrite <- (u32_small (reading x 3%nat) 60000 (4294967296 - 60000)) by lia.
    destruct x as [c [t o m m' out]]; cbn [reading what] in *; proj.
    destruct S as [inc out m' T|q R|v|v]; proj; own_in I. destruct T; own_in I. reflexivity. }
  apply cscheduled_intro; unfold wrap in *; lia.
Qed.
Print Assumptions C132_own_changes_every_minute.

(** C33 with a moving clock.  [s] is the moment of the last change seen: the new
    master changes the effect about a minute after it, or at once if that is past
    -- unless one of its readings falls exactly on s + 60000: then never. *)
Theorem C132_cadence_survives_change_of_master e t0 h x lo hi :
  chistory e t0 (h ++ [x]) -> took_over (what x) -> clast_seen h lo hi ->
  ended x + 60001 + (ended x - started x) < wrap ->
  exists s, lo <= s <= hi /\
    (ended x < s + 60000 ->
       cchange_scheduled e t0 (h ++ [x]) (s + 60000) (s + 60000 + (ended x - started x))) /\
    (s + 60000 < started x -> cchange_scheduled e t0 (h ++ [x]) (started x + 1) (ended x + 1)) /\
    (started x <= s + 60000 <= ended x -> (forall i, reading x i <> s + 60000) ->
       cchange_scheduled e t0 (h ++ [x]) (started x) (ended x + 1 + (ended x - started x))) /\
    (reading x 8%nat <= s + 60000 -> reading x 9%nat = s + 60000 -> cchange_never e t0 (h ++ [x])).
Proof.
  intros [n H] [R1 R2] LS W. apply chist_last in H as (H & -> & NC).
  destruct (clast_seen_eq _ _ _ _ _ _ H LS) as (s & Bs & Es).
  destruct (clast_seen_range _ _ _ _ _ _ H LS) as [R0 Rx]. specialize (Rx _ NC).
  destruct NC as (F & At & L1 & L2 & G & O & S).
  exists s. split; [exact Bs|].
  pose proof (forward_between _ 8 F ltac:(lia)) as B8. pose proof (F 8%nat) as B9. pose proof (F 9%nat) as B10.
  unfold started, ended in *. rewrite u32_id in Es by (unfold wrap in *; lia).
  assert (E : t_ce (after (what x)) = ce_clock (u32 (reading x 8%nat)) (u32 (reading x 9%nat)) (u32 (reading x 10%nat)) (before (what x))).
  { destruct x as [c [t o m m' out]]; cbn [reading what] in *; proj.
    destruct S as [inc out m' T|q R|v|v]; proj; try congruence. destruct T; proj; try congruence. }
  rewrite !u32_id in E by (unfold wrap in *; lia). unfold ce_clock, timer_of in E. rewrite Es in E.
  rewrite (u32_id (reading x 8%nat - s)) in E by (unfold wrap in *; lia).
  rewrite (u32_id (reading x 9%nat - s)) in E by (unfold wrap in *; lia).
  rewrite (u32_id (reading x 9%nat + 1)) in E by (unfold wrap in *; lia).
  unfold wrap in *. split; [|split; [|split]].
  - intros D. rewrite (u32_id (60000 - (reading x 9%nat - s))) in E by lia.
    destruct (Z.ltb_spec 60000 (reading x 8%nat - s)); [lia|].
    destruct (Z.eqb_spec (60000 - (reading x 9%nat - s)) 0); [lia|]. rewrite u32_id in E by lia.
    apply cscheduled_intro; unfold wrap; lia.
  - intros D. destruct (Z.ltb_spec 60000 (reading x 8%nat - s)); [|lia].
    apply cscheduled_intro; unfold wrap; lia.
  - intros D N. pose proof (N 9%nat) as N9. destruct (Z.ltb_spec 60000 (reading x 8%nat - s)).
    + apply cscheduled_intro; unfold wrap; lia.
    + assert (X : t_ce (after (what x)) = s + 60000 + (reading x 10%nat - reading x 9%nat)).
      { rewrite E. unfold u32. change (2 ^ 32) with 4294967296.
        destruct (Z.eqb_spec ((60000 - (reading x 9%nat - s)) mod 4294967296) 0); lia. }
      apply cscheduled_intro; unfold wrap; lia.
  - intros D D9. destruct (Z.ltb_spec 60000 (reading x 8%nat - s)); [lia|].
    apply cnever_intro. rewrite E, D9. replace (60000 - (s + 60000 - s)) with 0 by lia. reflexivity.
Qed.
Print Assumptions C132_cadence_survives_change_of_master.

(** Finding: the clock moves on by one millisecond while a node takes over, and the
    node never changes the effect again. *)
Theorem C132_cadence_survives_in_general_refuted : exists h x,
  chistory (env0 Arduino) 0 (h ++ [x]) /\ took_over (what x) /\ clast_seen h 0 0 /\
  started x = 59999 /\ ended x = 60000 /\
  cchange_never (env0 Arduino) 0 (h ++ [x]).
Proof.
  crun_as H (env0 Arduino) 0 [(59999, 1, 9%nat, OTick None)].
  match type of H with chist _ _ [?a] _ => exists [], a end.
  assert (LS : clast_seen [] 0 0) by (left; repeat split; intros ? []).
  split; [eexists; exact H|]. split; [split; reflexivity|]. split; [exact LS|]. split; [reflexivity|]. split; [reflexivity|].
  apply (cnever_intro (env0 Arduino) 0 []). reflexivity.
Qed.
Print Assumptions C132_cadence_survives_in_general_refuted.

(** The same node, had the clock stood still, would have changed the effect. *)
Example C132_no_race_example : exists h x,
  chistory (env0 Arduino) 0 (h ++ [x]) /\ took_over (what x) /\ clast_seen h 0 0 /\
  started x = 59998 /\ ended x = 59999 /\ cchange_scheduled (env0 Arduino) 0 (h ++ [x]) 60000 60001.
Proof.
  crun_as H (env0 Arduino) 0 [(59998, 1, 9%nat, OTick None)].
  match type of H with chist _ _ [?a] _ => exists [], a end.
  assert (LS : clast_seen [] 0 0) by (left; repeat split; intros ? []).
  split; [eexists; exact H|]. split; [split; reflexivity|]. split; [exact LS|]. split; [reflexivity|]. split; [reflexivity|].
  destruct (C132_cadence_survives_change_of_master _ _ [] _ 0 0 (ex_intro _ _ H) ltac:(split; reflexivity) LS) as (s & Bs & X & _).
  - reflexivity.
  - assert (s = 0) by lia. subst s. apply X. reflexivity.
Qed.

(** A slave hears a heartbeat in a call that lasts 40 ms, takes over in a call
    during which the clock jumps, sends two more heartbeats and changes the
    effect. *)
Definition demo : list (Z * Z * nat * op) :=
  [(10, 40, 4%nat, OTick (Some (heartbeat_pkt 77 1000)));
   (7100, 3, 6%nat, OTick None);
   (8105, 2, 4%nat, OTick None);
   (8200, 5, 2%nat, OTick (Some (effect_pkt 50 1 9 2)));
   (9150, 1, 1%nat, OTick None);
   (17207, 0, 0%nat, OTick None);
   (17208, 0, 0%nat, OTick None)].

Ltac all_calls := let I := fresh "I" in intros ? I; repeat (destruct I as [<-|I]; [|]); try destruct I.

Example C132_demo_example : exists a b c d f g k n,
  chist (env0 Arduino) 0 [a; b; c; d; f; g; k] n /\ ends_before (wrap - 7000) 0 [a; b; c; d; f; g; k] /\
  api_ok (map what [a; b; c; d; f; g; k]) /\
  contact (what a) /\ ended a = 50 /\ took_over (what b) /\ packet_free (what b) /\ ended b = 7103 /\
  own_heartbeat (what b) /\ own_heartbeat (what c) /\ packet_free (what c) /\ role_before (what c) = Master /\
  accepted (what d) (effect_pkt 50 1 9 2) /\ role_before (what d) = Master /\ own_heartbeat (what f) /\
  own_heartbeat (what g) /\ own_change (what k).
Proof.
  crun_as H (env0 Arduino) 0 demo.
  match type of H with chist _ _ [?a; ?b; ?c; ?d; ?f; ?g; ?k] ?n => exists a, b, c, d, f, g, k, n end.
  split; [exact H|]. split; [split; [reflexivity|all_calls; reflexivity]|].
  split; [intros x p I C; repeat (destruct I as [<-|I]; [discriminate C|]); destruct I|].
  split; [exists (heartbeat_pkt 77 1000); split; [split; [reflexivity|left; reflexivity]|left; reflexivity]|].
  split; [reflexivity|]. split; [split; reflexivity|].
  split; [split; [eexists; reflexivity|intros p [X|[]]; discriminate]|]. split; [reflexivity|].
  split; [eexists; split; [eexists; left; reflexivity|reflexivity]|].
  split; [eexists; split; [eexists; left; reflexivity|reflexivity]|].
  split; [split; [eexists; reflexivity|intros p [X|[]]; discriminate]|]. split; [reflexivity|].
  split; [split; [reflexivity|left; reflexivity]|]. split; [reflexivity|].
  split; [eexists; split; [eexists; left; reflexivity|reflexivity]|].
  split; [eexists; split; [eexists; left; reflexivity|reflexivity]|].
  eexists; left; reflexivity.
Qed.
