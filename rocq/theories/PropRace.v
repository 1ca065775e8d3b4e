(** C33 when the clock moves while a node becomes master. *)
From Coq Require Import ZArith Lia List Bool.
From Coq Require Import ZifyBool.
From Verif Require Import CInt CIntFacts Packet NetMgr NetFacts Rsm RsmStep RsmHist RsmFacts RsmRun BeginMasterRace.
Import ListNotations.
Open Scope Z_scope.
Ltac Zify.zify_post_hook ::= Z.div_mod_to_equations.

(** Nothing is lost by reading the clock once, when it stands still. *)
Lemma one_reading e now : beginMaster_clock e (fun _ => now) = beginMaster e now.
Proof. reflexivity. Qed.

Lemma beginMaster_clock_eq e c n : nm_wf (nm n) ->
  exists n', beginMaster_clock e c n = Ok (tt, n', [Own ByHeartbeat (hb_packet e (c 0%nat) n)]) /\
    t_hb n' = u32 (c 1%nat + 1000) /\ t_bc n' = u32 (c 2%nat + 2000) /\
    t_ce n' = if 60000 <? u32 (c 3%nat - seen_at n) then u32 (c 4%nat + 1)
              else timer_of (c 5%nat) (u32 (60000 - u32 (c 4%nat - seen_at n))).
Proof.
  intros W. unfold beginMaster_clock.
  rewrite (mbind_ok _ _ _ _ _ _ (SendHeartbeat_eq e (c 0%nat) n W)).
  rewrite (mbind_ok _ _ _ _ _ _ (SetTimer_hb (c 1%nat) _ _)).
  rewrite (mbind_ok _ _ _ _ _ _ (SetTimer_bc (c 2%nat) _ _)).
  unfold mbind at 1, mget. cbn [seen_at with_t_bc with_t_hb with_packet_ with_nm with_rng]. change kChangeEffectInterval with 60000.
  destruct (60000 <? u32 (c 3%nat - seen_at n)); rewrite SetTimer_ce; eexists; (split; [reflexivity|]); repeat split.
Qed.

(** C33 with a moving clock.  [s] is when the node last saw the effect change;
    a <= b <= d are the real times of the three readings that matter (before any
    wrap). *)
Theorem C33_moving_clock : forall e n c s a b d, good n ->
  seen_at n = s -> c 3%nat = a -> c 4%nat = b -> c 5%nat = d ->
  0 <= s <= a -> a <= b <= d -> d + 60000 < 4294967296 ->
  exists n' out, beginMaster_clock e c n = Ok (tt, n', out) /\
    (s + 60000 < a -> t_ce n' = b + 1) /\
    (b < s + 60000 -> t_ce n' = s + 60000 + (d - b)) /\
    (a <= s + 60000 < b -> t_ce n' = s + 60000 + (d - b) /\ t_ce n' <= d) /\
    (a <= s + 60000 -> b = s + 60000 -> t_ce n' = 0).
Proof.
  intros e n c s a b d G <- <- <- <- S O W. destruct (beginMaster_clock_eq e c n (g_nm n G)) as (n' & E & _ & _ & T).
  exists n'. eexists. split; [exact E|]. unfold timer_of, u32 in T. change (2 ^ 32) with 4294967296 in T.
  destruct (60000 <? (c 3%nat - seen_at n) mod 4294967296) eqn:E1;
  destruct ((60000 - (c 4%nat - seen_at n) mod 4294967296) mod 4294967296 =? 0) eqn:E2; lia.
Qed.
Print Assumptions C33_moving_clock.

(** Finding: changes stop for a node that takes over less than a minute after the
    last change, when the clock ticks over between the two readings. *)
Theorem C33_race_stops_changes_refuted : exists e n c n' out,
  good n /\ (forall i, c i <= c (S i)) /\ (forall i, c i < seen_at n + 60000 \/ (4 <= i)%nat) /\
  beginMaster_clock e c n = Ok (tt, n', out) /\ t_ce n' = 0.
Proof.
  destruct (construct (env0 Arduino) 0 0 0 zero58 zero58) as [n| |] eqn:C; [|vm_compute in C; discriminate..].
  assert (W : wf_packet (mkPacket 0 0 0 zero58)) by (apply wf_packetb_ok; reflexivity).
  pose proof (construct_good _ _ _ _ _ _ _ W W C) as G. vm_compute in C. injection C as C.
  exists (env0 Arduino), n, (fun i => if (i <? 4)%nat then 59999 else 60000).
  destruct (C33_moving_clock (env0 Arduino) n (fun i => if (i <? 4)%nat then 59999 else 60000) 0 59999 60000 60000 G) as (n' & out & E & _ & _ & _ & T);
    try reflexivity; try lia; [subst n; reflexivity|].
  exists n', out. split; [exact G|]. split; [|split; [|split; [exact E|apply T; lia]]].
  - intros i. destruct (Nat.ltb_spec i 4), (Nat.ltb_spec (S i) 4); lia.
  - intros i. assert (S0 : seen_at n = 0) by (subst n; reflexivity). rewrite S0. destruct (Nat.ltb_spec i 4); lia.
Qed.
Print Assumptions C33_race_stops_changes_refuted.
