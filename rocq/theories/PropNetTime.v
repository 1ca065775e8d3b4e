(** Network time in a network of any number of nodes: C26. *)
From Coq Require Import ZArith Lia List Bool.
From Coq Require Import ZifyBool.
From Verif Require Import CInt CIntFacts Packet SpecPacket PacketFacts NetMgr NetHist SpecNet NetFacts Rsm RsmStep RsmEval RsmHist SpecRsm RsmFacts RsmTime RoleFacts RsmRun PropHeartbeat.
Import ListNotations.
Open Scope Z_scope.
Ltac Zify.zify_post_hook ::= Z.div_mod_to_equations.

(** A network: the nodes are numbered; each has its own random source and build
    (n_env), its own clock (local time = global time + n_off) and its own past
    (n_past). *)
Record network := mkNetwork {
  n_env : nat -> env;
  n_start : nat -> Z;
  n_off : nat -> Z;
  n_past : nat -> list event
}.

(** A run of the network: calls at nodes, in the order they happen. *)
Definition run := list (nat * event).
Definition calls_at (i : nat) (tr : run) : list event :=
  map snd (filter (fun x => Nat.eqb (fst x) i) tr).
Definition global (w : network) (i : nat) (ev : event) : Z := at_ ev - n_off w i.

Definition is_run (w : network) (tr : run) : Prop :=
  forall i, history (n_env w i) (n_start w i) (n_past w i ++ calls_at i tr) /\
            api_ok (n_past w i ++ calls_at i tr).

(** Every heartbeat accepted in the run was transmitted (originated or relayed)
    by some node earlier in the run, at the same global time. *)
Definition no_latency (w : network) (tr : run) : Prop :=
  forall a i ev b p, tr = a ++ (i, ev) :: b -> accepted ev p -> ptype p = 0 ->
    exists j ev' x, In (j, ev') a /\ global w j ev' = global w i ev /\
      In x (sent ev') /\ ptype (rtx_packet x) = 0 /\ pdata (rtx_packet x) = pdata p.

(** All nodes show network time T + c at global time T. *)
Definition agree (w : network) (tr : run) (c : Z) : Prop :=
  forall i n, hist (n_env w i) (n_start w i) (n_past w i ++ calls_at i tr) n ->
    forall T, GetNetworkMillis (u32 (T + n_off w i)) n = u32 (T + c).

Lemma calls_at_app i a b : calls_at i (a ++ b) = calls_at i a ++ calls_at i b.
Proof. unfold calls_at. rewrite filter_app, map_app. reflexivity. Qed.

Lemma forwarded_accepted e ev p : stepR e (u32 (at_ ev)) (before ev) (call ev) (sent ev) (after ev) ->
  In (Forwarded p) (sent ev) -> accepted ev p.
Proof.
  intros S I. destruct ev as [t o m m' out]; proj. unfold accepted; proj. split; [|exact I].
  destruct S as [inc out m' T|q R|v|v]; proj; cbn in I; try tauto; try (destruct I as [I|[]]; discriminate I).
  assert (heard m inc = Some p).
  { destruct T; cbn in I; repeat (destruct I as [I|I]; [try discriminate I; inversion I; subst|]); try destruct I; auto. }
  rewrite (heard_some _ _ _ H). reflexivity.
Qed.

Theorem C26_nodes_agree_for_ever w tr c :
  is_run w tr -> no_latency w tr -> agree w [] c -> agree w tr c.
Proof.
  intros R L A.
  assert (X : forall tr rest, is_run w (tr ++ rest) -> no_latency w (tr ++ rest) ->
    agree w tr c /\
    forall j ev x, In (j, ev) tr -> In x (sent ev) -> ptype (rtx_packet x) = 0 ->
      big_endian (payload 4 (rtx_packet x)) = u32 (global w j ev + c)).
  { clear R L tr. intros tr. induction tr as [|[i ev] tr IH] using rev_ind; intros rest R L.
    - split; [exact A|]. intros ? ? ? [].
    - rewrite <- app_assoc in R, L. destruct (IH _ R L) as [I1 I2].
      (* the history of node i up to this call *)
      assert (Hi : exists n, hist (n_env w i) (n_start w i) ((n_past w i ++ calls_at i tr) ++ [ev]) n /\
                             api_ok ((n_past w i ++ calls_at i tr) ++ [ev])).
      { destruct (R i) as [[n H] Ap]. rewrite calls_at_app in H, Ap.
        unfold calls_at at 2 in H. unfold calls_at at 2 in Ap. cbn in H, Ap. rewrite PeanoNat.Nat.eqb_refl in H, Ap. cbn in H, Ap.
        rewrite app_assoc, cons_snoc in H. rewrite app_assoc, cons_snoc in Ap.
        apply hist_prefix in H as [n1 H]. exists n1. split; [exact H|].
        intros x q I. apply Ap. apply in_or_app; left; exact I. }
      destruct Hi as (n & H & Ap). pose proof H as H'.
      apply hist_last in H as (H & En & G & O & L1 & L2 & S).
      assert (Del : forall p, accepted ev p -> ptype p = 0 -> big_endian (payload 4 p) = u32 (global w i ev + c)).
      { intros p Ac P. destruct (L tr i ev rest p eq_refl Ac P) as (j & ev' & x & J1 & J2 & J3 & J4 & J5).
        rewrite <- J2. rewrite <- (I2 j ev' x J1 J3 J4). unfold payload. rewrite J5. reflexivity. }
      assert (Bef : forall T, GetNetworkMillis (u32 (T + n_off w i)) (before ev) = u32 (T + c)) by (apply I1; exact H).
      split.
      + intros k m Hk T. rewrite calls_at_app in Hk.
        destruct (PeanoNat.Nat.eq_dec k i) as [->|Nk].
        * unfold calls_at at 2 in Hk. cbn in Hk. rewrite PeanoNat.Nat.eqb_refl in Hk. cbn in Hk.
          rewrite app_assoc in Hk. apply hist_last in Hk as (_ & -> & _).
          destruct (offset_step _ _ S) as [E|(Rs & p & Ac & P & E)].
          -- unfold GetNetworkMillis. rewrite E. apply Bef.
          -- unfold GetNetworkMillis. rewrite E. rewrite (Del p Ac P).
             rewrite network_time by apply u32_range. unfold global, u32.
             rewrite Zplus_mod_idemp_l. f_equal. lia.
        * unfold calls_at at 2 in Hk. cbn in Hk.
          destruct (Nat.eqb i k) eqn:Ek; [apply PeanoNat.Nat.eqb_eq in Ek; congruence|]. cbn in Hk. rewrite app_nil_r in Hk.
          apply (I1 k m Hk).
      + intros j ev0 x I Ix P. apply in_app_or in I as [I|[I|[]]]; [eauto|]. inversion I; subst j ev0; clear I.
        destruct x as [p|s p]; cbn [rtx_packet] in *.
        * apply Del; [|exact P]. eapply forwarded_accepted; eauto.
        * destruct (C20_heartbeats_carry_network_time _ _ _ _ p (ex_intro _ _ H') Ap (ex_intro _ s Ix) P) as (_ & E & _).
          rewrite E. replace (at_ ev) with (global w i ev + n_off w i) by (unfold global; lia). apply Bef. }
  apply (X tr []); rewrite app_nil_r; auto.
Qed.
Print Assumptions C26_nodes_agree_for_ever.

(** A slave that accepts a heartbeat L ms after it was originated then shows the
    originator's network time minus L (zero latency: exactly the originator's
    time), at every global time T from then on until either changes. *)
Theorem C26_lag_is_latency es t0s hs evs er t0r hr evr p q offs offr L :
  history es t0s (hs ++ [evs]) -> api_ok (hs ++ [evs]) ->
  history er t0r (hr ++ [evr]) ->
  originated evs p -> ptype p = 0 ->
  role_before evr = Slave -> accepted evr q -> ptype q = 0 -> pdata q = pdata p ->
  at_ evr - offr = at_ evs - offs + L ->
  forall T, GetNetworkMillis (u32 (T + offr)) (after evr) =
            u32 (GetNetworkMillis (u32 (T + offs)) (after evs) - L).
Proof.
  intros Hs As Hr Op P R Ac Q Eq D T.
  destruct (C20_heartbeats_carry_network_time _ _ _ _ p Hs As Op P) as (_ & E1 & E2).
  destruct Hr as [n Hr]. pose proof Hr as Hr0. apply hist_last in Hr0 as (_ & -> & _).
  rewrite (C25_network_time_follows_heartbeat er t0r hr evr q [] _ Hr R Ac Q) by (intros ? ? []).
  assert (E3 : payload 4 q = payload 4 p) by (unfold payload; rewrite Eq; reflexivity).
  rewrite E3, E1, <- E2. unfold GetNetworkMillis, u32.
  set (o := millis_offset (after evs) mod 4294967296). lia.
Qed.
Print Assumptions C26_lag_is_latency.

(** Non-vacuous: node 0 (clock 0) and all others (clock 500 ms ahead, but
    already in agreement); node 0 becomes master and its heartbeat reaches node 1
    at once. *)
Definition C26_hb : packet := heartbeat_pkt 24 9000.

Example C26_example : exists w tr c, is_run w tr /\ no_latency w tr /\ agree w [] c /\
  n_off w 0%nat = 0 /\ n_off w 1%nat = 500 /\
  exists ev0 ev1 p, tr = [(0%nat, ev0); (1%nat, ev1)] /\ took_over ev0 /\ accepted ev1 p /\ ptype p = 0.
Proof.
  run_as H0 (env0 Arduino) 0 [(9000, OTick None)].
  run_as H1 (env0 Arduino) 0 [(4500, OTick (Some (heartbeat_pkt 99 4000))); (9500, OTick (Some C26_hb))].
  match type of H0 with hist _ _ [?a] _ =>
  match type of H1 with hist _ _ [?b; ?c] _ =>
    exists (mkNetwork (fun _ => env0 Arduino) (fun _ => 0) (fun i => match i with O => 0 | _ => 500 end)
                      (fun i => match i with O => [] | _ => [b] end)), [(0%nat, a); (1%nat, c)], 0
  end end.
  split; [|split; [|split; [|split; [reflexivity|split; [reflexivity|]]]]].
  - intros [|[|i]]; cbn.
    + split; [eexists; exact H0|]. intros x p [<-|[]] C; discriminate C.
    + split; [eexists; exact H1|]. intros x p I C. repeat (destruct I as [<-|I]; [discriminate C|]). destruct I.
    + split; [|intros x p I C; repeat (destruct I as [<-|I]; [discriminate C|]); destruct I].
      match type of H1 with hist _ _ [?b; ?c] _ => change [b; c] with ([b] ++ [c]) in H1 end.
      apply hist_prefix in H1. exact H1.
  - intros a i ev b p E Ac P.
    destruct a as [|x [|y a]]; inversion E; subst.
    + destruct Ac as [C _]. discriminate C.
    + eexists 0%nat, _, _. split; [left; reflexivity|]. split; [reflexivity|].
      split; [left; reflexivity|]. split; [reflexivity|]. destruct Ac as [C _]. inversion C; subst. reflexivity.
    + destruct a; discriminate.
  - intros [|i] n H T.
    + cbn in H. inversion H as [? ? ? ? ? P W1 W2 C|]; [|destruct h; discriminate].
      rewrite construct_eq in C. inversion C; subst. unfold GetNetworkMillis. cbn [n_off millis_offset].
      unfold u32. change (0 mod 4294967296) with 0. rewrite Z.add_0_r, Zmod_mod. reflexivity.
    + cbn in H. match type of H with hist _ _ [?b] _ => change [b] with ([] ++ [b]) in H end.
      apply hist_last in H as (_ & -> & _). unfold GetNetworkMillis. cbn [n_off after millis_offset].
      unfold u32. change (-500 mod 4294967296) with 4294966796. lia.
  - eexists _, _, C26_hb. split; [reflexivity|]. split; [split; reflexivity|].
    split; [split; [reflexivity|left; reflexivity]|reflexivity].
Qed.

(** Latency 3 ms. *)
Example C26_lag_example : exists hs evs hr evr p q,
  history (env0 Arduino) 0 (hs ++ [evs]) /\ history (env0 Arduino) 0 (hr ++ [evr]) /\
  api_ok (hs ++ [evs]) /\ originated evs p /\ ptype p = 0 /\
  role_before evr = Slave /\ accepted evr q /\ ptype q = 0 /\ pdata q = pdata p /\
  at_ evr - 500 = at_ evs - 0 + 3 /\ GetNetworkMillis (u32 9503) (after evr) = 9000.
Proof.
  run_as H0 (env0 Arduino) 0 [(9000, OTick None)].
  run_as H1 (env0 Arduino) 0 [(4500, OTick (Some (heartbeat_pkt 99 4000))); (9503, OTick (Some C26_hb))].
  match type of H0 with hist _ _ [?a] _ =>
  match type of H1 with hist _ _ [?b; ?c] _ => exists [], a, [b], c end end.
  eexists _, C26_hb. split; [eexists; exact H0|]. split; [eexists; exact H1|].
  split; [intros x p [<-|[]] C; discriminate C|].
  split; [eexists; left; reflexivity|]. split; [reflexivity|]. split; [reflexivity|].
  split; [split; [reflexivity|left; reflexivity]|]. repeat split.
Qed.
