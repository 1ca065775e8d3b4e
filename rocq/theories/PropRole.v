(** Roles and heartbeats: C17-C25, C39. *)
From Coq Require Import ZArith Lia List Bool.
From Coq Require Import ZifyBool.
From Verif Require Import CInt CIntFacts Packet SpecPacket PacketFacts NetMgr NetHist SpecNet NetFacts Rsm RsmStep RsmEval RsmHist SpecRsm RsmFacts RsmTime RoleFacts RsmRun.
Import ListNotations.
Open Scope Z_scope.
Ltac Zify.zify_post_hook ::= Z.div_mod_to_equations.

(** Acceptance: a radio tick accepts what the radio delivers unless its id is
    among the last five ids this node transmitted. *)
Theorem C10_node_accepts_iff_not_recent e t0 h ev p :
  history e t0 (h ++ [ev]) -> call ev = OTick (Some p) ->
  accepted ev p <-> ~ In (pid p) (last5 (all_ids h)).
Proof.
  intros [n H] C. apply hist_last in H as (H & -> & G & O & L1 & L2 & S).
  rewrite (step_accepted _ _ _ S). rewrite <- (heard_iff _ _ _ _ _ H). split.
  - intros (inc & C' & Hh). rewrite C in C'. inversion C'; subst. exact Hh.
  - intros Hh. eauto.
Qed.
Print Assumptions C10_node_accepts_iff_not_recent.

(** C17. *)
Theorem C17_takeover_only_after_silence e t0 h ev :
  history e t0 (h ++ [ev]) -> all_before (wrap - 7000) t0 (h ++ [ev]) ->
  took_over ev ->
  t0 + 5000 < at_ ev /\
  forall ev', In ev' h -> contact ev' \/ stepped_down ev' -> at_ ev' + 5000 < at_ ev.
Proof.
  intros [n H] B [R1 R2]. apply hist_last in H as (H & -> & G & O & L1 & L2 & S).
  apply all_before_last in B as [B Bt].
  pose proof (timer_inv _ _ _ _ H B) as I.
  unfold role_before, role_after, GetCurrentState in *. rewrite R1 in I.
  destruct I as (c & (Ca & Cb & Cc) & D).
  assert (K : c + 5000 < at_ ev).
  { pose proof (hist_t0 _ _ _ _ H) as P0.
    destruct ev as [t o n n' out]; proj. destruct S as [inc out n' T|p R|v|v]; proj; try congruence.
    destruct T; proj; try congruence.
    match goal with X : timer_due _ (t_hb n) = true |- _ =>
      apply timer_due_iff in X; [|apply G]; rewrite u32_id in X by (unfold wrap in *; lia); lia end. }
  split; [lia|]. intros ev' I' X. assert (at_ ev' <= c) by (apply Cc; tauto). lia.
Qed.
Print Assumptions C17_takeover_only_after_silence.

Example C17_example : exists h ev,
  history (env0 Arduino) 0 (h ++ [ev]) /\ all_before (wrap - 7000) 0 (h ++ [ev]) /\
  took_over ev /\ at_ ev = 6100 /\ exists ev', In ev' h /\ contact ev'.
Proof.
  run_as H (env0 Arduino) 0 [(10, OTick (Some (heartbeat_pkt 77 1000))); (6100, OTick None)].
  match type of H with hist _ _ [?a; ?b] _ => exists [a], b end.
  split; [eexists; exact H|]. split.
  - split; [reflexivity|]. intros x [<-|[<-|[]]]; reflexivity.
  - split; [split; reflexivity|]. split; [reflexivity|].
    eexists. split; [left; reflexivity|]. exists (heartbeat_pkt 77 1000).
    split; [split; [reflexivity|left; reflexivity]|left; reflexivity].
Qed.

(** C18. *)
Theorem C18_silent_network_gets_a_master e t0 h ev :
  history e t0 (h ++ [ev]) -> all_before (wrap - 7000) t0 (h ++ [ev]) ->
  role_before ev = Slave -> packet_free ev ->
  t0 + 6999 < at_ ev ->
  (forall ev', In ev' h -> contact ev' \/ stepped_down ev' -> at_ ev' + 6999 < at_ ev) ->
  role_after ev = Master /\
  exists p, sent ev = [Own ByHeartbeat p] /\ ptype p = 0 /\ dlen p = 4 /\
            big_endian (payload 4 p) = GetNetworkMillis (u32 (at_ ev)) (before ev).
Proof.
  intros [n H] B R1 F Q0 Q. apply hist_last in H as (H & -> & G & O & L1 & L2 & S).
  apply all_before_last in B as [B Bt].
  pose proof (timer_inv _ _ _ _ H B) as I.
  apply (step_packet_free e ev S) in F as (inc & C & Hh).
  pose proof (tick_step _ _ _ C S) as T.
  unfold role_before, role_after, GetCurrentState in *. rewrite R1 in I.
  destruct I as (c & (Ca & Cb & Cc) & D). pose proof (hist_t0 _ _ _ _ H) as P0.
  assert (K : timer_due (u32 (at_ ev)) (t_hb (before ev)) = true).
  { apply timer_due_iff; [apply G|]. rewrite u32_id by (unfold wrap in *; lia).
    destruct Ca as [->|(ev' & I' & <- & X)]; [lia|]. specialize (Q ev' I' X). lia. }
  assert (HB : exists p, sent ev = [Own ByHeartbeat p] /\ ptype p = 0 /\ dlen p = 4 /\
            big_endian (payload 4 p) = GetNetworkMillis (u32 (at_ ev)) (before ev) \/ state (after ev) <> Master).
  { exists (hb_packet e (u32 (at_ ev)) (before ev)). destruct (state (after ev)) eqn:E; [right; discriminate|left].
    destruct ev as [t o m m' out]; proj. destruct T; proj; try congruence.
    destruct (write_heartbeat_shape (GetNetworkMillis (u32 t) m) (packet_ m)) as (A1 & A2 & _ & _ & _ & A3).
    - apply G.
    - unfold GetNetworkMillis. apply u32_range.
    - auto. }
  assert (Em : state (after ev) = Master).
  { destruct ev as [t o m m' out]; proj. destruct T; proj; try congruence; intuition congruence. }
  split; [exact Em|]. destruct HB as (p & [X|X]); [|congruence]. exists p. exact X.
Qed.
Print Assumptions C18_silent_network_gets_a_master.

Example C18_example : exists h ev,
  history (env0 Host) 0 (h ++ [ev]) /\ all_before (wrap - 7000) 0 (h ++ [ev]) /\
  role_before ev = Slave /\ packet_free ev /\ 0 + 6999 < at_ ev /\
  (forall ev', In ev' h -> contact ev' \/ stepped_down ev' -> at_ ev' + 6999 < at_ ev).
Proof.
  run_as H (env0 Host) 0 [(10, OTick (Some (heartbeat_pkt 77 1000))); (7500, OTick None)].
  match type of H with hist _ _ [?a; ?b] _ => exists [a], b end.
  split; [eexists; exact H|]. split; [|split; [reflexivity|split; [|split; [reflexivity|]]]].
  - split; [reflexivity|]. intros x [<-|[<-|[]]]; reflexivity.
  - split; [eexists; reflexivity|]. intros p [X|[]]; discriminate.
  - intros x [<-|[]] _. reflexivity.
Qed.

(** C19. *)
Theorem C19_slave_with_contact_stays_slave e t0 h :
  history e t0 h -> all_before (wrap - 7000) t0 h ->
  (forall h1 ev h2, h = h1 ++ ev :: h2 ->
     at_ ev <= t0 + 5000 \/ exists ev', In ev' h1 /\ contact ev' /\ at_ ev <= at_ ev' + 5000) ->
  forall ev, In ev h -> role_after ev = Slave.
Proof.
  intros HH B Q.
  cut ((forall ev, In ev h -> role_after ev = Slave) /\ (forall m, hist e t0 h m -> state m = Slave)); [tauto|].
  revert HH B Q. induction h as [|x h IH] using rev_ind; intros [n H] B Q.
  - split; [intros ? []|]. intros m Hm. inversion Hm as [? ? ? ? ? ? ? ? Hc|]; [|destruct h; discriminate].
    rewrite construct_eq in Hc. inversion Hc; reflexivity.
  - pose proof (all_before_last _ _ _ _ B) as [B' _].
    pose proof (hist_last _ _ _ _ _ H) as (H' & -> & _).
    destruct (IH (ex_intro _ _ H') B') as [IH1 IH2].
    { intros h1 y h2 E. apply (Q h1 y (h2 ++ [x])). rewrite E, <- app_assoc. reflexivity. }
    assert (X : role_after x = Slave).
    { destruct (role_after x) eqn:R; [reflexivity|exfalso].
      assert (TO : took_over x) by (split; [apply (IH2 _ H')|exact R]).
      destruct (C17_takeover_only_after_silence e t0 h x (ex_intro _ _ H) B TO) as [A1 A2].
      destruct (Q h x []) as [?|(y & I & C & L)]; [reflexivity|lia|].
      specialize (A2 y I (or_introl C)). lia. }
    split.
    * intros ev I. apply in_app_or in I as [I|[<-|[]]]; auto.
    * intros m Hm. apply hist_last in Hm as (_ & -> & _). exact X.
Qed.
Print Assumptions C19_slave_with_contact_stays_slave.

(** Signs of life at 4, 8 and 13 s, ticks in between up to exactly 5000 ms later. *)
Example C19_example : exists h,
  history (env0 Arduino) 0 h /\ all_before (wrap - 7000) 0 h /\ length h = 6%nat /\
  (forall h1 ev h2, h = h1 ++ ev :: h2 ->
     at_ ev <= 0 + 5000 \/ exists ev', In ev' h1 /\ contact ev' /\ at_ ev <= at_ ev' + 5000).
Proof.
  run_as H (env0 Arduino) 0
    [(4000, OTick (Some (heartbeat_pkt 70 1000))); (6000, OTick None);
     (8000, OTick (Some (claim_pkt 71))); (12500, OTick None);
     (13000, OTick (Some (heartbeat_pkt 72 1000))); (18000, OTick None)].
  match type of H with hist _ _ ?h _ => exists h end.
  split; [eexists; exact H|]. split; [|split; [reflexivity|]].
  - split; [reflexivity|]. cbn [In]. intros x I.
    repeat (destruct I as [<-|I]; [reflexivity|]). destruct I.
  - clear H. intros h1 ev h2 E.
    destruct h1 as [|x1 h1]; [left; inversion E; cbn; lia|]. inversion E as [[Ex1 E1]]. clear E. right.
    destruct h1 as [|x2 h1].
    { inversion E1. eexists; split; [left; reflexivity|]. split; [|cbn; lia].
      exists (heartbeat_pkt 70 1000). split; [split; [reflexivity|left; reflexivity]|left; reflexivity]. }
    inversion E1 as [[Ex2 E2]]. clear E1.
    destruct h1 as [|x3 h1].
    { inversion E2. eexists; split; [left; reflexivity|]. split; [|cbn; lia].
      exists (heartbeat_pkt 70 1000). split; [split; [reflexivity|left; reflexivity]|left; reflexivity]. }
    inversion E2 as [[Ex3 E3]]. clear E2.
    destruct h1 as [|x4 h1].
    { inversion E3. eexists; split; [right; right; left; reflexivity|]. split; [|cbn; lia].
      exists (claim_pkt 71). split; [split; [reflexivity|left; reflexivity]|right; reflexivity]. }
    inversion E3 as [[Ex4 E4]]. clear E3.
    destruct h1 as [|x5 h1].
    { inversion E4. eexists; split; [right; right; left; reflexivity|]. split; [|cbn; lia].
      exists (claim_pkt 71). split; [split; [reflexivity|left; reflexivity]|right; reflexivity]. }
    inversion E4 as [[Ex5 E5]]. clear E4.
    destruct h1 as [|x6 h1].
    { inversion E5. eexists; split; [right; right; right; right; left; reflexivity|]. split; [|cbn; lia].
      exists (heartbeat_pkt 72 1000). split; [split; [reflexivity|left; reflexivity]|left; reflexivity]. }
    inversion E5 as [[Ex6 E6]]. destruct h1; discriminate.
Qed.
