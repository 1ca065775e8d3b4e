(** Heartbeats and network time: C20, C21, C22, C23, C24, C25, C39. *)
From Coq Require Import ZArith Lia List Bool.
From Coq Require Import ZifyBool.
From Verif Require Import CInt CIntFacts Packet SpecPacket PacketFacts NetMgr NetHist SpecNet NetFacts Rsm RsmStep RsmEval RsmHist SpecRsm RsmFacts RsmTime RoleFacts RsmRun.
Import ListNotations.
Open Scope Z_scope.
Ltac Zify.zify_post_hook ::= Z.div_mod_to_equations.

Lemma by_site_tick e t0 h ev s : history e t0 (h ++ [ev]) -> by_site s ev -> s <> ByApi ->
  exists inc, call ev = OTick inc.
Proof.
  intros [n H] (p & I) N. apply hist_last in H as (_ & _ & _ & _ & _ & _ & S).
  destruct ev as [t o m m' out]; proj. destruct S as [inc out m' T|q R|v|v]; proj; eauto;
  try (destruct I; fail); destruct I as [I|[]]; inversion I; congruence.
Qed.

(** C20, first part: two own heartbeats of a node, ever, are more than 1000 ms
    apart. *)
Theorem C20_heartbeats_apart e t0 h1 ev1 h2 ev2 :
  history e t0 (h1 ++ ev1 :: h2 ++ [ev2]) ->
  api_ok (h1 ++ ev1 :: h2 ++ [ev2]) ->
  all_before (wrap - 7000) t0 (h1 ++ ev1 :: h2 ++ [ev2]) ->
  own_heartbeat ev1 -> own_heartbeat ev2 ->
  at_ ev1 + 1000 < at_ ev2.
Proof.
  intros HH A B B1 B2. destruct HH as [n H].
  assert (S1 : by_site ByHeartbeat ev1).
  { eapply heartbeat_site_in; eauto. apply in_or_app; right; left; reflexivity. }
  assert (S2 : by_site ByHeartbeat ev2).
  { eapply heartbeat_site_in; eauto. apply in_or_app; right; right. apply in_or_app; right; left; reflexivity. }
  replace (h1 ++ ev1 :: h2 ++ [ev2]) with ((h1 ++ ev1 :: h2) ++ [ev2]) in *
    by (rewrite <- app_assoc; reflexivity).
  pose proof (by_site_tick e t0 _ _ _ (ex_intro _ _ H) S2 ltac:(discriminate)) as [inc C].
  apply hist_last in H as (H & -> & G & O & L1 & L2 & S).
  apply all_before_last in B as [B Bt].
  pose proof (timer_inv _ _ _ _ H B) as I. pose proof (hist_t0 _ _ _ _ H) as P0.
  pose proof (tick_step _ _ _ C S) as T.
  assert (In1 : In ev1 (h1 ++ ev1 :: h2)) by (apply in_or_app; right; left; reflexivity).
  destruct S2 as (p & Ip). destruct ev2 as [t o m m' out]; proj.
  assert (K : timer_due (u32 t) (t_hb m) = true).
  { destruct T; cbn in Ip; repeat (destruct Ip as [Ip|Ip]; [try discriminate|]); try destruct Ip; auto. }
  apply timer_due_iff in K; [|apply G]. rewrite u32_id in K by (unfold wrap in *; lia).
  destruct (state m).
  - destruct I as (c & (Ca & Cb & Cc) & D). specialize (Cc ev1 In1 (or_intror (or_intror S1))). lia.
  - destruct I as (x & Ix & Bx & Tx & Ux). specialize (Ux ev1 In1 S1). lia.
Qed.
Print Assumptions C20_heartbeats_apart.

(** C20, second part: every own heartbeat carries the network time of the
    moment. *)
Theorem C20_heartbeats_carry_network_time e t0 h ev p :
  history e t0 (h ++ [ev]) -> api_ok (h ++ [ev]) ->
  originated ev p -> ptype p = 0 ->
  dlen p = 4 /\ big_endian (payload 4 p) = GetNetworkMillis (u32 (at_ ev)) (before ev) /\
  GetNetworkMillis (u32 (at_ ev)) (after ev) = GetNetworkMillis (u32 (at_ ev)) (before ev).
Proof.
  intros [n H] A (s & I) P.
  pose proof (heartbeat_site e t0 h ev (ex_intro _ _ H) A) as HS.
  apply hist_last in H as (H & -> & G & O & L1 & L2 & S).
  apply api_ok_last in A as [A Ap].
  pose proof (effect_type_inv _ _ _ _ H A) as E.
  destruct ev as [t o m m' out]; proj.
  destruct (write_heartbeat_shape (GetNetworkMillis (u32 t) m) (packet_ m)) as (A1 & A2 & _ & _ & _ & A3).
  { apply G. } { unfold GetNetworkMillis. apply u32_range. }
  destruct S as [inc out m' T|q R|v|v]; proj; try (destruct I; fail).
  - destruct T; cbn in I;
      repeat (destruct I as [I|I]; [inversion I; subst; clear I|]); try destruct I;
      proj; try (split; [exact A2|split; [exact A3|reflexivity]]);
      exfalso; cbn in P; unfold SET_EFFECT, CLAIM_MASTER in *; lia.
  - destruct I as [I|[]]. inversion I; subst. specialize (Ap q eq_refl). cbn in P. lia.
Qed.
Print Assumptions C20_heartbeats_carry_network_time.

(** C20, third part: a master whose last heartbeat is more than 1000 ms old
    sends one at the first radio tick that accepts no packet. *)
Theorem C20_heartbeat_due_is_sent e t0 h ev :
  history e t0 (h ++ [ev]) -> api_ok (h ++ [ev]) ->
  all_before (wrap - 7000) t0 (h ++ [ev]) ->
  role_before ev = Master -> packet_free ev ->
  (forall ev', In ev' h -> own_heartbeat ev' -> at_ ev' + 1000 < at_ ev) ->
  own_heartbeat ev /\ role_after ev = Master.
Proof.
  intros [n H] A B R F Q. pose proof (heartbeat_site e t0 h ev (ex_intro _ _ H) A) as HS.
  apply hist_last in H as (H & -> & G & O & L1 & L2 & S).
  apply api_ok_last in A as [A Ap].
  apply all_before_last in B as [B Bt].
  pose proof (timer_inv _ _ _ _ H B) as I. pose proof (hist_t0 _ _ _ _ H) as P0.
  apply (step_packet_free e ev S) in F as (inc & C & Hh).
  pose proof (tick_step _ _ _ C S) as T.
  unfold role_before, role_after, GetCurrentState in *. rewrite R in I.
  destruct I as (x & Ix & Bx & Tx & Ux).
  assert (K : timer_due (u32 (at_ ev)) (t_hb (before ev)) = true).
  { apply timer_due_iff; [apply G|]. rewrite u32_id by (unfold wrap in *; lia).
    pose proof (hist_at _ _ _ _ _ H Ix).
    assert (own_heartbeat x) by (eapply heartbeat_site_in; eauto).
    specialize (Q x Ix H1). lia. }
  rewrite HS. destruct ev as [t o m m' out]; proj.
  destruct T; proj; try congruence; [intuition congruence|].
  split; [|assumption]. eexists; left; reflexivity.
Qed.
Print Assumptions C20_heartbeat_due_is_sent.

Example C20_example : exists h1 ev1 h2 ev2,
  history (env0 Arduino) 0 (h1 ++ ev1 :: h2 ++ [ev2]) /\ api_ok (h1 ++ ev1 :: h2 ++ [ev2]) /\
  all_before (wrap - 7000) 0 (h1 ++ ev1 :: h2 ++ [ev2]) /\
  own_heartbeat ev1 /\ own_heartbeat ev2 /\ role_before ev2 = Master /\ packet_free ev2 /\
  (forall ev', In ev' (h1 ++ ev1 :: h2) -> own_heartbeat ev' -> at_ ev' + 1000 < at_ ev2).
Proof.
  run_as H (env0 Arduino) 0
    [(7000, OTick None); (8000, OTick None); (8001, OTick None)].
  match type of H with hist _ _ [?a; ?b; ?c] _ => exists [], a, [b], c end.
  split; [eexists; exact H|]. split; [|split; [|split; [|split; [|split; [|split]]]]].
  - intros x p I C. repeat (destruct I as [<-|I]; [discriminate C|]). destruct I.
  - split; [reflexivity|]. intros x I. repeat (destruct I as [<-|I]; [reflexivity|]). destruct I.
  - eexists. split; [eexists; left; reflexivity|reflexivity].
  - eexists. split; [eexists; left; reflexivity|reflexivity].
  - reflexivity.
  - split; [eexists; reflexivity|]. intros p [X|[]]; discriminate.
  - intros x [<-|[<-|[]]]; intros X; [reflexivity|].
    destruct X as (p & (s & []) & _).
Qed.

(** C21. *)
Theorem C21_accepted_packet_hides_timers e t0 h ev p :
  history e t0 (h ++ [ev]) -> accepted ev p ->
  (forall q, originated ev q -> role_before ev = Master /\ ptype p = 0 /\ ptype q = 1) /\
  (role_before ev = Slave -> role_after ev = Slave) /\
  (ptype p <> 0 -> ptype p <> 1 -> role_after ev = role_before ev).
Proof.
  intros [n H] Ac. apply hist_last in H as (H & -> & G & O & L1 & L2 & S).
  pose proof (proj1 (step_accepted e ev p S) Ac) as (inc & C & Hh).
  pose proof (tick_step _ _ _ C S) as T. unfold originated.
  destruct ev as [t o m m' out]; proj.
  destruct T; proj; try congruence;
    assert (Ep : p0 = p) by congruence; subst p0;
    (split; [|split]; [intros q (s & I); cbn in I;
       repeat (destruct I as [I|I]; [inversion I; subst; clear I|]); try destruct I; proj; auto
     | try congruence; auto
     | unfold HEARTBEAT, CLAIM_MASTER in *; intros; try lia; try congruence; auto ]).
Qed.
Print Assumptions C21_accepted_packet_hides_timers.

(** Any number of packets in a row, over any time: nothing of its own is sent
    and the role stays. *)
Theorem C21_traffic_starves_timers e t0 h1 ev1 h2 :
  history e t0 (h1 ++ ev1 :: h2) ->
  (forall ev, In ev (ev1 :: h2) -> exists p, accepted ev p /\ ptype p <> 0 /\ ptype p <> 1) ->
  forall ev, In ev (ev1 :: h2) -> role_after ev = role_before ev1 /\ originates_nothing ev.
Proof.
  intros HH Q.
  cut ((forall ev, In ev (ev1 :: h2) -> role_after ev = role_before ev1 /\ originates_nothing ev) /\
       forall n, hist e t0 (h1 ++ ev1 :: h2) n -> GetCurrentState n = role_before ev1); [tauto|].
  revert HH Q. induction h2 as [|x h2 IH] using rev_ind; intros HH Q.
  - assert (K : role_after ev1 = role_before ev1 /\ originates_nothing ev1).
    { destruct (Q ev1 (or_introl eq_refl)) as (p & A & N0 & N1).
      destruct (C21_accepted_packet_hides_timers e t0 h1 ev1 p HH A) as (X & Y & Z).
      split; [auto|]. intros q O. apply X in O. tauto. }
    split.
    + intros ev [<-|[]]. exact K.
    + intros n H. apply hist_last in H as (_ & -> & _). apply K.
  - assert (E : h1 ++ ev1 :: h2 ++ [x] = (h1 ++ ev1 :: h2) ++ [x]) by (rewrite <- app_assoc; reflexivity).
    rewrite E in *. pose proof HH as [n H]. pose proof (hist_last _ _ _ _ _ H) as (H' & -> & _).
    destruct IH as [IH1 IH2].
    { eexists; exact H'. }
    { intros ev I. apply Q. destruct I as [<-|I]; [left; auto|right; apply in_or_app; auto]. }
    assert (K : role_after x = role_before ev1 /\ originates_nothing x).
    { destruct (Q x) as (p & A & N0 & N1); [right; apply in_or_app; right; left; auto|].
      destruct (C21_accepted_packet_hides_timers e t0 _ x p HH A) as (X & Y & Z).
      split; [rewrite (Z N0 N1); apply (IH2 _ H')|]. intros q O. apply X in O. tauto. }
    split.
    + intros ev [<-|I]; [apply IH1; left; auto|]. apply in_app_or in I as [I|[<-|[]]]; auto.
      apply IH1; right; auto.
    + intros m Hm. apply hist_last in Hm as (_ & -> & _). apply K.
Qed.
Print Assumptions C21_traffic_starves_timers.

Lemma free_id (l : list Z) : length l = 5%nat -> exists i, 1 <= i <= 6 /\ ~ In i l.
Proof.
  intros L.
  destruct (in_dec Z.eq_dec 1 l) as [I1|]; [|exists 1; split; [lia|auto]].
  destruct (in_dec Z.eq_dec 2 l) as [I2|]; [|exists 2; split; [lia|auto]].
  destruct (in_dec Z.eq_dec 3 l) as [I3|]; [|exists 3; split; [lia|auto]].
  destruct (in_dec Z.eq_dec 4 l) as [I4|]; [|exists 4; split; [lia|auto]].
  destruct (in_dec Z.eq_dec 5 l) as [I5|]; [|exists 5; split; [lia|auto]].
  destruct (in_dec Z.eq_dec 6 l) as [I6|]; [|exists 6; split; [lia|auto]].
  exfalso. assert (X : (length [1;2;3;4;5;6]%Z <= length l)%nat).
  { apply NoDup_incl_length.
    - repeat constructor; cbn; lia.
    - intros x [<-|[<-|[<-|[<-|[<-|[<-|[]]]]]]]; auto. }
  cbn in X. lia.
Qed.

(** Such traffic exists, for any length and any spacing: a slave hearing one
    control packet every [gap] ms is slave after any number of them. *)
Theorem C21_starvation_possible e gap k : 0 <= gap ->
  exists h n, hist e 0 h n /\ length h = k /\ GetCurrentState n = Slave /\
    (forall ev, In ev h -> exists p, accepted ev p /\ ptype p = 3) /\
    (forall ev, In ev h -> at_ ev <= gap * Z.of_nat k) /\
    (k <> O -> exists ev, In ev h /\ at_ ev = gap * Z.of_nat k).
Proof.
  intros Pg. induction k as [|k (h & n & H & L & St & A & T & _)].
  - destruct (construct e (u32 0) 0 0 zero58 zero58) as [n| |] eqn:C;
      [|rewrite construct_eq in C; discriminate..].
    exists [], n. split; [|split; [reflexivity|split]].
    + econstructor; [lia| | |exact C]; apply wf_packetb_ok; vm_compute; reflexivity.
    + rewrite construct_eq in C. inversion C; reflexivity.
    + split; [intros ? []|]. split; [intros ? []|congruence].
  - pose proof (hist_good _ _ _ _ H) as G.
    destruct (free_id (last5 (all_ids h)) (last5_length _)) as (i & Ri & Ni).
    set (p := control_pkt i 0 1 2 3).
    assert (Wp : wf_packet p).
    { unfold p, control_pkt, writeControl, wf_packet; cbn [pid ptype dlen pdata].
      split; [lia|]. split; [unfold SET_CONTROL; lia|]. split; [unfold is_byte; lia|].
      split; [reflexivity|]. cbn.
      repeat (apply Forall_cons; [unfold is_byte; first [apply u8_range|lia]|]). apply Forall_nil. }
    assert (Hh : heard n (Some p) = Some p) by (apply (heard_iff _ _ _ _ _ H); exact Ni).
    set (t := gap * Z.of_nat (S k)).
    assert (E : step e (u32 t) (OTick (Some p)) n =
      Ok (tt, with_seen_at (u32 t) (with_set_effect_packet p (hear p n)), [Forwarded p])).
    { cbn [step]. rewrite (tick_heard e (u32 t) n _ p (g_nm _ G) Hh).
      unfold GetCurrentState in St. rewrite St. rewrite eval_slave_sc by auto. reflexivity. }
    assert (Tt : forall ev, In ev h -> at_ ev <= t) by (intros ev I; apply T in I; unfold t; lia).
    eexists (h ++ [mkEv t _ n _ _]), _. split; [|split; [|split; [|split; [|split]]]].
    + eapply hist_step; [exact H| |exact Tt| |exact E]; [unfold t; lia|exact Wp].
    + rewrite app_length, L. cbn. lia.
    + exact St.
    + intros ev I. apply in_app_or in I as [I|[<-|[]]]; [auto|]. exists p.
      split; [split; [reflexivity|left; reflexivity]|reflexivity].
    + intros ev I. apply in_app_or in I as [I|[<-|[]]]; [auto|]. cbn. lia.
    + intros _. eexists. split; [apply in_or_app; right; left; reflexivity|reflexivity].
Qed.
Print Assumptions C21_starvation_possible.

Example C21_example : exists h n, hist (env0 Host) 0 h n /\ length h = 10%nat /\
  GetCurrentState n = Slave /\ exists ev, In ev h /\ at_ ev = 100000.
Proof.
  destruct (C21_starvation_possible (env0 Host) 10000 10 ltac:(lia)) as (h & n & H & L & S & _ & _ & X).
  exists h, n. repeat split; auto.
Qed.

(** C22.  The number drawn in the election: [random(1, 0xFFFF)]. *)
Definition election_draw (pl : platform) (raw : N) : Z :=
  match pl with
  | Host => 1 + Z.of_N raw mod 65535
  | Arduino => 1 + Z.of_N raw mod 65534
  end.

Theorem C22_election e t0 h ev p :
  history e t0 (h ++ [ev]) -> accepted ev p -> ptype p = 0 -> role_before ev = Master ->
  let number := election_draw (plat e) (draw e (rng (before ev))) in
  (pid p < number ->
     role_after ev = Master /\
     exists q, sent ev = [Forwarded p; Own ByElection q] /\ ptype q = 1 /\ dlen q = 0) /\
  (number <= pid p -> role_after ev = Slave /\ sent ev = [Forwarded p]).
Proof.
  intros [n H] Ac P R. apply hist_last in H as (H & -> & G & O & L1 & L2 & S).
  pose proof (proj1 (step_accepted e ev p S) Ac) as (inc & C & Hh).
  pose proof (tick_step _ _ _ C S) as T.
  destruct ev as [t o m m' out]; proj. cbv zeta.
  assert (EN : election_number e m = election_draw (plat e) (draw e (rng m))).
  { unfold election_number, election_draw. destruct (plat e); cbn [random2 Z.eqb Z.leb].
    - rewrite u16_id; [reflexivity|]. pose proof (Z.mod_pos_bound (Z.of_N (draw e (rng m))) 65535 ltac:(lia)). lia.
    - reflexivity. }
  rewrite <- EN.
  unfold GetCurrentState in R.
  destruct T; proj; try congruence; assert (Ep : p0 = p) by congruence; subst p0;
    try (unfold HEARTBEAT, CLAIM_MASTER, SET_EFFECT, SET_CONTROL in *; congruence).
  - split; intros K; [|lia]. split; [exact R|]. eexists. split; [reflexivity|split; reflexivity].
  - split; intros K; [lia|]. split; reflexivity.
Qed.
Print Assumptions C22_election.

Corollary C22_election_bounds e t0 h ev p :
  history e t0 (h ++ [ev]) -> accepted ev p -> ptype p = 0 -> role_before ev = Master ->
  (pid p = 0 -> role_after ev = Master) /\
  (pid p = 65535 -> role_after ev = Slave) /\
  (plat e = Arduino -> pid p = 65534 -> role_after ev = Slave).
Proof.
  intros HH Ac P R. destruct (C22_election e t0 h ev p HH Ac P R) as [W Lo].
  pose proof (Z.mod_pos_bound (Z.of_N (draw e (rng (before ev)))) 65535 ltac:(lia)).
  pose proof (Z.mod_pos_bound (Z.of_N (draw e (rng (before ev)))) 65534 ltac:(lia)).
  unfold election_draw in *. repeat split.
  - intros Z0. apply W. destruct (plat e); lia.
  - intros Z0. apply Lo. destruct (plat e); lia.
  - intros Pl Z0. rewrite Pl in *. apply Lo. lia.
Qed.
Print Assumptions C22_election_bounds.

(** Both outcomes occur. *)
Example C22_example : forall id, id = 100 \/ id = 30000 ->
  exists h ev, history (env_const Arduino 2000) 0 (h ++ [ev]) /\
  accepted ev (heartbeat_pkt id 0) /\ role_before ev = Master /\
  role_after ev = (if id =? 100 then Master else Slave).
Proof.
  intros id [-> | ->].
  - run_as H (env_const Arduino 2000) 0 [(7000, OTick None); (7500, OTick (Some (heartbeat_pkt 100 0)))].
    match type of H with hist _ _ [?a; ?b] _ => exists [a], b end.
    split; [eexists; exact H|]. repeat split. left; reflexivity.
  - run_as H (env_const Arduino 2000) 0 [(7000, OTick None); (7500, OTick (Some (heartbeat_pkt 30000 0)))].
    match type of H with hist _ _ [?a; ?b] _ => exists [a], b end.
    split; [eexists; exact H|]. repeat split. left; reflexivity.
Qed.

(** C23. *)
Theorem C23_role_changes e t0 h ev : history e t0 (h ++ [ev]) ->
  (took_over ev -> packet_free ev) /\
  (stepped_down ev -> exists p, accepted ev p /\
      (ptype p = 1 \/
       ptype p = 0 /\ election_draw (plat e) (draw e (rng (before ev))) <= pid p)) /\
  (forall p, accepted ev p -> ptype p = 1 -> role_after ev = Slave) /\
  ((forall inc, call ev <> OTick inc) -> role_after ev = role_before ev).
Proof.
  intros HH. pose proof HH as [n H]. apply hist_last in H as (H & -> & G & O & L1 & L2 & S).
  split; [|split; [|split]].
  - intros [R1 R2]. apply (step_packet_free e ev S).
    destruct ev as [t o m m' out]; proj. destruct S as [inc out m' T|q R|v|v]; proj; try congruence.
    destruct T; proj; try congruence; eauto.
  - intros [R1 R2]. pose proof S as S0.
    assert (K : exists p, accepted ev p /\ (ptype p = 0 \/ ptype p = 1)).
    { destruct ev as [t o m m' out]; proj. destruct S as [inc out m' T|q R|v|v]; proj; try congruence.
      destruct T; proj; try congruence;
      exists p; (split; [eapply step_accepted; [exact S0|]; proj; eauto|]);
      unfold HEARTBEAT, CLAIM_MASTER in *; lia. }
    destruct K as (p & A & [P|P]); exists p; (split; [exact A|]); [|auto]. right. split; [exact P|].
    destruct (C22_election e t0 h ev p HH A P R1) as [W _].
    destruct (Z_lt_ge_dec (pid p) (election_draw (plat e) (draw e (rng (before ev))))) as [Hl|]; [|lia].
    apply W in Hl as [X _]. congruence.
  - intros p A P. pose proof (proj1 (step_accepted e ev p S) A) as (inc & C & Hh).
    pose proof (tick_step _ _ _ C S) as T.
    destruct ev as [t o m m' out]; proj.
    destruct T; proj; try congruence; assert (Ep : p0 = p) by congruence; subst p0;
    unfold HEARTBEAT, CLAIM_MASTER, SET_EFFECT, SET_CONTROL in *; congruence.
  - intros N. destruct ev as [t o m m' out]; proj.
    destruct S as [inc out m' T|q R|v|v]; proj; try reflexivity. exfalso; eapply N; eauto.
Qed.
Print Assumptions C23_role_changes.

(** A step-down by claim, and a takeover. *)
Example C23_example : exists h ev, history (env0 Arduino) 0 (h ++ [ev]) /\
  stepped_down ev /\ (exists ev', In ev' h /\ took_over ev') /\ exists p, accepted ev p /\ ptype p = 1.
Proof.
  run_as H (env0 Arduino) 0 [(7000, OTick None); (7500, OTick (Some (claim_pkt 30000)))].
  match type of H with hist _ _ [?a; ?b] _ => exists [a], b end.
  split; [eexists; exact H|]. split; [split; reflexivity|]. split.
  - eexists; split; [left; reflexivity|split; reflexivity].
  - exists (claim_pkt 30000). split; [split; [reflexivity|left; reflexivity]|reflexivity].
Qed.

(** C24. *)
Theorem C24_unknown_types_inert e t0 h ev p : history e t0 (h ++ [ev]) ->
  accepted ev p -> ptype p <> 0 -> ptype p <> 1 -> ptype p <> 2 -> ptype p <> 3 ->
  sent ev = [Forwarded p] /\
  (* nothing but the memory of ids differs *)
  with_nm (nm (before ev)) (after ev) = before ev /\
  GetCurrentState (after ev) = GetCurrentState (before ev) /\
  (forall now, GetNetworkMillis now (after ev) = GetNetworkMillis now (before ev)) /\
  GetEffectIndex (after ev) = GetEffectIndex (before ev) /\
  GetSetEffect (after ev) = GetSetEffect (before ev).
Proof.
  intros [n H] Ac N0 N1 N2 N3. apply hist_last in H as (H & -> & G & O & L1 & L2 & S).
  pose proof (proj1 (step_accepted e ev p S) Ac) as (inc & C & Hh).
  pose proof (tick_step _ _ _ C S) as T.
  destruct ev as [t o m m' out]; proj.
  destruct T; proj; try congruence; assert (Ep : p0 = p) by congruence; subst p0;
    try (unfold HEARTBEAT, CLAIM_MASTER, SET_EFFECT, SET_CONTROL in *; congruence).
  split; [reflexivity|]. split; [|repeat split; reflexivity]. destruct m; reflexivity.
Qed.
Print Assumptions C24_unknown_types_inert.

(** Such a packet is never refused because of its type: both builds handle it. *)
Theorem C24_unknown_types_never_fail e t0 h n p now : hist e t0 h n ->
  wf_packet p -> ptype p <> 0 -> ptype p <> 1 -> ptype p <> 2 -> ptype p <> 3 ->
  ~ In (pid p) (last5 (all_ids h)) ->
  exists n', RadioTick e now (Some p) n = Ok (tt, n', [Forwarded p]).
Proof.
  intros H W N0 N1 N2 N3 NI. pose proof (hist_good _ _ _ _ H) as G.
  apply (heard_iff _ _ _ _ _ H) in NI.
  rewrite (tick_heard e now n _ p (g_nm _ G) NI). rewrite eval_unknown by auto. cbn. eauto.
Qed.
Print Assumptions C24_unknown_types_never_fail.

Example C24_example : exists h ev, history (env0 Host) 0 (h ++ [ev]) /\
  exists p, accepted ev p /\ ptype p = 200 /\ dlen p = 17 /\ role_before ev = Master.
Proof.
  run_as H (env0 Host) 0 [(7000, OTick None); (7500, OTick (Some (mkPacket 9 200 17 zero58)))].
  match type of H with hist _ _ [?a; ?b] _ => exists [a], b end.
  split; [eexists; exact H|]. exists (mkPacket 9 200 17 zero58).
  repeat split. left; reflexivity.
Qed.

(** C25. *)
Theorem C25_network_time_follows_heartbeat e t0 h1 ev0 p h2 n :
  hist e t0 (h1 ++ ev0 :: h2) n ->
  role_before ev0 = Slave -> accepted ev0 p -> ptype p = 0 ->
  (forall ev q, In ev h2 -> role_before ev = Slave -> accepted ev q -> ptype q <> 0) ->
  forall t', GetNetworkMillis (u32 t') n = u32 (big_endian (payload 4 p) + (t' - at_ ev0)).
Proof.
  intros H R A P Q t'. revert n H Q.
  assert (RB : 0 <= big_endian (payload 4 p) < 4294967296 ->
    forall n0, hist e t0 (h1 ++ [ev0]) n0 ->
    millis_offset n0 = i32 (u32 (big_endian (payload 4 p) - u32 (i32 (u32 (at_ ev0)))))).
  { intros Rg n0 H. apply hist_last in H as (H & -> & G & O & L1 & L2 & S).
    pose proof (proj1 (step_accepted e ev0 p S) A) as (inc & C & Hh).
    pose proof (tick_step _ _ _ C S) as T.
    destruct ev0 as [t o m m' out]; proj. unfold GetCurrentState in R.
    destruct T; proj; try congruence; assert (Ep : p0 = p) by congruence; subst p0;
    try reflexivity; unfold HEARTBEAT, CLAIM_MASTER, SET_EFFECT, SET_CONTROL in *; congruence. }
  assert (RP : forall n, hist e t0 (h1 ++ ev0 :: h2) n -> 0 <= big_endian (payload 4 p) < 4294967296).
  { intros n H. rewrite cons_snoc in H. apply hist_prefix in H as (m & H).
    apply hist_last in H as (_ & _ & _ & O & _). destruct A as [C _]. rewrite C in O. cbn in O.
    destruct O as (_ & _ & _ & Ln & F). unfold payload.
    destruct (data4 (pdata p) ltac:(lia)) as (a & b & c & d & r & E). rewrite E in *.
    inversion F as [|? ? Fa F1]; inversion F1 as [|? ? Fb F2]; inversion F2 as [|? ? Fc F3];
    inversion F3 as [|? ? Fd _]; subst. unfold is_byte in *. cbn. lia. }
  intros n H Q. pose proof (RP n H) as Rg. specialize (RB Rg). clear RP.
  unfold GetNetworkMillis.
  enough (M : millis_offset n = i32 (u32 (big_endian (payload 4 p) - u32 (i32 (u32 (at_ ev0)))))).
  { rewrite M. apply network_time. exact Rg. }
  revert n H Q. induction h2 as [|x h2 IH] using rev_ind; intros n H Q.
  - apply RB. exact H.
  - replace (h1 ++ ev0 :: h2 ++ [x]) with ((h1 ++ ev0 :: h2) ++ [x]) in H by (rewrite <- app_assoc; reflexivity).
    apply hist_last in H as (H & -> & G & O & L1 & L2 & S).
    specialize (IH _ H ltac:(intros; eapply Q; eauto; apply in_or_app; auto)).
    destruct (offset_step e x S) as [E|(Rx & q & Aq & Pq & _)]; [congruence|].
    exfalso. eapply Q; eauto. apply in_or_app; right; left; reflexivity.
Qed.
Print Assumptions C25_network_time_follows_heartbeat.

(** A heartbeat just before both clocks wrap; read 100 ms later, after a takeover
    in between would not matter. *)
Example C25_example : exists h1 ev0 h2 n p,
  hist (env0 Arduino) 4294967000 (h1 ++ ev0 :: h2) n /\ role_before ev0 = Slave /\ accepted ev0 p /\
  ptype p = 0 /\ length h2 = 2%nat /\
  (forall ev q, In ev h2 -> role_before ev = Slave -> accepted ev q -> ptype q <> 0) /\
  GetNetworkMillis (u32 4294967396) n = 90.
Proof.
  run_as H (env0 Arduino) 4294967000
    [(4294967200, OTick (Some (heartbeat_pkt 77 4294967190))); (4294967201, OTick (Some (effect_pkt 78 3 0 1)));
     (4294967250, OTick None)].
  match type of H with hist _ _ [?a; ?b; ?c] ?n => exists [], a, [b; c], n end.
  exists (heartbeat_pkt 77 4294967190).
  split; [exact H|]. split; [reflexivity|]. split; [split; [reflexivity|left; reflexivity]|].
  split; [reflexivity|]. split; [reflexivity|]. split; [|vm_compute; reflexivity].
  intros ev q [<-|[<-|[]]] _ [C _]; inversion C. discriminate.
Qed.

(** C39. *)
Theorem C39_slaves_are_quiet e t0 h ev : history e t0 (h ++ [ev]) -> role_before ev = Slave ->
  match call ev with
  | OTick _ =>
      (sent ev = [] /\ role_after ev = Slave) \/
      (exists p, sent ev = [Forwarded p] /\ accepted ev p /\ role_after ev = Slave) \/
      (exists p, sent ev = [Own ByHeartbeat p] /\ ptype p = 0 /\ role_after ev = Master)
  | OSetEffect q => exists p, sent ev = [Own ByApi p] /\ same_content p q /\ role_after ev = Slave
  | _ => sent ev = [] /\ role_after ev = Slave
  end.
Proof.
  intros [n H] R. apply hist_last in H as (H & -> & G & O & L1 & L2 & S).
  pose proof S as S0. destruct ev as [t o m m' out]; proj. unfold GetCurrentState in R.
  destruct S as [inc out m' T|q Rd|v|v]; proj; auto.
  - pose proof T as T0. destruct T; proj; try congruence; auto;
    try (right; right; eexists; split; [reflexivity|split; [reflexivity|assumption || reflexivity]]; fail);
    right; left; exists p; (split; [reflexivity|]);
    (split; [eapply step_accepted; [exact S0|]; proj; eauto | auto]).
  - eexists. split; [reflexivity|]. split; [repeat split|exact R].
Qed.
Print Assumptions C39_slaves_are_quiet.

Example C39_example : exists h ev1 ev2 ev3,
  history (env0 Arduino) 0 (h ++ [ev1; ev2; ev3]) /\
  (exists p, sent ev1 = [Forwarded p]) /\ (exists p, sent ev2 = [Own ByApi p]) /\
  (exists p, sent ev3 = [Own ByHeartbeat p]).
Proof.
  run_as H (env0 Arduino) 0
    [(10, OTick (Some (effect_pkt 77 3 4 5))); (20, OSetEffect (effect_pkt 0 1 2 3)); (9000, OTick None)].
  match type of H with hist _ _ [?a; ?b; ?c] ?n => exists [], a, b, c end.
  split; [eexists; exact H|]. repeat split; eexists; reflexivity.
Qed.
