(** C135, continued: which effects the masters of the simulated network choose,
    and when the integration test of the effect index passes.
    Model: FakeNet.v. *)
From Coq Require Import ZArith NArith Lia List Bool.
From Coq Require Import ZifyBool.
From Verif Require Import CInt CIntFacts Packet SpecPacket PacketFacts NetMgr NetHist SpecNet NetFacts Rsm RsmStep RsmEval RsmRun RsmHist SpecRsm RsmFacts RsmTime RoleFacts EffectFacts PropEffect.
From Verif Require Import Fastled Palette Device LedMgr Effects Show ShowFacts Bench FakeNet FakeNetFacts SimFacts PropFakeNet PropSim PropFailSim AgreeFacts AgreeRun PaceRun PropAgree Timetable PropTimes Lull Visits PropComeGo SpreadRun PropSpread.
Import ListNotations.
Open Scope Z_scope.
Ltac Zify.zify_post_hook ::= Z.div_mod_to_equations.

(** ** Where the effects come from *)
(** The packet announces an effect and a palette by two successive random
    numbers of the machine named [name], not the very first of it. *)
Definition drawn_choice (s : source) (name : nat) (p : packet) : Prop :=
  exists r, (1 <= r)%nat /\ ptype p = 2 /\ dlen p = 3 /\
    payload 3 p = [Z.of_N (s_draw s name r) mod 27; 0; Z.of_N (s_draw s name (S r)) mod 22].

Definition stocked (n : node) : Prop := num_effects n = 27 /\ num_palettes n = 22 /\ (1 <= rng n)%nat.
Definition choices_drawn (s : source) (x : nat * event) : Prop :=
  forall p, In (Own ByChange p) (sent (snd x)) -> drawn_choice s (fst x) p.

Lemma first_three d : length d = 58%nat -> firstn 3 d = [nth 0 d 0; nth 1 d 0; nth 2 d 0].
Proof. destruct d as [|a [|b [|c d]]]; try discriminate. reflexivity. Qed.
Lemma pick_packet_long e n : good n -> length (pdata (pick_packet e n)) = 58%nat.
Proof.
  intros G. pose proof (proj1 (proj2 (proj2 (proj2 (g_pk _ G))))) as L.
  unfold pick_packet, writeSetEffect. proj. destruct (pdata (packet_ n)) as [|a [|b [|c l]]]; try discriminate. exact L.
Qed.

Lemma tick_stocked s k now n inc out n' : good n -> stocked n -> tick (env_of s k) now n inc out n' ->
  stocked n' /\ forall p, In (Own ByChange p) out -> drawn_choice s k p.
Proof.
  intros G (E1 & E2 & E3) T. split.
  - unfold stocked. destruct T; proj; rewrite ?E1, ?E2; repeat split; lia.
  - intros p I. destruct T; own_in I. exists (rng n). split; [exact E3|].
    destruct (pick_packet_bytes (env_of s k) n G) as (Y0 & Y1 & Y2).
    pose proof (Z.mod_pos_bound (Z.of_N (s_draw s k (rng n))) 27 ltac:(lia)). pose proof (Z.mod_pos_bound (Z.of_N (s_draw s k (S (rng n)))) 22 ltac:(lia)).
    assert (P1 : pick_effect (env_of s k) n = Z.of_N (s_draw s k (rng n)) mod 27).
    { unfold pick_effect, picked, random2. rewrite E1. cbn [plat draw env_of Z.eqb]. rewrite u16_id; lia. }
    assert (P2 : pick_palette (env_of s k) n = Z.of_N (s_draw s k (S (rng n))) mod 22).
    { unfold pick_palette, picked, random2. rewrite E2. cbn [plat draw env_of Z.eqb]. rewrite u16_id; lia. }
    rewrite P1, u8_id in Y0 by lia. rewrite P2, u8_id in Y2 by lia.
    split; [reflexivity|]. split; [reflexivity|].
    unfold payload, set_id; proj. rewrite first_three by (apply pick_packet_long; exact G). rewrite Y0, Y1, Y2. reflexivity.
Qed.

Lemma machine_stocked s k t tw inc n n' evs : nodeok n -> inc_sound inc -> stocked n -> machine (env_of s k) t tw inc n = Ok (n', evs) ->
  stocked n' /\ Forall (choices_drawn s) (map (pair k) evs).
Proof.
  intros K I St. unfold machine. assert (U : 0 <= u32 t < 4294967296) by (unfold u32; lia).
  destruct (nodeok_runs (env_of s k) (u32 t) n inc eq_refl K I U) as (n1 & o1 & E1 & T1). rewrite E1.
  destruct (tick_stocked s k _ n inc o1 n1 (proj1 K) St T1) as [St1 Ch1].
  destruct tw.
  - assert (K1 : nodeok n1) by exact (proj1 (tick_nodeok _ _ _ _ _ _ K I U T1)).
    destruct (nodeok_runs (env_of s k) (u32 t) n1 inc eq_refl K1 I U) as (n2 & o2 & E2 & T2). rewrite E2. intros [= <- <-].
    destruct (tick_stocked s k _ n1 inc o2 n2 (proj1 K1) St1 T2) as [St2 Ch2].
    split; [exact St2|]. repeat constructor; assumption.
  - intros [= <- <-]. split; [exact St1|]. repeat constructor. exact Ch1.
Qed.

Definition supplied (s : source) (N : nat) (w : fakenet) : Prop :=
  (forall i, (i < N)%nat -> stocked (f_node w i)) /\ Forall (choices_drawn s) (f_log w).

Lemma powered_stocked s k t : stocked (powered s k t).
Proof. unfold stocked, powered, bare. destruct (s_junk s k) as [[[ty1 ty2] d1] d2]. cbn. auto. Qed.

Lemma fstep_supplied s N o w w' : junk_ok s -> ok N w -> traced s N w -> fop_ok N o -> fstep s N o w = Ok w' -> supplied s N w -> supplied s N w'.
Proof.
  intros J K T O E [A B]. destruct o as [d| |i|n|p]; cbn [fstep fop_ok] in *.
  - injection E as <-. split; [exact A|exact B].
  - destruct (FakeTick_ok s N w K) as (evs & w1 & E1 & K' & Tk & Lg & _). rewrite E in E1. injection E1 as <-.
    assert (M : forall i, (i < N)%nat -> stocked (f_node w' i) /\ Forall (choices_drawn s) (map (pair (f_name w i)) (evs i))).
    { intros i Hi. destruct (Tk i Hi) as [Tk1 _].
      exact (machine_stocked s _ _ _ _ _ _ _ (k_nodes _ _ K i Hi) (receives_sound s N w i K) (A i Hi) Tk1). }
    split; [intros i Hi; apply M; exact Hi|]. rewrite Lg. apply Forall_app. split; [exact B|].
    apply Forall_forall. intros x I. apply in_flat_map in I as (i & Ii & Ix). apply in_seq in Ii. exact (proj1 (Forall_forall _ _) (proj2 (M i ltac:(lia))) x Ix).
  - pose proof K as [Me KN KC].
    destruct (new_node_ok s N w i J Me O (fun j Hj _ => KN j Hj) KC) as (w1 & E1 & _ & Nd & _ & _ & _ & Lg & _). 
    unfold reinitNode in E. rewrite E in E1. injection E1 as <-. split.
    + intros j Hj. rewrite Nd. unfold upd. destruct (Nat.eqb_spec j i); [apply powered_stocked|apply A; exact Hj].
    + rewrite Lg. apply Forall_app. split; [exact B|]. unfold birth. cbn [map]. repeat constructor; intros p [].
  - injection E as <-. split; [exact A|exact B].
  - destruct (TransmitPacket_ok s N p w K T O) as (w1 & E1 & _ & _ & Nd & _ & _ & _ & _ & Lg & _). rewrite E in E1. injection E1 as <-. split.
    + intros j Hj. rewrite (proj1 (Nd j Hj)). apply A. exact Hj.
    + rewrite Lg. exact B.
Qed.

Lemma fsteps_supplied s N os : junk_ok s -> Forall (fop_ok N) os -> forall w w', ok N w -> traced s N w -> fsteps s N os w = Ok w' -> supplied s N w -> supplied s N w'.
Proof.
  intros J F. induction F as [|o os O F IH]; intros w w' K T E Su; [cbn in E; injection E as <-; exact Su|].
  cbn [fsteps] in E. destruct (fstep_ok s N o w J K T O) as (w1 & E1 & K1 & T1). rewrite E1 in E. cbn [obind] in E.
  exact (IH w1 w' K1 T1 E (fstep_supplied s N o w w1 J K T O E1 Su)).
Qed.

(** Whatever a test does to a simulated network (restarting nodes, losing
    packets, transmitting its own): every effect a node chooses itself is the
    remainder by 27 of a random number it drew, the palette that by 22 of the
    next number, and the hold time 0.  So effects 27 and above are never chosen,
    and effect 0 and effect 1 are as good as any other. *)
Theorem C135_every_choice_is_drawn : forall s N os w k ev p,
  simulated s N os w -> In ev (calls_of k (f_log w)) -> In (Own ByChange p) (sent ev) -> drawn_choice s k p.
Proof.
  intros s N os w k ev p (J & B & F & E) I Ip. unfold frun in E.
  destruct (FakeNetwork_ok s N J B) as (w0 & E0 & K & T & _ & _ & _ & _ & _ & Nd & Qu). rewrite E0 in E. cbn [obind] in E.
  assert (Su : supplied s N w).
  { apply (fsteps_supplied s N os J F w0 w K T E). split.
    - intros i Hi. rewrite (proj1 (Nd i Hi)). apply powered_stocked.
    - eapply Forall_impl; [|exact Qu]. cbn beta. intros x Q q Iq. rewrite Q in Iq. destruct Iq. }
  apply calls_of_in in I. exact (proj1 (Forall_forall _ _) (proj2 Su) (k, ev) I p Ip).
Qed.
Print Assumptions C135_every_choice_is_drawn.

(** ** The integration test of the effect index *)
Definition all_show (N : nat) (v : Z) (w : fakenet) : bool := forallb (fun i => GetEffectIndex (f_node w i) =? v) (seq 0 N).
(** RadioStateIntegrationTest.cpp lines 180-198, setEffectIndex, with the number
    of rounds of line 190 as a parameter: one round, everybody shows 0 (lines
    182-185), [rounds] more, then node 0 does not show 1 (line 193) and everybody
    shows what node 0 shows (lines 194-197).  5 is kNumNodes
    (FakeNetwork.hpp line 36).  Expectations are collected, not printed. *)
Definition set_effect_test (s : source) (rounds : nat) : outcome bool :=
  w0 <- frun s 5 (runTicks 1) ;;
  w <- fsteps s 5 (runTicks rounds) w0 ;;
  Ok (all_show 5 0 w0 && negb (GetEffectIndex (f_node w 0) =? 1) && all_show 5 (GetEffectIndex (f_node w 0)) w).
(** RadioStateIntegrationTest.cpp line 190: kChangeEffectInterval * 3 rounds. *)
Definition setEffectIndex (s : source) : outcome bool := set_effect_test s (Z.to_nat 180000).

Lemma all_show_true N v w : all_show N v w = true <-> forall i, (i < N)%nat -> GetEffectIndex (f_node w i) = v.
Proof.
  unfold all_show. rewrite forallb_forall. split.
  - intros H i Hi. specialize (H i ltac:(apply in_seq; lia)). lia.
  - intros H i I. apply in_seq in I. rewrite (H i ltac:(lia)). apply Z.eqb_refl.
Qed.

Lemma first_round s N m w0 : simulated s N (runTicks 1) w0 -> (N <= 900)%nat -> (m < N)%nat ->
  (forall i, (i < N)%nat -> i <> m -> waits_until s m < waits_until s i) ->
  Z.of_nat N + 1 <= waits_until s m -> forall i, (i < N)%nat -> GetEffectIndex (f_node w0 i) = 0.
Proof.
  intros (J & B & _ & E) Sm Hm First Le i Hi. rewrite !waits_wait in *. unfold frun in E. destruct (FakeNetwork s N) as [w| |] eqn:E0; try discriminate. cbn [obind] in E.
  destruct (calm_start s N w J B E0) as [C Ck]. destruct (FakeNetwork_ok s N J B) as (w' & E' & _ & _ & _ & _ & _ & _ & _ & Nd & _). rewrite E0 in E'. injection E' as <-.
  rewrite one_round in E.
  assert (Wi : wait s m <= wait s i) by (destruct (Nat.eq_dec i m) as [->|Ne]; [lia|]; specialize (First i Hi Ne); rewrite !waits_wait in First; lia).
  destruct (calm_same s (fun i => i) (fun _ => []) (wait s) N i Sm Hi (advanceMillis 1 w) w0 (calm_advance _ _ _ N Sm w 1 ltac:(lia) C) ltac:(cbn; lia) E) as (Q & _).
  rewrite Q. change (f_node (advanceMillis 1 w) i) with (f_node w i). rewrite (proj1 (Nd i Hi)). unfold powered, bare.
  destruct (s_junk s i) as [[[ty1 ty2] d1] d2]. reflexivity.
Qed.

Lemma set_effect_result s m rounds k : junk_ok s -> (m < 5)%nat ->
  (forall i, (i < 5)%nat -> i <> m -> waits_until s m < waits_until s i) -> varied (s_draw s m) ->
  12 < (180001 - waits_until s m) mod 1001 -> 12 < (180001 - waits_until s m) mod 2001 ->
  Z.of_nat rounds = 180000 -> Z.of_nat k = 179997 ->
  exists r w, (1 <= r)%nat /\ frun s 5 (runTicks 1 ++ runTicks rounds) = Ok w /\
    let v := Z.of_N (s_draw s m r) mod 27 in
    (forall i, (i < 5)%nat -> GetEffectIndex (f_node w i) = v) /\
    set_effect_test s rounds = Ok (negb (v =? 1)).
Proof.
  intros J Hm First V R1 R2 Hr Hk. assert (W : 5001 <= waits_until s m < 7010) by (unfold waits_until; lia).
  assert (Id : Forall idle []) by constructor.
  destruct (simulated_exists s 5 (runTicks k) J ltac:(lia) (runTicks_ok _ _)) as [w Sim].
  destruct (simulated_ok _ _ _ _ Sim) as [K T].
  destruct (fsteps_ok s 5 (runTicks 4) J (runTicks_ok _ _) w K T) as (w' & E & K' & T').
  assert (Sim' : simulated s 5 (runTicks (k + 4)) w') by (rewrite <- runTicks_app; apply (simulated_app s 5 _ _ w w' Sim (runTicks_ok _ _) E)).
  pose proof (C118_varied_draws_give_distinct_ids s 5 m [] k w Sim ltac:(lia) ltac:(lia) First Id ltac:(cbn; lia) ltac:(cbn; lia) V) as Di.
  pose proof (C118_varied_draws_give_distinct_ids s 5 m [] (k + 4) w' Sim' ltac:(lia) ltac:(lia) First Id ltac:(cbn; lia) ltac:(cbn; lia) V) as Di'.
  assert (Now : Z.of_nat 5 + passed [] + Z.of_nat k = 180002) by (cbn [passed fold_right]; lia).
  assert (Clear : nothing_in_the_air 5 w).
  { apply (C135_clear_moments_for_half_an_hour s 5 m [] k w Sim ltac:(lia) ltac:(lia) First Id ltac:(cbn; lia)); [lia|exact Di| | |];
      rewrite Now; [replace (180002 - (waits_until s m + 1)) with (180001 - waits_until s m) by lia; cbn; lia..|right; reflexivity]. }
  destruct (C135_a_new_effect_is_everywhere_after_two_rounds s 5 m [] k 2 w w' Sim ltac:(lia) ltac:(lia) First Id ltac:(cbn; lia)) as (ev & p & Ie & _ & Ip & Ev);
    [lia|rewrite Now; reflexivity|exact Clear|exact E|lia|lia|exact Di'|].
  destruct (C135_every_choice_is_drawn s 5 _ w' m ev p Sim' Ie Ip) as (r & Hr1 & _ & _ & Pl).
  assert (Er : runTicks (k + 4) = runTicks 1 ++ runTicks rounds) by (rewrite runTicks_app; f_equal; lia).
  exists r, w'. split; [exact Hr1|]. split; [rewrite <- Er; apply Sim'|].
  assert (Sh : forall i, (i < 5)%nat -> GetEffectIndex (f_node w' i) = Z.of_N (s_draw s m r) mod 27).
  { intros i Hi. destruct (Ev i Hi) as [_ ->]. rewrite Pl. unfold byte_at. cbn [nth]. reflexivity. }
  cbv zeta. split; [exact Sh|]. unfold set_effect_test.
  destruct Sim' as (_ & B & _ & E'). rewrite Er in E'. unfold frun in *. destruct (FakeNetwork s 5) as [wi| |] eqn:E0; try discriminate. cbn [obind] in *.
  rewrite fsteps_app in E'. destruct (fsteps s 5 (runTicks 1) wi) as [w0| |] eqn:E1; try discriminate. cbn [obind] in *. rewrite E'. cbn [obind].
  assert (Sim0 : simulated s 5 (runTicks 1) w0) by (split; [exact J|]; split; [exact B|]; split; [apply runTicks_ok|]; unfold frun; rewrite E0; exact E1).
  rewrite (proj2 (all_show_true 5 0 w0) (first_round s 5 m w0 Sim0 ltac:(lia) Hm First ltac:(lia))).
  rewrite (proj2 (all_show_true 5 (GetEffectIndex (f_node w' 0)) w')) by (intros i Hi; rewrite !Sh by lia; reflexivity).
  rewrite (Sh 0%nat) by lia. rewrite andb_true_r. reflexivity.
Qed.

(** With the random numbers a program draws (76 in a row do not repeat) and
    nothing in the air at 180002 ms: the test passes if and only if the third
    effect the master chose is not effect 1.  That effect is a random number
    modulo 27; it may well be 0, the effect everybody started with. *)
Theorem C135_when_the_test_of_the_effect_index_passes : forall s m,
  junk_ok s -> (m < 5)%nat ->
  (forall i, (i < 5)%nat -> i <> m -> waits_until s m < waits_until s i) -> varied (s_draw s m) ->
  12 < (180001 - waits_until s m) mod 1001 -> 12 < (180001 - waits_until s m) mod 2001 ->
  exists r w, (1 <= r)%nat /\ frun s 5 (runTicks 1 ++ runTicks (Z.to_nat 180000)) = Ok w /\
    let v := Z.of_N (s_draw s m r) mod 27 in
    (forall i, (i < 5)%nat -> GetEffectIndex (f_node w i) = v) /\
    setEffectIndex s = Ok (negb (v =? 1)).
Proof.
  intros s m J Hm First V R1 R2. apply (set_effect_result s m (Z.to_nat 180000) (Z.to_nat 179997) J Hm First V R1 R2); apply Z2Nat.id; lia.
Qed.
Print Assumptions C135_when_the_test_of_the_effect_index_passes.

(** Random numbers that are all [c] modulo 27. *)
Definition loaded (c : N) : source :=
  mkSource (fun k r => match r with O => if Nat.eqb k 0 then 0%N else 1500%N | _ => (c + 27 * (N.of_nat r mod 1000))%N end) (fun r => N.of_nat r)
           (fun _ => mkOffsets 0 0 0) (fun _ => (0, 0, repeat 0 58, repeat 0 58)).
Lemma loaded_varied c : (c < 27)%N -> varied (s_draw (loaded c) 0).
Proof.
  intros Hc. split; [intros j k H1 H2|intros j H1]; cbn [s_draw loaded]; repeat match goal with |- context [match ?x with O => _ | _ => _ end] => destruct x; [lia|] end.
  - pose proof (N.mod_upper_bound (N.of_nat (S j)) 1000 ltac:(discriminate)) as Uj. pose proof (N.mod_upper_bound (N.of_nat (S k)) 1000 ltac:(discriminate)) as Uk.
    pose proof (N.div_mod (N.of_nat (S j)) 1000 ltac:(discriminate)) as Dj. pose proof (N.div_mod (N.of_nat (S k)) 1000 ltac:(discriminate)) as Dk.
    set (a := (N.of_nat (S j) mod 1000)%N) in *. set (b := (N.of_nat (S k) mod 1000)%N) in *. rewrite !N.mod_small by lia. intros Q. lia.
  - pose proof (N.mod_upper_bound (N.of_nat (S j)) 1000 ltac:(discriminate)). set (a := (N.of_nat (S j) mod 1000)%N) in *. rewrite N.mod_small by lia. lia.
Qed.
Lemma loaded_junk c : junk_ok (loaded c).
Proof. intros i. cbn -[wf_packet]. split; apply wf_packetb_ok; vm_compute; reflexivity. Qed.
Lemma loaded_waits c : waits_until (loaded c) 0 = 5001 /\ forall i, (i < 5)%nat -> i <> 0%nat -> waits_until (loaded c) 0 < waits_until (loaded c) i.
Proof. split; [reflexivity|]. intros i Hi Ne. unfold waits_until. cbn [loaded s_draw]. destruct i; [contradiction|]. cbn. lia. Qed.
Lemma loaded_value c r : (c < 27)%N -> (1 <= r)%nat -> Z.of_N (s_draw (loaded c) 0 r) mod 27 = Z.of_N c.
Proof.
  intros Hc Hr. cbn [loaded s_draw]. destruct r as [|r]; [lia|]. set (a := (N.of_nat (S r) mod 1000)%N). clearbody a. rewrite N2Z.inj_add, N2Z.inj_mul.
  change (Z.of_N 27) with 27. replace (Z.of_N c + 27 * Z.of_N a) with (Z.of_N c + Z.of_N a * 27) by lia. rewrite Z_mod_plus_full. apply Z.mod_small. lia.
Qed.

(** So the outcome is not settled by the code under test: with one source of
    random numbers the test fails although every node works as it should, and
    with another it passes although everybody shows effect 0 at the end, which
    is what the comment of line 191 wants to rule out. *)
Theorem C135_the_test_of_the_effect_index_depends_on_the_seed :
  (exists s m, junk_ok s /\ (m < 5)%nat /\ (forall i, (i < 5)%nat -> i <> m -> waits_until s m < waits_until s i) /\ varied (s_draw s m) /\
     setEffectIndex s = Ok false /\
     exists w, frun s 5 (runTicks 1 ++ runTicks (Z.to_nat 180000)) = Ok w /\ forall i, (i < 5)%nat -> GetEffectIndex (f_node w i) = 1) /\
  (exists s m, junk_ok s /\ (m < 5)%nat /\ (forall i, (i < 5)%nat -> i <> m -> waits_until s m < waits_until s i) /\ varied (s_draw s m) /\
     setEffectIndex s = Ok true /\
     exists w, frun s 5 (runTicks 1 ++ runTicks (Z.to_nat 180000)) = Ok w /\ forall i, (i < 5)%nat -> GetEffectIndex (f_node w i) = 0).
Proof.
  assert (G : forall c, (c < 27)%N -> junk_ok (loaded c) /\ (0 < 5)%nat /\ (forall i, (i < 5)%nat -> i <> 0%nat -> waits_until (loaded c) 0 < waits_until (loaded c) i) /\ varied (s_draw (loaded c) 0) /\
     setEffectIndex (loaded c) = Ok (negb (Z.of_N c =? 1)) /\
     exists w, frun (loaded c) 5 (runTicks 1 ++ runTicks (Z.to_nat 180000)) = Ok w /\ forall i, (i < 5)%nat -> GetEffectIndex (f_node w i) = Z.of_N c).
  { intros c Hc. destruct (loaded_waits c) as [W First]. split; [apply loaded_junk|]. split; [lia|]. split; [exact First|]. split; [apply loaded_varied; exact Hc|].
    destruct (C135_when_the_test_of_the_effect_index_passes (loaded c) 0 (loaded_junk c) ltac:(lia) First (loaded_varied c Hc)) as (r & w & Hr & E & Sh & R);
      [rewrite W; reflexivity..|]. rewrite (loaded_value c r Hc Hr) in *. split; [exact R|]. exists w. split; [exact E|exact Sh]. }
  split; [exists (loaded 1), 0%nat; exact (G 1%N eq_refl)|exists (loaded 0), 0%nat; exact (G 0%N eq_refl)].
Qed.
Print Assumptions C135_the_test_of_the_effect_index_depends_on_the_seed.

(** ** The hypotheses are met *)
Lemma spread_example k : Z.of_nat k = 179997 -> exists w w',
  simulated (loaded 7) 5 (runTicks k) w /\ distinct_ids (all_ids (calls_of 0 (f_log w))) /\
  12 < (180002 - 5002) mod 1001 /\ 12 < (180002 - 5002) mod 2001 /\ 12 < 180002 mod 60001 /\
  nothing_in_the_air 5 w /\
  fsteps (loaded 7) 5 (runTicks (2 + 100)) w = Ok w' /\ distinct_ids (all_ids (calls_of 0 (f_log w'))) /\
  (exists ev p, In ev (calls_of 0 (f_log w')) /\ at_ ev = 180003 /\ In (Own ByChange p) (sent ev)) /\
  forall i, (i < 5)%nat -> GetEffectIndex (f_node w' i) = 7.
Proof.
  intros Hk. destruct (loaded_waits 7) as [W First]. assert (Id : Forall idle []) by constructor. pose proof (loaded_junk 7) as J. pose proof (loaded_varied 7 eq_refl) as V.
  destruct (simulated_exists (loaded 7) 5 (runTicks k) J ltac:(lia) (runTicks_ok _ _)) as [w Sim].
  destruct (simulated_ok _ _ _ _ Sim) as [K T].
  destruct (fsteps_ok (loaded 7) 5 (runTicks (2 + 100)) J (runTicks_ok _ _) w K T) as (w' & E & K' & T').
  assert (Sim' : simulated (loaded 7) 5 (runTicks (k + (2 + 100))) w') by (rewrite <- runTicks_app; apply (simulated_app _ 5 _ _ w w' Sim (runTicks_ok _ _) E)).
  pose proof (C118_varied_draws_give_distinct_ids (loaded 7) 5 0 [] k w Sim ltac:(lia) ltac:(lia) First Id ltac:(rewrite W; cbn; lia) ltac:(cbn; lia) V) as Di.
  pose proof (C118_varied_draws_give_distinct_ids (loaded 7) 5 0 [] (k + (2 + 100)) w' Sim' ltac:(lia) ltac:(lia) First Id ltac:(rewrite W; cbn; lia) ltac:(cbn [passed fold_right]; lia) V) as Di'.
  assert (Now : Z.of_nat 5 + passed [] + Z.of_nat k = 180002) by (cbn [passed fold_right]; lia).
  assert (Clear : nothing_in_the_air 5 w).
  { apply (C135_clear_moments_for_half_an_hour (loaded 7) 5 0 [] k w Sim ltac:(lia) ltac:(lia) First Id ltac:(rewrite W; cbn; lia)); [rewrite W; lia|exact Di| | |];
      rewrite Now, ?W; [reflexivity..|right; reflexivity]. }
  destruct (C135_a_new_effect_is_everywhere_after_two_rounds (loaded 7) 5 0 [] k 100 w w' Sim ltac:(lia) ltac:(lia) First Id ltac:(rewrite W; cbn; lia)) as (ev & p & Ie & At & Ip & Ev);
    [rewrite W; lia|rewrite Now; reflexivity|exact Clear|exact E|lia|lia|exact Di'|].
  exists w, w'. split; [exact Sim|]. split; [exact Di|]. split; [reflexivity|]. split; [reflexivity|]. split; [reflexivity|]. split; [exact Clear|]. split; [exact E|]. split; [exact Di'|].
  split; [exists ev, p; split; [exact Ie|]; split; [rewrite At; lia|exact Ip]|].
  intros i Hi. destruct (Ev i Hi) as [_ ->]. destruct (C135_every_choice_is_drawn _ _ _ _ _ _ _ Sim' Ie Ip) as (r & Hr & _ & _ & ->).
  unfold byte_at. cbn [nth]. exact (loaded_value 7 r eq_refl Hr).
Qed.
Example C135_inhabited : exists w w',
  simulated (loaded 7) 5 (runTicks (Z.to_nat 179997)) w /\ distinct_ids (all_ids (calls_of 0 (f_log w))) /\
  12 < (180002 - 5002) mod 1001 /\ 12 < (180002 - 5002) mod 2001 /\ 12 < 180002 mod 60001 /\
  nothing_in_the_air 5 w /\
  fsteps (loaded 7) 5 (runTicks (2 + 100)) w = Ok w' /\ distinct_ids (all_ids (calls_of 0 (f_log w'))) /\
  (exists ev p, In ev (calls_of 0 (f_log w')) /\ at_ ev = 180003 /\ In (Own ByChange p) (sent ev)) /\
  forall i, (i < 5)%nat -> GetEffectIndex (f_node w' i) = 7.
Proof. apply spread_example. apply Z2Nat.id. lia. Qed.
