(** C135: how fast a new effect of the master reaches everybody in the simulated
    network, and what the integration test of the effect index shows.
    Model: FakeNet.v. *)
From Coq Require Import ZArith NArith Lia List Bool.
From Coq Require Import ZifyBool.
From Verif Require Import CInt CIntFacts Packet SpecPacket PacketFacts NetMgr NetHist SpecNet NetFacts Rsm RsmStep RsmEval RsmRun RsmHist SpecRsm RsmFacts RsmTime RoleFacts.
From Verif Require Import Fastled Palette Device LedMgr Effects Show ShowFacts Bench FakeNet FakeNetFacts SimFacts PropFakeNet PropSim PropFailSim AgreeFacts AgreeRun PaceRun PropAgree Timetable PropTimes Lull Visits PropComeGo SpreadRun.
Import ListNotations.
Open Scope Z_scope.
Ltac Zify.zify_post_hook ::= Z.div_mod_to_equations.

(** ** When nothing is in the air *)
(** C124 reads off the clock when nothing is in the air, in the first minute.
    The same works for more than half an hour when the moments after a new
    effect (every 60001 ms) are left out too. *)
Theorem C135_clear_moments_for_half_an_hour : forall s N m os k w,
  simulated s N (os ++ runTicks k) w ->
  (m < N)%nat -> (N <= 900)%nat ->
  (forall i, (i < N)%nat -> i <> m -> waits_until s m < waits_until s i) ->
  Forall idle os -> Z.of_nat N + passed os <= waits_until s m ->
  let now := Z.of_nat N + passed os + Z.of_nat k in
  let t0 := waits_until s m + 1 in
  t0 <= now <= 2000000 ->
  distinct_ids (all_ids (calls_of m (f_log w))) ->
  2 * Z.of_nat N + 2 < (now - t0) mod 1001 -> 2 * Z.of_nat N + 2 < (now - t0) mod 2001 ->
  now < 60001 \/ 2 * Z.of_nat N + 2 < now mod 60001 ->
  on_air w = None /\ forall i, (i < N)%nat -> waiting w i = None.
Proof.
  intros s N m os k w Sim Hm Sm First Idle B1 now t0 B2 Di R1 R2 R3.
  assert (Wm : 5001 <= waits_until s m) by (unfold waits_until; lia).
  destruct (power_up_table s N m os k w Sim Hm Sm First Idle B1 ltac:(subst now t0; lia) Di ltac:(subst now t0; lia)) as
    (Ck & n0 & Ce & [(q & Hb & _ & Hq) (q2 & Hc & _ & _ & Hq2) (R & x & ER & Sp & _ & Lx & _)] & D & T & U & fly & j & s1 & h & g & a & kills & c & Re & Dr & La).
  fold now in Ck. fold t0 in Hb, Hq, ER. rewrite Ce in Hc, Hq2. pose proof (proj1 Dr) as Dc. apply (drained _ _ _ _ _ _ _ _ _ _ _ _ _ _ _ c Re Dr). rewrite Ck in *.
  destruct La as [I|[I|I]].
  - rewrite Hb in I. apply in_map_iff in I as (v & <- & Iv). apply in_seq in Iv.
    assert (Q : (now - t0) mod 1001 = now - t0 - 1001 * Z.of_nat q) by (symmetry; apply (Z.mod_unique _ _ (Z.of_nat q)); [left|]; lia). nia.
  - rewrite Hc in I. apply in_map_iff in I as (v & <- & _). 
    destruct R3 as [R3|R3]; [lia|].
    assert (Le : 60000 + 1 + 60001 * Z.of_nat v <= 60001 * (now / 60001)) by lia. lia.
  - (* no rebroadcast comes after now *)
    assert (Up : forall L pre z, pre ++ z :: L = R ++ [x] -> forall y, In y (z :: L) -> z <= y <= x).
    { induction L as [|v L IH]; intros pre z Q y Iy.
      - destruct Iy as [->|[]]. apply app_inj_tail in Q as [_ ->]. lia.
      - assert (Zv : z < v) by (destruct (Sp pre z v L ltac:(symmetry; exact Q)) as [Y|(Y & _)]; lia).
        assert (Q' : (pre ++ [z]) ++ v :: L = R ++ [x]) by (rewrite <- app_assoc; exact Q).
        pose proof (IH _ _ Q') as G. destruct Iy as [->|Iy]; [specialize (G v ltac:(left; reflexivity)); lia|]. specialize (G y Iy). lia. }
    (* every rebroadcast is a multiple of 2001 after the take-over *)
    assert (Mul : forall L pre z, pre ++ z :: L = R ++ [x] -> (z - t0) mod 2001 = 0 -> Forall (fun y => (y - t0) mod 2001 = 0) L).
    { induction L as [|y L IH]; intros pre z Q Z0; [constructor|].
      assert (Y : y = z + 2001).
      { destruct (Sp pre z y L ltac:(symmetry; exact Q)) as [Y|(_ & Y1 & Y2)]; [exact Y|exfalso].
        rewrite Hb in Y1. apply in_map_iff in Y1 as (v1 & Y1 & I1). apply in_seq in I1.
        assert (Pos : t0 <= z) by (assert (Iz : In z (t0 :: times ByRebroadcast (calls_of m (f_log w)))) by (rewrite ER, <- Q; apply in_or_app; right; left; reflexivity); pose proof (Up _ [] t0 ER z Iz); lia).
        clear - Z0 Y1 Y2 Hc Hq I1 B2 Wm Pos. subst t0. set (t0 := waits_until s m + 1) in *.
        assert (E2 : (z + 2001 - t0) mod 2001 = 0) by (replace (z + 2001 - t0) with (z - t0 + 1 * 2001) by lia; rewrite Z_mod_plus_full; exact Z0).
        assert (E1 : z + 2001 - t0 = 1001 * Z.of_nat v1) by lia.
        assert (Lt : 0 < z + 2001 - t0 < 2003001) by lia.
        set (d := z + 2001 - t0) in *. clearbody d. lia. }
      assert (Y0 : (y - t0) mod 2001 = 0) by (rewrite Y; replace (z + 2001 - t0) with (z - t0 + 1 * 2001) by lia; rewrite Z_mod_plus_full; exact Z0).
      constructor; [exact Y0|]. apply (IH (pre ++ [z]) y); [rewrite <- app_assoc; exact Q|exact Y0]. }
    pose proof (Mul _ [] t0 ER) as F. rewrite Z.sub_diag in F. specialize (F eq_refl). pose proof (proj1 (Forall_forall _ _) F c I) as C0. cbn beta in C0.
    pose proof (Up _ [] t0 ER c ltac:(right; exact I)) as Uc.
    assert (Dd : (now - c) mod 2001 = (now - t0) mod 2001).
    { replace (now - t0) with (now - c + ((c - t0) / 2001) * 2001) by lia. rewrite Z_mod_plus_full. reflexivity. }
    pose proof (Z.mod_le (now - c) 2001 ltac:(lia) ltac:(lia)). lia.
Qed.
Print Assumptions C135_clear_moments_for_half_an_hour.

(** ** Two rounds *)
Lemma distinct_prefix a b : distinct_ids (a ++ b) -> distinct_ids a.
Proof. intros H u x v ->. apply (H u x (v ++ b)). rewrite <- app_assoc. reflexivity. Qed.
Lemma all_ids_app a b : all_ids (a ++ b) = all_ids a ++ all_ids b.
Proof. unfold all_ids. rewrite map_app, concat_app, map_app. reflexivity. Qed.
Lemma distinct_earlier i log new : distinct_ids (all_ids (calls_of i (log ++ new))) -> distinct_ids (all_ids (calls_of i log)).
Proof. rewrite calls_of_app, all_ids_app. apply distinct_prefix. Qed.
Lemma runTicks_app a b : runTicks a ++ runTicks b = runTicks (a + b).
Proof. induction a as [|a IH]; [reflexivity|]. cbn [runTicks app Nat.add]. rewrite IH. reflexivity. Qed.
Lemma one_round s N w : fsteps s N (runTicks 1) w = FakeTick s N (advanceMillis 1 w).
Proof. cbn [runTicks fsteps fstep obind]. destruct (FakeTick s N (advanceMillis 1 w)); reflexivity. Qed.
Lemma choice_times_changes evs : choice_times evs = [] <-> ~ changes (outs evs).
Proof.
  split.
  - intros E [x I]. unfold outs in I. apply in_concat in I as (l & Il & Ix). apply in_map_iff in Il as (ev & <- & Ie).
    assert (Q : In (at_ ev) (choice_times evs)) by (apply choice_times_in; exists ev; split; [exact Ie|]; split; [exists x; exact Ix|reflexivity]).
    rewrite E in Q. destruct Q.
  - intros NC. destruct (choice_times evs) as [|t l] eqn:E; [reflexivity|exfalso]. apply NC.
    assert (Q : In t (choice_times evs)) by (rewrite E; left; reflexivity). apply choice_times_in in Q as (ev & Ie & (x & Ix) & _).
    exists x. unfold outs. apply in_concat. exists (sent ev). split; [apply in_map; exact Ie|exact Ix].
Qed.

Section Power_up.
Variables (s : source) (N m : nat) (os : list fop).
Hypothesis Hm : (m < N)%nat.
Hypothesis small : (N <= 900)%nat.
Hypothesis First : forall i, (i < N)%nat -> i <> m -> waits_until s m < waits_until s i.
Hypothesis Idle : Forall idle os.
Hypothesis B1 : Z.of_nat N + passed os <= waits_until s m.

(** In which rounds the master chooses. *)
Lemma choices_of_round k w w' : simulated s N (os ++ runTicks k) w -> FakeTick s N (advanceMillis 1 w) = Ok w' ->
  Z.of_nat N + passed os + Z.of_nat k + 1 < 4294967296 - 70000 -> distinct_ids (all_ids (calls_of m (f_log w'))) ->
  simulated s N (os ++ runTicks (S k)) w' /\ distinct_ids (all_ids (calls_of m (f_log w))) /\
  forall evs, calls_of m (f_log w') = calls_of m (f_log w) ++ evs ->
    ((Z.of_nat N + passed os + Z.of_nat k + 1) mod 60001 = 0 -> changes (outs evs)) /\
    ((Z.of_nat N + passed os + Z.of_nat k + 1) mod 60001 <> 0 -> ~ changes (outs evs)).
Proof.
  intros Sim E B2 Di.
  assert (Sim' : simulated s N (os ++ runTicks (S k)) w').
  { replace (S k) with (k + 1)%nat by lia. rewrite <- runTicks_app, app_assoc. apply (simulated_app s N _ _ w w' Sim (runTicks_ok _ _)). rewrite one_round. exact E. }
  split; [exact Sim'|].
  destruct (simulated_ok _ _ _ _ Sim) as [K T].
  destruct (ticks_log s N 1 w w' K ltac:(rewrite one_round; exact E)) as (_ & _ & new & Lg).
  assert (Di0 : distinct_ids (all_ids (calls_of m (f_log w)))) by (rewrite Lg in Di; exact (distinct_earlier _ _ _ Di)).
  split; [exact Di0|]. intros evs Ev.
  pose proof (C122_when_the_master_chooses s N m os k w Sim Hm small First Idle B1 ltac:(lia) Di0) as T0.
  pose proof (C122_when_the_master_chooses s N m os (S k) w' Sim' Hm small First Idle B1 ltac:(lia) Di) as T1.
  rewrite Ev, choice_times_app, T0 in T1.
  replace (Z.of_nat N + passed os + Z.of_nat (S k)) with (Z.of_nat N + passed os + Z.of_nat k + 1) in T1 by lia.
  assert (Pos : 0 <= Z.of_nat N + passed os + Z.of_nat k).
  { assert (P : 0 <= passed os) by (clear - Idle; induction Idle as [|o l Ho F IH]; cbn [passed fold_right]; [lia|]; fold (passed l); destruct o; cbn in Ho; try contradiction; lia). lia. }
  set (now := Z.of_nat N + passed os + Z.of_nat k) in *.
  assert (Ln : length (choice_times evs) = (Z.to_nat ((now + 1) / 60001) - Z.to_nat (now / 60001))%nat).
  { apply (f_equal (@length Z)) in T1. rewrite app_length, !map_length, !seq_length in T1. lia. }
  split; intros Q.
  - destruct (list_eq_dec Z.eq_dec (choice_times evs) []) as [Z0|Nz]; [exfalso; rewrite Z0 in Ln; cbn [length] in Ln; lia|].
    destruct (choice_times evs) as [|t l] eqn:E1; [congruence|]. 
    assert (I : In t (choice_times evs)) by (rewrite E1; left; reflexivity). apply choice_times_in in I as (ev & Ie & (x & Ix) & _).
    exists x. unfold outs. apply in_concat. exists (sent ev). split; [apply in_map; exact Ie|exact Ix].
  - apply choice_times_changes. destruct (choice_times evs); [reflexivity|exfalso]. cbn [length] in Ln. lia.
Qed.

Lemma start_unused i log own : distinct_ids (all_ids (calls_of i log)) -> all_ids (calls_of i log) = [] ++ own -> unused N m (fun _ => []) own.
Proof. intros D E. apply unused_start. cbn [app] in E. rewrite <- E. exact D. Qed.

(** It stays like that until the next choice. *)
Lemma even_on B j : forall k w w', simulated s N (os ++ runTicks k) w -> fsteps s N (runTicks j) w = Ok w' ->
  distinct_ids (all_ids (calls_of m (f_log w'))) -> waits_until s m < Z.of_nat N + passed os + Z.of_nat k ->
  Z.of_nat N + passed os + Z.of_nat k + Z.of_nat j < 4294967296 - 70000 ->
  (forall i, (1 <= i <= Z.of_nat j) -> (Z.of_nat N + passed os + Z.of_nat k + i) mod 60001 <> 0) ->
  even N B w -> even N B w'.
Proof.
  induction j as [|j IH]; intros k w w' Sim E Di Late B2 No Ev; [cbn in E; injection E as <-; exact Ev|].
  cbn [runTicks fsteps fstep obind] in E. destruct (FakeTick s N (advanceMillis 1 w)) as [w1| |] eqn:E1; try discriminate. cbn [obind] in E.
  destruct (simulated_ok _ _ _ _ Sim) as [K T].
  destruct (ticks_log s N 1 w w1 K ltac:(rewrite one_round; exact E1)) as (K1 & _ & _).
  destruct (ticks_log s N j w1 w' K1 E) as (_ & _ & new & Lg).
  assert (Di1 : distinct_ids (all_ids (calls_of m (f_log w1)))) by (rewrite Lg in Di; exact (distinct_earlier _ _ _ Di)).
  destruct (choices_of_round k w w1 Sim E1 ltac:(lia) Di1) as (Sim1 & Di0 & Ch).
  destruct (power_up_table s N m os k w Sim Hm small First Idle B1 ltac:(lia) Di0 Late) as (Ck & n0 & _ & _ & D & T' & U & fly & jj & s1 & h & g & a & kills & c & R & _).
  apply (IH (S k) w1 w' Sim1 E Di ltac:(lia) ltac:(lia)).
  - intros i Hi. specialize (No (i + 1) ltac:(lia)). replace (Z.of_nat N + passed os + Z.of_nat (S k) + i) with (Z.of_nat N + passed os + Z.of_nat k + (i + 1)) by lia. exact No.
  - destruct (even_round s (fun i => i) (fun _ => []) N m small B w D T' U fly jj s1 h g a kills w1 R ltac:(lia) E1) as [Q _].
    + intros own. apply (start_unused m (f_log w1) own Di1).
    + exact Ev.
    + intros evs Ee. apply (Ch evs Ee). apply No. lia.
    + exact Q.
Qed.
End Power_up.

(** When nothing is in the air just before the master chooses a new effect,
    which it does every 60001 ms, everybody has the new effect after the round
    of the choice and one more, and keeps it until the next choice. *)
Theorem C135_a_new_effect_is_everywhere_after_two_rounds : forall s N m os k j w w',
  simulated s N (os ++ runTicks k) w ->
  (m < N)%nat -> (N <= 900)%nat ->
  (forall i, (i < N)%nat -> i <> m -> waits_until s m < waits_until s i) ->
  Forall idle os -> Z.of_nat N + passed os <= waits_until s m ->
  let now := Z.of_nat N + passed os + Z.of_nat k in
  waits_until s m < now -> (now + 1) mod 60001 = 0 ->
  nothing_in_the_air N w ->
  fsteps s N (runTicks (2 + j)) w = Ok w' -> Z.of_nat j < 60000 -> now + 2 + Z.of_nat j < 4294967296 - 70000 ->
  distinct_ids (all_ids (calls_of m (f_log w'))) ->
  exists ev p, In ev (calls_of m (f_log w')) /\ at_ ev = now + 1 /\ In (Own ByChange p) (sent ev) /\
  forall i, (i < N)%nat -> effect_bytes (f_node w' i) = payload 3 p /\ GetEffectIndex (f_node w' i) = byte_at (payload 3 p) 0.
Proof.
  intros s N m os k j w w' Sim Hm Sm First Idle B1 now Late Mod [Air0 Qt] E Hj B2 Di.
  assert (Wm : 5001 <= waits_until s m) by (unfold waits_until; lia).
  change (runTicks (2 + j)) with (runTicks 1 ++ runTicks 1 ++ runTicks j) in E. rewrite fsteps_app in E.
  destruct (fsteps s N (runTicks 1) w) as [w1| |] eqn:E1; try discriminate. cbn [obind] in E. rewrite fsteps_app in E.
  destruct (fsteps s N (runTicks 1) w1) as [w2| |] eqn:E2; try discriminate. cbn [obind] in E.
  destruct (simulated_ok _ _ _ _ Sim) as [K T].
  destruct (ticks_log s N 1 w w1 K E1) as (K1 & Ck1 & new1 & Lg1).
  destruct (ticks_log s N 1 w1 w2 K1 E2) as (K2 & _ & new2 & Lg2).
  destruct (ticks_log s N j w2 w' K2 E) as (_ & _ & new & Lg).
  assert (Di2 : distinct_ids (all_ids (calls_of m (f_log w2)))) by (rewrite Lg in Di; exact (distinct_earlier _ _ _ Di)).
  assert (Di1 : distinct_ids (all_ids (calls_of m (f_log w1)))) by (rewrite Lg2 in Di2; exact (distinct_earlier _ _ _ Di2)).
  rewrite one_round in E1, E2.
  destruct (choices_of_round s N m os Hm Sm First Idle B1 k w w1 Sim E1 ltac:(lia) Di1) as (Sim1 & Di0 & Ch1).
  destruct (choices_of_round s N m os Hm Sm First Idle B1 (S k) w1 w2 Sim1 E2 ltac:(lia) Di2) as (Sim2 & _ & Ch2).
  destruct (power_up_table s N m os k w Sim Hm Sm First Idle B1 ltac:(lia) Di0 Late) as (Ck & n0 & _ & _ & D & T' & U & fly & jj & s1 & h & g & a & kills & c & R & _).
  destruct (new_rounds s (fun i => i) (fun _ => []) N m Sm w D T' U fly jj s1 h g a kills w1 w2 R ltac:(lia) Air0 Qt E1 E2) as (B & Ev & (evs & x & Ee & Ix & Px) & _).
  - intros own. apply (start_unused N m m (f_log w1) own Di1).
  - intros own. apply (start_unused N m m (f_log w2) own Di2).
  - intros evs Ee. apply (Ch1 evs Ee). exact Mod.
  - intros evs Ee. apply (Ch2 evs Ee). replace (Z.of_nat N + passed os + Z.of_nat (S k) + 1) with (now + 1 + 1) by (subst now; lia). lia.
  - assert (Ev' : even N B w').
    { apply (even_on s N m os Hm Sm First Idle B1 B j (S (S k)) w2 w' Sim2 E Di); [lia|lia| |exact Ev].
      intros i Hi. replace (Z.of_nat N + passed os + Z.of_nat (S (S k)) + i) with (now + 1 + (1 + i)) by (subst now; lia). lia. }
    unfold outs in Ix. apply in_concat in Ix as (l & Il & Ix). apply in_map_iff in Il as (ev & <- & Ie).
    exists ev, x.
    assert (Iev : In ev (calls_of m (f_log w1))) by (rewrite Ee; apply in_or_app; right; exact Ie).
    split; [rewrite Lg, Lg2, !calls_of_app; apply in_or_app; left; apply in_or_app; left; exact Iev|]. split; [|split; [exact Ix|]].
    + (* the time *)
      assert (It : In (at_ ev) (choice_times evs)) by (apply choice_times_in; exists ev; split; [exact Ie|]; split; [exists x; exact Ix|reflexivity]).
      pose proof (C122_when_the_master_chooses s N m os k w Sim Hm Sm First Idle B1 ltac:(lia) Di0) as T0.
      pose proof (C122_when_the_master_chooses s N m os (S k) w1 Sim1 Hm Sm First Idle B1 ltac:(lia) Di1) as T1.
      rewrite Ee, choice_times_app, T0 in T1.
      replace (Z.of_nat N + passed os + Z.of_nat (S k)) with (now + 1) in T1 by (subst now; lia). fold now in T1.
      assert (Q : Z.to_nat ((now + 1) / 60001) = (Z.to_nat (now / 60001) + 1)%nat) by lia.
      rewrite Q, seq_app, map_app in T1. apply app_inv_head in T1. rewrite T1 in It. destruct It as [<-|[]]. lia.
    + intros i Hi. destruct Ev' as [Ev' _]. destruct (Ev' i Hi) as [S1 S2]. rewrite Px. split; [exact S1|].
      unfold GetEffectIndex. rewrite S2, u8_i8. destruct (simulated_ok _ _ _ _ Sim2) as [K2' T2]. 
      destruct (ticks_log s N j w2 w' K2' E) as (K' & _).
      assert (Wf : wf_packet (set_effect_packet (f_node w' i))) by apply (k_nodes _ _ K' i Hi).
      unfold shown in S1. rewrite <- S1. destruct Wf as (_ & _ & _ & L & F). rewrite byte_payload by exact L.
      destruct (pdata (set_effect_packet (f_node w' i))) as [|b d]; [discriminate L|]. apply Forall_inv in F. unfold byte_at. cbn [nth]. apply u8_id. exact F.
Qed.
Print Assumptions C135_a_new_effect_is_everywhere_after_two_rounds.
