(** When the master of the simulated network chooses effects.  Model: FakeNet.v. *)
From Coq Require Import ZArith NArith Lia List Bool.
From Coq Require Import ZifyBool.
From Verif Require Import CInt CIntFacts Packet SpecPacket PacketFacts NetMgr NetHist SpecNet NetFacts Rsm RsmStep RsmEval RsmRun RsmHist SpecRsm RsmFacts RsmTime RoleFacts.
From Verif Require Import Fastled Palette Device LedMgr Effects Show ShowFacts Bench FakeNet FakeNetFacts SimFacts AgreeFacts AgreeRun.
Import ListNotations.
Open Scope Z_scope.
Ltac Zify.zify_post_hook ::= Z.div_mod_to_equations.

Definition is_choice (x : rtx) : bool := match x with Own ByChange _ => true | _ => false end.
Definition choosing (ev : event) : bool := existsb is_choice (sent ev).
Definition choice_times (evs : list event) : list Z := map at_ (filter choosing evs).

Lemma choice_times_app a b : choice_times (a ++ b) = choice_times a ++ choice_times b.
Proof. unfold choice_times. rewrite filter_app, map_app. reflexivity. Qed.

Lemma choice_times_quiet evs : outs evs = [] -> choice_times evs = [].
Proof.
  unfold outs, choice_times. induction evs as [|x evs IH]; [reflexivity|]. cbn [map concat filter]. intros H. apply app_eq_nil in H as [A B].
  unfold choosing at 1. rewrite A. apply IH. exact B.
Qed.

Lemma pace_tick e t n inc out n' : nodeok n -> state n = Master -> heard n inc = None -> 0 <= t < 4294967296 - 70000 ->
  t_ce n <> 0 -> t <= t_ce n + 1 -> tick e t n inc out n' ->
  (t <= t_ce n /\ t_ce n' = t_ce n /\ existsb is_choice out = false) \/
  (t = t_ce n + 1 /\ timer_due t (t_hb n) = true /\ t_hb n' = t + 1000 /\ t_ce n' = t_ce n /\ existsb is_choice out = false) \/
  (t = t_ce n + 1 /\ t_ce n' = t + 60000 /\ existsb is_choice out = true).
Proof.
  intros Nk St Hd Ht Nz Le T. pose proof (proj1 Nk) as Gd. pose proof (g_ce _ Gd) as Rce.
  assert (Du : timer_due t (t_ce n) = true <-> t = t_ce n + 1) by (rewrite timer_due_iff; lia).
  inversion T; subst; try congruence.
  - destruct H0 as [_ [H0|[H0 _]]]; [congruence|]. left. destruct (Z.eq_dec t (t_ce n' + 1)) as [Q|Q]; [apply Du in Q; congruence|]. repeat split; lia.
  - destruct (Z.eq_dec t (t_ce n + 1)) as [Q|Q].
    + right. left. cbn [t_hb t_ce with_t_hb with_packet_ with_nm with_rng]. rewrite u32_id by lia. repeat split; auto.
    + left. repeat split; auto; lia.
  - right. right. match goal with H : timer_due t (t_ce n) = true |- _ => apply Du in H as Q end. cbn [t_ce with_t_ce]. rewrite u32_id by lia. repeat split; auto.
  - left. destruct (Z.eq_dec t (t_ce n + 1)) as [Q|Q]; [apply Du in Q; congruence|]. repeat split; auto; lia.
Qed.

Lemma pace_machine e t n slot T U s1 h g a kills inc n' evs : plat e = Host ->
  ms t n slot T U s1 h g a kills -> a <> OnAir -> 0 <= t < 4294967296 - 70000 -> inc_sound inc ->
  (forall p, inc = Some p -> pid p = last T 0) -> machine e t true inc n = Ok (n', evs) ->
  t_ce n <> 0 -> t <= t_ce n + 1 ->
  (t <= t_ce n /\ t_ce n' = t_ce n /\ choice_times evs = []) \/ (t = t_ce n + 1 /\ t_ce n' = t + 60000 /\ choice_times evs = [t]).
Proof.
  intros Pl M Na Ht I Own Em Nz Le. unfold machine in Em. rewrite u32_id in Em by lia.
  destruct (nodeok_runs e t n inc Pl (m_ok _ _ _ _ _ _ _ _ _ _ M) I ltac:(lia)) as (n1 & o1 & E1 & T1). rewrite E1 in Em.
  destruct (ms_tick e t n slot T U s1 h g a kills inc o1 n1 M Na Ht I Own T1) as (U1 & s2 & h1 & a1 & k1 & M1 & Na1 & _).
  destruct (nodeok_runs e t n1 inc Pl (m_ok _ _ _ _ _ _ _ _ _ _ M1) I ltac:(lia)) as (n2 & o2 & E2 & T2). rewrite E2 in Em. injection Em as <- <-.
  pose proof (pace_tick e t n inc o1 n1 (m_ok _ _ _ _ _ _ _ _ _ _ M) (m_state _ _ _ _ _ _ _ _ _ _ M) (ms_deaf _ _ _ _ _ _ _ _ _ _ inc M Own) Ht Nz Le T1) as P1.
  assert (P2 : t_ce n1 <> 0 -> t <= t_ce n1 + 1 -> _) by (intros Z1 L1; exact (pace_tick e t n1 inc o2 n2 (m_ok _ _ _ _ _ _ _ _ _ _ M1) (m_state _ _ _ _ _ _ _ _ _ _ M1) (ms_deaf _ _ _ _ _ _ _ _ _ _ inc M1 Own) Ht Z1 L1 T2)).
  assert (Hf : timer_due t (t + 1000) = true -> False) by (rewrite timer_due_iff; lia).
  unfold choice_times, choosing. cbn [filter sent].
  destruct P1 as [(A & B & ->)|[(A & A2 & A3 & B & ->)|(A & B & ->)]]; destruct (P2 ltac:(lia) ltac:(lia)) as [(A' & B' & ->)|[(A' & A2' & A3' & B' & ->)|(A' & B' & ->)]]; cbn [map at_];
    try (exfalso; lia); try (rewrite A3 in A2'; contradiction); [left|right|right]; repeat split; lia.
Qed.

Lemma pace_round s name Old N m w D T U fly j s1 h g a kills w' : (N <= 900)%nat ->
  reign name Old N m w D T U fly j s1 h g a kills -> f_clock w + 1 < 4294967296 - 70000 ->
  FakeTick s N (advanceMillis 1 w) = Ok w' -> (forall own, all_ids (calls_of (name m) (f_log w')) = Old m ++ own -> unused N m Old own) ->
  t_ce (f_node w m) <> 0 -> f_clock w <= t_ce (f_node w m) ->
  f_clock w' = f_clock w + 1 /\
  exists evs, calls_of (name m) (f_log w') = calls_of (name m) (f_log w) ++ evs /\
    (f_clock w + 1 <= t_ce (f_node w m) /\ t_ce (f_node w' m) = t_ce (f_node w m) /\ choice_times evs = [] \/
     f_clock w = t_ce (f_node w m) /\ t_ce (f_node w' m) = f_clock w + 60001 /\ choice_times evs = [f_clock w + 1]) /\
  exists D' T' U' fly' j' s1' h' g' a' kills', reign name Old N m w' D' T' U' fly' j' s1' h' g' a' kills'.
Proof.
  intros Sm R Hc Et Sp Nz Le.
  destruct (reign_round s name Old N m Sm w D T U fly j s1 h g a kills w' R Hc Et Sp)
    as (Ck & evs & Tm & Mine & D' & T' & U' & fly' & j' & s1' & h' & g' & a' & kills' & R' & _).
  split; [exact Ck|]. exists (evs m). split; [exact Mine|]. split; [|do 10 eexists; exact R'].
  destruct R as [K Hm Nm Inj Tk Ls Ids Len Ms Hb Wt Sl Air_].
  set (t := f_clock w + 1) in *.
  assert (Ht : 0 <= t < 4294967296 - 70000) by (pose proof (k_clock _ _ K); subst t; lia).
  assert (M0 : ms t (f_node w m) (cell w (Radio m)) T U s1 h g a kills).
  { apply ms_next; [exact Ms|exact Hb|]. intros NU. destruct (Wt NU) as (_ & B & _ & C). lia. }
  assert (So : inc_sound (option_map zero_tail (cell w Air))).
  { intros p. destruct (cell w Air) as [x|] eqn:C; [|discriminate]. cbn. intros [= <-]. apply zero_tail_sound. exact (cell_air_sound _ _ _ (k_mem _ _ K) C). }
  assert (Del : exists g1 a1 kills1, ms t (f_node w m) (cell w (Radio m)) T U s1 h g1 a1 kills1 /\ a1 <> OnAir /\
     (forall p, cell w Air = Some p -> pid p = last T 0)).
  { destruct fly.
    - destruct Air_ as (X & CA & PX & New & Nr & Ty).
      exists (match a with OnAir => t | _ => g end), (match a with OnAir => Got | b => b end), (match a with OnAir => [] | _ => kills end).
      split; [destruct a; try exact M0; exact (ms_got _ _ _ _ _ _ _ _ _ M0)|]. split; [destruct a; discriminate|]. intros p Cp; congruence.
    - destruct Air_ as (ND & Lst & Nr & Na & AA). exists g, a, kills. split; [exact M0|]. split; [exact Na|]. intros p Cp. rewrite <- Lst. exact (AA p Cp). }
  destruct Del as (g1 & a1 & k1 & M1 & Na1 & Own1).
  destruct (pace_machine (env_of s (name m)) t (f_node w m) (cell w (Radio m)) T U s1 h g1 a1 k1 (option_map zero_tail (cell w Air)) (f_node w' m) (evs m) eq_refl M1 Na1 Ht So) as [P|P]; auto.
  - intros p. destruct (cell w Air) as [x|] eqn:C; [|discriminate]. cbn. intros [= <-]. cbn [zero_tail pid]. exact (Own1 x eq_refl).
  - subst t. lia.
  - right. destruct P as (P1 & P2 & P3). split; [subst t; lia|]. split; [rewrite P2; subst t; lia|exact P3].
Qed.

Lemma ce_takeover_later t n : 0 <= t < 4294967296 - 70000 -> ce_takeover t n <> 0 -> t < ce_takeover t n <= t + 60000.
Proof.
  intros Ht. unfold ce_takeover. pose proof (u32_range (t - seen_at n)) as R. set (d := u32 (t - seen_at n)) in *. cbv zeta.
  destruct (Z.ltb_spec 60000 d); [rewrite u32_id by lia; lia|]. destruct (Z.eqb_spec d 60000); [congruence|]. rewrite u32_id by lia. lia.
Qed.

Lemma ce_takeover_nonneg t n : 0 <= ce_takeover t n.
Proof.
  unfold ce_takeover. cbv zeta. destruct (60000 <? u32 (t - seen_at n)); [apply u32_range|]. destruct (u32 (t - seen_at n) =? 60000); [lia|apply u32_range].
Qed.

Section Pace.
Variable s : source.
Variable name : nat -> nat.
Variable Old : nat -> list Z.
Variable due : nat -> Z.
Variables N m : nat.
Hypothesis small : (N <= 900)%nat.
Hypothesis Hm : (m < N)%nat.
Hypothesis Some_time : due m <> 0.
Hypothesis First : forall i, (i < N)%nat -> i <> m -> due m < due i.
Variable L0 : list event.
Variable n0 : node.
Let ce0 := ce_takeover (due m + 1) n0.
Hypothesis ce_set : ce0 <> 0.

Definition paced (w : fakenet) : Prop :=
  exists new, calls_of (name m) (f_log w) = L0 ++ new /\
  ((calm name Old due N w /\ f_clock w <= due m /\ f_node w m = n0 /\ outs new = []) \/
   (due m < f_clock w /\ exists D T U fly j s1 h g a kills q,
      reign name Old N m w D T U fly j s1 h g a kills /\
      t_ce (f_node w m) = ce0 + 60001 * Z.of_nat q /\ f_clock w <= t_ce (f_node w m) /\
      (q <> O -> t_ce (f_node w m) < f_clock w + 60001) /\
      choice_times new = map (fun k => ce0 + 1 + 60001 * Z.of_nat k) (seq 0 q))).

Lemma paced_step w w' : paced w -> f_clock w + 1 < 4294967296 - 70000 ->
  FakeTick s N (advanceMillis 1 w) = Ok w' ->
  (forall own, all_ids (calls_of (name m) (f_log w')) = Old m ++ own -> unused N m Old own) ->
  f_clock w' = f_clock w + 1 /\ paced w'.
Proof.
  intros (new & En & H) Hc E Sp.
  destruct H as [(C & Hw & Nd & Qu)|(Hw & D & T & U & fly & j & s1 & h & g & a & kills & q & R & Tc & Le & Lq & Ti)].
  - pose proof (calm_advance name Old due N small w 1 ltac:(lia) C) as C'.
    destruct (Z.le_gt_cases (f_clock w + 1) (due m)) as [L|L].
    + destruct (calm_tick s name Old due N small _ w' C') as [C2 Ck]; [|exact E|].
      { intros i Hi. cbn. destruct (Nat.eq_dec i m) as [->|Ne]; [lia|]. specialize (First i Hi Ne). lia. }
      destruct (calm_same s name Old due N m small Hm _ w' C' ltac:(cbn; lia) E) as (Nd' & evs & Ee & Oe). change (f_node (advanceMillis 1 w) m) with (f_node w m) in Nd'.
      change (f_log (advanceMillis 1 w)) with (f_log w) in Ee.
      split; [exact Ck|]. exists (new ++ evs). split; [rewrite Ee, En, app_assoc; reflexivity|]. left.
      split; [exact C2|]. split; [rewrite Ck; cbn; lia|]. split; [congruence|]. rewrite outs_app, Qu, Oe. reflexivity.
    + destruct (takes_over s name Old due N small _ w' m C' Hm Some_time ltac:(cbn; lia) ltac:(cbn; lia) First E Sp)
        as (Ck & (x & R) & (Bc & Ce) & _ & _ & _ & evs & p & Ee & Oe).
      change (f_node (advanceMillis 1 w) m) with (f_node w m) in *. change (f_log (advanceMillis 1 w)) with (f_log w) in Ee.
      change (f_clock (advanceMillis 1 w)) with (f_clock w + 1) in *.
      assert (Et : f_clock w + 1 = due m + 1) by lia. rewrite Nd, Et in Ce. fold ce0 in Ce.
      pose proof (k_clock _ _ (c_ok _ _ _ _ _ C)) as Kc.
      pose proof (ce_takeover_later (due m + 1) n0 ltac:(lia) ce_set) as Lt. fold ce0 in Lt.
      split; [exact Ck|]. exists (new ++ evs). split; [rewrite Ee, En, app_assoc; reflexivity|]. right. split; [lia|].
      exists [], [x], [], true, 0%nat, 0, (f_clock w + 1), (f_clock w + 1 - 1001), OnAir, [], O.
      split; [exact R|]. split; [lia|]. split; [lia|]. split; [congruence|]. cbn [seq map]. rewrite choice_times_app, (choice_times_quiet new Qu). cbn [app].
      clear - Oe. unfold outs in Oe. unfold choice_times. induction evs as [|ev evs IH]; [reflexivity|]. cbn [map concat] in Oe. cbn [filter]. unfold choosing at 1.
      destruct (sent ev) as [|y l]; [apply IH; exact Oe|]. cbn [app] in Oe. injection Oe as -> Oe. apply app_eq_nil in Oe as [-> Oe]. cbn [existsb is_choice orb].
      exact (choice_times_quiet evs Oe).
  - destruct (pace_round s name Old N m w D T U fly j s1 h g a kills w' small R Hc E Sp) as (Ck & evs & Ee & P & D' & T' & U' & fly' & j' & s1' & h' & g' & a' & kills' & R').
    { assert (0 <= ce0); [|clearbody ce0; lia]. apply ce_takeover_nonneg. } { exact Le. }
    split; [exact Ck|]. exists (new ++ evs). split; [rewrite Ee, En, app_assoc; reflexivity|]. right. split; [lia|].
    exists D', T', U', fly', j', s1', h', g', a', kills'. destruct P as [(P1 & P2 & P3)|(P1 & P2 & P3)].
    + exists q. rewrite P2, Ck, choice_times_app, P3, app_nil_r. split; [exact R'|]. split; [exact Tc|]. split; [exact P1|]. split; [|exact Ti]. intros Nq. specialize (Lq Nq). lia.
    + exists (S q). rewrite P2, Ck, choice_times_app, P3, Ti, seq_S, map_app. split; [exact R'|]. split; [lia|]. split; [lia|]. split; [lia|]. cbn [map]. f_equal. f_equal. lia.
Qed.

Lemma paced_ok w : paced w -> ok N w.
Proof. intros (new & _ & [[C _]|(_ & D & T & U & fly & j & s1 & h & g & a & kills & q & R & _)]); [apply C|apply R]. Qed.

Lemma paced_ticks k : forall w w', paced w -> f_clock w + Z.of_nat k < 4294967296 - 70000 ->
  fsteps s N (runTicks k) w = Ok w' ->
  (forall own, all_ids (calls_of (name m) (f_log w')) = Old m ++ own -> unused N m Old own) -> paced w'.
Proof.
  induction k as [|k IH]; intros w w' H Hc E Sp.
  - cbn in E. injection E as <-. exact H.
  - cbn [runTicks fsteps fstep obind] in E. destruct (FakeTick s N (advanceMillis 1 w)) as [w1| |] eqn:E1; try discriminate. cbn [obind] in E.
    pose proof (paced_ok w H) as K.
    assert (K1 : ok N w1).
    { assert (K0 : ok N (advanceMillis 1 w)) by (destruct K as [[? ? ? ?] ? ?]; constructor; [constructor|..]; auto; cbn; lia).
      destruct (FakeTick_ok s N _ K0) as (evs & w2 & E2 & K2 & _). rewrite E1 in E2. injection E2 as <-. exact K2. }
    destruct (ticks_log s N k w1 w' K1 E) as (_ & _ & new & Lg).
    destruct (paced_step w w1 H ltac:(lia) E1) as [Ck H1].
    { intros own Eo. rewrite Lg, calls_of_app in Sp. unfold all_ids in *. rewrite map_app, concat_app, map_app, Eo, <- app_assoc in Sp.
      exact (unused_prefix _ _ _ _ _ (Sp _ eq_refl)). }
    apply (IH w1 w' H1); [lia|exact E|exact Sp].
Qed.
End Pace.
