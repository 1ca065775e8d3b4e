(** Proof support for C121: runs, and ids that follow the random numbers. *)
From Coq Require Import ZArith NArith Lia List Bool.
From Coq Require Import ZifyBool.
From Verif Require Import CInt CIntFacts Packet SpecPacket PacketFacts NetMgr NetHist SpecNet NetFacts Rsm RsmStep RsmEval RsmHist SpecRsm RsmFacts RoleFacts.
From Verif Require Import Fastled Palette Device LedMgr Effects Show Bench FakeNet FakeNetFacts SimFacts AgreeFacts.
Import ListNotations.
Open Scope Z_scope.
Ltac Zify.zify_post_hook ::= Z.div_mod_to_equations.

(** ** Taking over *)
Lemma agree_start N m w x t name Old : reign name Old N m w [] [x] [] true 0%nat 0 t (t - 1001) OnAir [] -> f_clock w = t ->
  t_bc (f_node w m) = t + 2000 -> 0 <= t -> agree N m w true t KH KH t Lost.
Proof.
  intros R Ck Bc Ht. pose proof (r_ms _ _ _ _ _ _ _ _ _ _ _ _ _ _ _ R) as M. pose proof (r_air _ _ _ _ _ _ _ _ _ _ _ _ _ _ _ R) as (X & CA & _ & _ & _ & Ty).
  pose proof (m_hb _ _ _ _ _ _ _ _ _ _ M) as (Hb & _).
  assert (Sl : cell w (Radio m) = None).
  { pose proof (m_slot _ _ _ _ _ _ _ _ _ _ M) as S. destruct (cell w (Radio m)); [|reflexivity]. destruct S as [S _]. congruence. }
  constructor; try lia.
  - cbn [sent_by]. lia.
  - intros _. split; [lia|]. split; [exact Sl|]. exists X. split; [exact CA|]. left. destruct Ty as [[Ty _]|[_ Ty]]; [exact Ty|congruence].
  - rewrite Sl. discriminate.
Qed.

(** ** Ids follow the random numbers *)
Definition drawn_id (e : env) (j : nat) : Z := id_of (plat e) (draw e j).

(** Ids of packets for which the numbers from [r0] up to [r] were drawn. *)
Inductive drawn (e : env) (r0 : nat) : list Z -> nat -> Prop :=
| dr_nil : drawn e r0 [] r0
| dr_snoc ids r j : drawn e r0 ids r -> (r <= j <= r + 2)%nat -> drawn e r0 (ids ++ [drawn_id e j]) (S j).

Lemma drawn_recent e r0 ids r : drawn e r0 ids r -> (r0 <= r)%nat /\
  forall k x, In x (lastn k ids) -> exists j, (r0 <= j < r)%nat /\ (r <= j + 3 * k)%nat /\ x = drawn_id e j.
Proof.
  intros H. induction H as [|ids r j H IH Hj].
  - split; [lia|]. intros k x I. unfold lastn in I. rewrite skipn_nil in I. destruct I.
  - destruct IH as [L IH]. split; [lia|]. intros [|k] x I.
    + unfold lastn in I. rewrite Nat.sub_0_r, skipn_all in I. destruct I.
    + rewrite lastn_app_le in I by (cbn; lia). apply in_app_or in I as [I|[<-|[]]].
      * cbn [length] in I. replace (S k - 1)%nat with k in I by lia. destruct (IH k x I) as (i & B1 & B2 & ->). exists i. split; [lia|]. split; [lia|reflexivity].
      * exists j. split; [lia|]. split; [lia|reflexivity].
Qed.

Lemma drawn_spread e r0 ids r : (forall j k, (r0 <= j < k)%nat -> (k <= j + 75)%nat -> drawn_id e j <> drawn_id e k /\ drawn_id e k <> 0) ->
  drawn_id e r0 <> 0 -> drawn e r0 ids r -> spread ids.
Proof.
  intros V V0 H. assert (V1 : forall j, (r0 <= j)%nat -> drawn_id e j <> 0).
  { intros j Hj. destruct (Nat.eq_dec j r0) as [->|]; [exact V0|]. apply (V (j - 1)%nat j); lia. }
  induction H as [|ids r j H IH Hj].
  - intros a x b E. destruct a; discriminate.
  - intros a x b E. destruct (drawn_recent _ _ _ _ H) as [L Rc].
    destruct b as [|z b] using rev_ind.
    + apply app_inj_tail in E as [<- <-]. split; [apply V1; lia|]. intros I. destruct (Rc _ _ I) as (i & B1 & B2 & Eq).
      destruct (V i j) as [Ne _]; [lia|lia|]. congruence.
    + change (x :: b ++ [z]) with ((x :: b) ++ [z]) in E. rewrite app_assoc in E. apply app_inj_tail in E as [-> _]. apply (IH a x b). reflexivity.
Qed.

Lemma drawn_tick e t n inc out n' r0 ids : state n = Master -> heard n inc = None -> tick e t n inc out n' -> drawn e r0 ids (rng n) ->
  drawn e r0 (ids ++ map (fun x => pid (rtx_packet x)) out) (rng n').
Proof.
  intros St Hd T H. inversion T; subst; try congruence; cbn [map rtx_packet].
  - rewrite app_nil_r. exact H.
  - apply (dr_snoc e r0 ids (rng n) (rng n)); [exact H|lia].
  - apply (dr_snoc e r0 ids (rng n) (S (S (rng n)))); [exact H|lia].
  - apply (dr_snoc e r0 ids (rng n) (rng n)); [exact H|lia].
Qed.

Lemma drawn_machine e t n slot T U s1 h g a kills inc n' evs r0 ids : plat e = Host ->
  ms t n slot T U s1 h g a kills -> a <> OnAir -> 0 <= t < 4294967296 - 70000 -> inc_sound inc ->
  (forall p, inc = Some p -> pid p = last T 0) -> machine e t true inc n = Ok (n', evs) -> drawn e r0 ids (rng n) ->
  drawn e r0 (ids ++ all_ids evs) (rng n').
Proof.
  intros Pl M Na Ht I Own Em H. unfold machine in Em. rewrite u32_id in Em by lia.
  destruct (nodeok_runs e t n inc Pl (m_ok _ _ _ _ _ _ _ _ _ _ M) I ltac:(lia)) as (n1 & o1 & E1 & T1). rewrite E1 in Em.
  destruct (ms_tick e t n slot T U s1 h g a kills inc o1 n1 M Na Ht I Own T1) as (U1 & s2 & h1 & a1 & k1 & M1 & Na1 & _).
  destruct (nodeok_runs e t n1 inc Pl (m_ok _ _ _ _ _ _ _ _ _ _ M1) I ltac:(lia)) as (n2 & o2 & E2 & T2). rewrite E2 in Em. injection Em as <- <-.
  unfold all_ids. cbn [map concat sent]. rewrite app_nil_r, map_app, app_assoc.
  apply (drawn_tick e t n1 inc); [apply M1|exact (ms_deaf _ _ _ _ _ _ _ _ _ _ inc M1 Own)|exact T2|].
  apply (drawn_tick e t n inc); [apply M|exact (ms_deaf _ _ _ _ _ _ _ _ _ _ inc M Own)|exact T1|exact H].
Qed.

Lemma drawn_round s name Old N m w D T U fly j s1 h g a kills w' r0 : (N <= 900)%nat ->
  reign name Old N m w D T U fly j s1 h g a kills -> f_clock w + 1 < 4294967296 - 70000 ->
  FakeTick s N (advanceMillis 1 w) = Ok w' -> drawn (env_of s (name m)) r0 (T ++ U) (rng (f_node w m)) ->
  exists own, all_ids (calls_of (name m) (f_log w')) = Old m ++ own /\ drawn (env_of s (name m)) r0 own (rng (f_node w' m)).
Proof.
  intros Sm R Hc Et Dr. destruct R as [K Hm Nm Inj Tk Ls Ids Len Ms Hb Wt Sl Air_].
  set (w0 := advanceMillis 1 w) in *.
  assert (K0 : ok N w0) by (destruct K as [[? ? ? ?] ? ?]; constructor; [constructor|..]; auto; cbn; lia).
  destruct (FakeTick_ok s N w0 K0) as (evs & w1 & E1 & K1 & Tm & Lg & Nm1 & _).
  rewrite Et in E1. injection E1 as <-.
  change (f_name w0) with (f_name w) in *. change (f_ticked w0) with (f_ticked w) in *. change (f_node w0) with (f_node w) in *.
  change (f_log w0) with (f_log w) in *. change (f_clock w0) with (f_clock w + 1) in *.
  set (t := f_clock w + 1) in *.
  assert (Ht : 0 <= t < 4294967296 - 70000) by (pose proof (k_clock _ _ K); subst t; lia).
  assert (Rc : receives s w0 m = option_map zero_tail (cell w Air)).
  { unfold receives, keeps. change (f_loss w0) with (f_loss w). rewrite Ls. reflexivity. }
  assert (Mine : calls_of (name m) (f_log w') = calls_of (name m) (f_log w) ++ evs m).
  { rewrite Lg, calls_of_app. f_equal. destruct (calls_of_round (f_name w) evs N (name m)) as [Q _].
    - intros i i' Hi Hi'. rewrite !Nm by assumption. apply Inj; assumption.
    - apply Q; [exact Hm|apply Nm; exact Hm]. }
  assert (M0 : ms t (f_node w m) (cell w (Radio m)) T U s1 h g a kills).
  { apply ms_next; [exact Ms|exact Hb|]. intros NU. destruct (Wt NU) as (_ & B & _ & C). lia. }
  assert (So : inc_sound (option_map zero_tail (cell w Air))).
  { intros p. destruct (cell w Air) as [c|] eqn:C; [|discriminate]. cbn. intros [= <-]. apply zero_tail_sound. exact (cell_air_sound _ _ _ (k_mem _ _ K) C). }
  assert (M1 : exists g1 a1 kills1, ms t (f_node w m) (cell w (Radio m)) T U s1 h g1 a1 kills1 /\ a1 <> OnAir).
  { destruct a; try (exists g; eexists _, kills; split; [exact M0|discriminate]). exists t, Got, []. split; [exact (ms_got _ _ _ _ _ _ _ _ _ M0)|discriminate]. }
  destruct M1 as (g1 & a1 & kills1 & M1 & Na1).
  assert (AirT : forall p, option_map zero_tail (cell w Air) = Some p -> pid p = last T 0).
  { intros p. destruct (cell w Air) as [c|] eqn:C; [|discriminate]. cbn. intros [= <-]. cbn [zero_tail pid].
    destruct fly; [destruct Air_ as (X & CA & PX & _); congruence|]. destruct Air_ as (_ & Lst & _ & _ & AA). rewrite <- Lst. exact (AA c eq_refl). }
  destruct (Tm m Hm) as [Em _]. rewrite Nm, Tk, Rc in Em by exact Hm.
  exists ((T ++ U) ++ all_ids (evs m)). split.
  - rewrite Mine, app_assoc, <- Ids. unfold all_ids. rewrite !map_app, concat_app, map_app. reflexivity.
  - exact (drawn_machine (env_of s (name m)) t _ _ T U s1 h g1 a1 kills1 _ _ _ r0 (T ++ U) eq_refl M1 Na1 Ht So AirT Em Dr).
Qed.

(** ** Runs *)
Lemma changes_app a b : changes (a ++ b) <-> changes a \/ changes b.
Proof.
  split.
  - intros [x I]. apply in_app_or in I as [I|I]; [left|right]; exists x; exact I.
  - intros [[x I]|[x I]]; exists x; apply in_or_app; auto.
Qed.
Lemma outs_app a b : outs (a ++ b) = outs a ++ outs b.
Proof. unfold outs. rewrite map_app, concat_app. reflexivity. Qed.

Section Run.
Variable s : source.
Variable name : nat -> nat.
Variable Old : nat -> list Z.
Variable due : nat -> Z.
Variables N m : nat.
Hypothesis small : (N <= 900)%nat.
Hypothesis Hm : (m < N)%nat.
Hypothesis Some_time : due m <> 0.
Hypothesis First : forall i, (i < N)%nat -> i <> m -> due m < due i.

(** Nobody has done anything since the start. *)
Lemma calm_same w w' : calm name Old due N w -> f_clock w <= due m -> FakeTick s N w = Ok w' ->
  f_node w' m = f_node w m /\ exists evs, calls_of (name m) (f_log w') = calls_of (name m) (f_log w) ++ evs /\ outs evs = [].
Proof.
  intros C Hw E. pose proof C as [K C1 CI C2 C3 C4 C5 C6 C7].
  destruct (FakeTick_ok s N w K) as (evs & w1 & E1 & K1 & Tm & Lg & Nm & _).
  rewrite E in E1. injection E1 as <-.
  destruct (Tm m Hm) as [Em _]. rewrite (calm_node s name Old due N small w m C Hm Hw) in Em. injection Em as En Ee. split; [congruence|].
  exists (evs m). split; [|rewrite <- Ee; reflexivity].
  rewrite Lg, calls_of_app. destruct (calls_of_round (f_name w) evs N (name m)) as [R _].
  { intros a b Ha Hb. rewrite !C1 by assumption. apply CI; assumption. }
  rewrite (R m Hm (C1 m Hm)). reflexivity.
Qed.

(** *** The effect *)
Variable L0 : list event.
Variable n0 : node.
Definition origin (w : fakenet) (new : list event) (c : Z) : Prop :=
  (~ changes (outs new) /\ c = due m + 1 /\ effect_index (f_node w m) = effect_index n0 /\ shown (f_node w m) = shown n0 /\
     t_ce (f_node w m) = ce_takeover (due m + 1) n0) \/
  ((exists ev, In ev new /\ at_ ev = c /\ changes (sent ev)) /\ effect_index (f_node w m) = i8 (byte_at (shown (f_node w m)) 0) /\
     ce_takeover (due m + 1) n0 <> 0 /\ ce_takeover (due m + 1) n0 < f_clock w).
Definition course (w : fakenet) : Prop :=
  exists new, calls_of (name m) (f_log w) = L0 ++ new /\
  ((calm name Old due N w /\ f_clock w <= due m /\ f_node w m = n0 /\ outs new = []) \/
   (due m < f_clock w /\ exists D T U fly j s1 h g a kills y yk sk c st,
      reign name Old N m w D T U fly j s1 h g a kills /\ agree N m w fly y yk sk c st /\ origin w new c)).

Hypothesis small' : (N <= 499)%nat.

Lemma course_step w w' : course w -> f_clock w + 1 < 4294967296 - 70000 ->
  FakeTick s N (advanceMillis 1 w) = Ok w' ->
  (forall own, all_ids (calls_of (name m) (f_log w')) = Old m ++ own -> unused N m Old own) ->
  f_clock w' = f_clock w + 1 /\ course w'.
Proof.
  intros (new & En & H) Hc E Sp.
  destruct H as [(C & Hw & Nd & Qu)|(Hw & D & T & U & fly & j & s1 & h & g & a & kills & y & yk & sk & c & st & R & A & O)].
  - pose proof (calm_advance name Old due N small w 1 ltac:(lia) C) as C'.
    destruct (Z.le_gt_cases (f_clock w + 1) (due m)) as [L|L].
    + destruct (calm_tick s name Old due N small _ w' C') as [C2 Ck]; [|exact E|].
      { intros i Hi. cbn. destruct (Nat.eq_dec i m) as [->|Ne]; [lia|]. specialize (First i Hi Ne). lia. }
      destruct (calm_same _ w' C' ltac:(cbn; lia) E) as (Nd' & evs & Ee & Oe). change (f_node (advanceMillis 1 w) m) with (f_node w m) in Nd'.
      change (f_log (advanceMillis 1 w)) with (f_log w) in Ee.
      split; [exact Ck|]. exists (new ++ evs). split; [rewrite Ee, En, app_assoc; reflexivity|]. left.
      split; [exact C2|]. split; [rewrite Ck; cbn; lia|]. split; [congruence|]. rewrite outs_app, Qu, Oe. reflexivity.
    + destruct (takes_over s name Old due N small _ w' m C' Hm Some_time ltac:(cbn; lia) ltac:(cbn; lia) First E Sp)
        as (Ck & (x & R) & (Bc & Ce) & Ei & Se & _ & evs & p & Ee & Oe).
      change (f_node (advanceMillis 1 w) m) with (f_node w m) in *. change (f_log (advanceMillis 1 w)) with (f_log w) in Ee.
      change (f_clock (advanceMillis 1 w)) with (f_clock w + 1) in *.
      assert (Et : f_clock w + 1 = due m + 1) by lia.
      pose proof (k_clock _ _ (c_ok _ _ _ _ _ C)) as Kc.
      split; [exact Ck|]. exists (new ++ evs). split; [rewrite Ee, En, app_assoc; reflexivity|]. right. split; [lia|].
      exists [], [x], [], true, 0%nat, 0, (f_clock w + 1), (f_clock w + 1 - 1001), OnAir, [], (f_clock w + 1), KH, KH, (f_clock w + 1), Lost.
      split; [exact R|]. split; [apply (agree_start N m w' x _ name Old R Ck Bc); lia|].
      left. split; [|split; [lia|]; unfold shown; rewrite Ei, Se, Ce, Nd, Et; auto].
      rewrite outs_app, Qu, Oe. intros [z [I|[]]]. discriminate.
  - destruct (agree_step s name Old N m small' w D T U fly j s1 h g a kills y yk sk c st w' R A Hc E Sp)
      as (Ck & evs & Ee & D' & T' & U' & fly' & j' & s1' & h' & g' & a' & kills' & y' & yk' & sk' & c' & st' & R' & A' & Ch).
    split; [exact Ck|]. exists (new ++ evs). split; [rewrite Ee, En, app_assoc; reflexivity|]. right. split; [lia|].
    exists D', T', U', fly', j', s1', h', g', a', kills', y', yk', sk', c', st'. split; [exact R'|]. split; [exact A'|].
    unfold origin in *. destruct Ch as [(-> & Nc & Sh & Ei & Ce)|(-> & (ev & I & At & Cv) & Ei & Ce1 & Ce2)].
    + destruct O as [(O1 & O2 & O3 & O4 & O5)|((ev & I & O1) & O2 & O3)].
      * left. rewrite outs_app, changes_app. split; [tauto|]. repeat split; congruence.
      * right. split; [exists ev; split; [apply in_or_app; left; exact I|exact O1]|]. split; [congruence|]. split; [tauto|lia].
    + right. split; [exists ev; split; [apply in_or_app; right; exact I|split; [lia|exact Cv]]|]. split; [exact Ei|].
      destruct O as [(O1 & O2 & O3 & O4 & O5)|((ev' & _ & _) & _ & O3)]; [rewrite O5 in *; split; [exact Ce1|lia]|split; [tauto|lia]].
Qed.

Lemma course_ok w : course w -> ok N w.
Proof. intros (new & _ & [[C _]|(_ & D & T & U & fly & j & s1 & h & g & a & kills & y & yk & sk & c & st & R & _)]); [apply C|apply R]. Qed.

Lemma course_ticks k : forall w w', course w -> f_clock w + Z.of_nat k < 4294967296 - 70000 ->
  fsteps s N (runTicks k) w = Ok w' ->
  (forall own, all_ids (calls_of (name m) (f_log w')) = Old m ++ own -> unused N m Old own) -> course w'.
Proof.
  induction k as [|k IH]; intros w w' H Hc E Sp.
  - cbn in E. injection E as <-. exact H.
  - cbn [runTicks fsteps fstep obind] in E. destruct (FakeTick s N (advanceMillis 1 w)) as [w1| |] eqn:E1; try discriminate. cbn [obind] in E.
    pose proof (course_ok w H) as K.
    assert (K1 : ok N w1).
    { assert (K0 : ok N (advanceMillis 1 w)) by (destruct K as [[? ? ? ?] ? ?]; constructor; [constructor|..]; auto; cbn; lia).
      destruct (FakeTick_ok s N _ K0) as (evs & w2 & E2 & K2 & _). rewrite E1 in E2. injection E2 as <-. exact K2. }
    destruct (ticks_log s N k w1 w' K1 E) as (_ & _ & new & Lg).
    destruct (course_step w w1 H ltac:(lia) E1) as [Ck H1].
    { intros own Eo. rewrite Lg, calls_of_app in Sp. unfold all_ids in *. rewrite map_app, concat_app, map_app, Eo, <- app_assoc in Sp.
      exact (unused_prefix _ _ _ _ _ (Sp _ eq_refl)). }
    apply (IH w1 w' H1); [lia|exact E|exact Sp].
Qed.
End Run.

(** *** The ids *)
Section Ids.
Variable s : source.
Variable due : nat -> Z.
Variables N m : nat.
Hypothesis small : (N <= 900)%nat.
Hypothesis Hm : (m < N)%nat.
Hypothesis Some_time : due m <> 0.
Hypothesis First : forall i, (i < N)%nat -> i <> m -> due m < due i.
Variable r0 : nat.
Hypothesis varied : forall j k, (r0 <= j < k)%nat -> (k <= j + 75)%nat -> drawn_id (env_of s m) j <> drawn_id (env_of s m) k /\ drawn_id (env_of s m) k <> 0.
Hypothesis varied0 : drawn_id (env_of s m) r0 <> 0.
Let calm0 := calm (fun i => i) (fun _ => []) due N.
Let reign0 := reign (fun i => i) (fun _ => []) N m.

Definition drawing (w : fakenet) : Prop :=
  (calm0 w /\ f_clock w <= due m /\ rng (f_node w m) = r0) \/
  (exists D T U fly j s1 h g a kills, reign0 w D T U fly j s1 h g a kills /\ drawn (env_of s m) r0 (T ++ U) (rng (f_node w m))).

Lemma over_ids w w' : calm0 w -> due m < f_clock w -> f_clock w < 4294967296 - 70000 -> rng (f_node w m) = r0 ->
  FakeTick s N w = Ok w' -> drawn (env_of s m) r0 (all_ids (calls_of m (f_log w'))) (rng (f_node w' m)).
Proof.
  intros C Hd Hc Rg E. pose proof C as [K C1 CI C2 C3 C4 C5 C6 C7]. pose proof (k_clock _ _ K) as Kc.
  destruct (FakeTick_ok s N w K) as (evs & w1 & E1 & K1 & Tm & Lg & Nm & _).
  rewrite E in E1. injection E1 as <-.
  destruct (Tm m Hm) as [Em _]. rewrite C1, C2 in Em by exact Hm. unfold receives in Em. rewrite C5 in Em.
  replace (if keeps s (f_loss w) (f_lost w) m then option_map zero_tail None else None) with (@None packet) in Em by (destruct (keeps _ _ _ _); reflexivity).
  assert (Mine : all_ids (calls_of m (f_log w')) = all_ids (evs m)).
  { rewrite Lg, calls_of_app. destruct (calls_of_round (f_name w) evs N m) as [R _].
    { intros a b Ha Hb. rewrite !C1 by assumption. apply CI; assumption. }
    rewrite (R m Hm (C1 m Hm)). unfold all_ids in *. rewrite map_app, concat_app, map_app.
    pose proof (C4 m Hm) as I4. cbn in I4. unfold all_ids in I4. rewrite I4. reflexivity. }
  rewrite Mine. destruct (C7 m Hm) as (P1 & P2 & P3). unfold machine in Em. rewrite u32_id in Em by lia. assert (I : inc_sound None) by (intros p [=]).
  destruct (nodeok_runs (env_of s m) (f_clock w) (f_node w m) None eq_refl (k_nodes _ _ K m Hm) I ltac:(lia)) as (n1 & o1 & R1 & T1). rewrite R1 in Em.
  destruct (tick_nodeok (env_of s m) (f_clock w) (f_node w m) None _ _ (k_nodes _ _ K m Hm) I ltac:(lia) T1) as [Nk1 _].
  destruct (nodeok_runs (env_of s m) (f_clock w) n1 None eq_refl Nk1 I ltac:(lia)) as (n2 & o2 & R2 & T2). rewrite R2 in Em. injection Em as <- <-.
  unfold all_ids. cbn [map concat sent]. rewrite app_nil_r, map_app.
  assert (Due : timer_due (f_clock w) (t_hb (f_node w m)) = true) by (apply timer_due_iff; pose proof (g_hb _ (proj1 (k_nodes _ _ K m Hm))); lia).
  assert (A : state n1 = Master /\ drawn (env_of s m) r0 (map (fun x => pid (rtx_packet x)) o1) (rng n1)).
  { inversion T1; subst; try congruence; try discriminate.
    - match goal with H : timer_due _ _ = false /\ _ |- _ => destruct H; congruence end.
    - split; [reflexivity|]. cbn [map rtx_packet]. apply (dr_snoc _ _ [] (rng (f_node w m)) (rng (f_node w m))); [apply dr_nil|lia]. }
  destruct A as [A1 A2]. apply (drawn_tick (env_of s m) (f_clock w) n1 None o2 n2); auto.
Qed.

Lemma drawing_step w w' : drawing w -> f_clock w + 1 < 4294967296 - 70000 -> FakeTick s N (advanceMillis 1 w) = Ok w' -> drawing w' /\ f_clock w' = f_clock w + 1.
Proof.
  intros [(C & Hw & Rg)|(D & T & U & fly & j & s1 & h & g & a & kills & R & Dr)] Hc E.
  - pose proof (calm_advance _ _ due N small w 1 ltac:(lia) C) as C'.
    destruct (Z.le_gt_cases (f_clock w + 1) (due m)) as [L|L].
    + destruct (calm_tick s _ _ due N small _ w' C') as [C2 Ck]; [|exact E|].
      { intros i Hi. cbn. destruct (Nat.eq_dec i m) as [->|Ne]; [lia|]. specialize (First i Hi Ne). lia. }
      destruct (calm_same s _ _ due N m small Hm _ w' C' ltac:(cbn; lia) E) as (Nd' & _).
      split; [|exact Ck]. left. split; [exact C2|]. split; [rewrite Ck; cbn; lia|]. rewrite Nd'. exact Rg.
    + pose proof (over_ids _ w' C' ltac:(cbn; lia) ltac:(cbn; lia) Rg E) as Dr.
      destruct (takes_over s _ _ due N small _ w' m C' Hm Some_time ltac:(cbn; lia) ltac:(cbn; lia) First E) as (Ck & (x & R) & _).
      { intros own Eo. cbn in Eo. rewrite Eo in Dr. apply unused_start. exact (drawn_spread _ _ _ _ varied varied0 Dr). }
      split; [|exact Ck]. right. do 10 eexists. split; [exact R|]. pose proof (r_ids _ _ _ _ _ _ _ _ _ _ _ _ _ _ _ R) as Ri. cbn in Ri. rewrite Ri in Dr. exact Dr.
  - destruct (drawn_round s _ _ N m w D T U fly j s1 h g a kills w' r0 small R Hc E Dr) as (own & Eo & Dr').
    destruct (reign_step s _ _ N m small w D T U fly j s1 h g a kills w' R Hc E) as (Ck & D' & T' & U' & fly' & j' & s1' & h' & g' & a' & k' & R').
    { intros own' Eo'. rewrite Eo in Eo'. apply app_inv_head in Eo'. subst own'. apply unused_start. exact (drawn_spread _ _ _ _ varied varied0 Dr'). }
    split; [|exact Ck]. right. do 10 eexists. split; [exact R'|]. pose proof (r_ids _ _ _ _ _ _ _ _ _ _ _ _ _ _ _ R') as Ri. rewrite Ri in Eo. apply app_inv_head in Eo. rewrite Eo. exact Dr'.
Qed.

Lemma drawing_ticks k : forall w w', drawing w -> f_clock w + Z.of_nat k < 4294967296 - 70000 ->
  fsteps s N (runTicks k) w = Ok w' -> spread (all_ids (calls_of m (f_log w'))).
Proof.
  induction k as [|k IH]; intros w w' H Hc E.
  - cbn in E. injection E as <-. destruct H as [(C & _)|(D & T & U & fly & j & s1 & h & g & a & kills & R & Dr)].
    + rewrite (c_ids _ _ _ _ _ C m Hm). intros a x b Q. destruct a; discriminate.
    + pose proof (r_ids _ _ _ _ _ _ _ _ _ _ _ _ _ _ _ R) as Ri. cbn [app] in Ri. rewrite Ri. exact (drawn_spread _ _ _ _ varied varied0 Dr).
  - cbn [runTicks fsteps fstep obind] in E. destruct (FakeTick s N (advanceMillis 1 w)) as [w1| |] eqn:E1; try discriminate. cbn [obind] in E.
    destruct (drawing_step w w1 H ltac:(lia) E1) as [H1 Ck]. apply (IH w1 w' H1); [lia|exact E].
Qed.
End Ids.
