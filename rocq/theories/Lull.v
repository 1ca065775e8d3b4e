(** Proof support for C127: the simulated network between two packets of its
    master, and what replacing nodes does to it then. *)
From Coq Require Import ZArith NArith Lia List Bool.
From Coq Require Import ZifyBool.
From Verif Require Import CInt CIntFacts Packet SpecPacket PacketFacts NetMgr NetHist SpecNet NetFacts Rsm RsmStep RsmEval RsmRun RsmHist SpecRsm RsmFacts RsmTime RoleFacts.
From Verif Require Import Fastled Palette Device LedMgr Effects Show ShowFacts Bench FakeNet FakeNetFacts SimFacts PropFakeNet PropSim PropFailSim.
Import ListNotations.
Open Scope Z_scope.
Ltac Zify.zify_post_hook ::= Z.div_mod_to_equations.

(** Node [m] leads, everybody else is a slave who will wait for it, and nothing
    is on the air or waiting to be sent. *)
Record pause (N m : nat) (w : fakenet) (T : list Z) (s1 h g : Z) (a : phase) (kills : list bool) : Prop := mkPause {
  p_ok : ok N w;
  p_m : (m < N)%nat;
  p_ticked : f_ticked w m = true;
  p_loss : f_loss w = 0;
  p_air : cell w Air = None;
  p_slots : forall i, (i < N)%nat -> cell w (Radio i) = None;
  p_ms : ms (f_clock w) (f_node w m) None T [] s1 h g a kills;
  p_phase : a <> OnAir;
  p_hb : f_clock w <= h + 1000;
  p_slaves : forall i, (i < N)%nat -> i <> m -> state (f_node w i) = Slave /\ g + 5000 <= t_hb (f_node w i)
}.

(** The same, with the names of the nodes and the ids each has transmitted. *)
Record lull (name : nat -> nat) (Old : nat -> list Z) (N m : nat) (w : fakenet) : Prop := mkLull {
  u_pause : exists T s1 h g a kills, pause N m w T s1 h g a kills;
  u_names : forall i, (i < N)%nat -> f_name w i = name i;
  u_inj : forall i j, (i < N)%nat -> (j < N)%nat -> name i = name j -> i = j;
  u_ids : all_ids (calls_of (name m) (f_log w)) = Old m;
  u_knows : forall i, (i < N)%nat -> i <> m -> knows (nm (f_node w i)) (Old i)
}.

Lemma slave_idles e t b n : plat e = Host -> nodeok n -> state n = Slave -> 0 <= t < 4294967296 -> t <= t_hb n ->
  exists evs, machine e t b None n = Ok (n, evs) /\ outs evs = [].
Proof.
  intros Pl Nk St Ht B. unfold machine. rewrite u32_id by lia. assert (I : inc_sound None) by (intros p [=]).
  destruct (nodeok_runs e t n None Pl Nk I Ht) as (n1 & o1 & E1 & T1).
  destruct (not_due_slave e t n None St ltac:(lia) B eq_refl _ _ T1) as [-> ->]. rewrite E1. destruct b; [rewrite E1|]; eexists; split; reflexivity.
Qed.

Lemma pause_patience N m w T s1 h g a kills : pause N m w T s1 h g a kills -> f_clock w + 997 <= g + 5000.
Proof.
  intros P. pose proof (p_ms _ _ _ _ _ _ _ _ _ P) as M. pose proof (p_hb _ _ _ _ _ _ _ _ _ P) as Hb. pose proof (p_phase _ _ _ _ _ _ _ _ _ P) as Na.
  pose proof (m_slot _ _ _ _ _ _ _ _ _ _ M) as [_ Ni]. pose proof (m_led _ _ _ _ _ _ _ _ _ _ M) as Le.
  pose proof (ledger_short _ _ _ _ _ _ Le). pose proof (l_g _ _ _ _ _ _ Le) as G. destruct a; try congruence; cbn [pend] in G; lia.
Qed.

(** A round of it: nothing happens, or the master transmits. *)
Lemma lull_round s name Old N m w w' : (N <= 900)%nat -> lull name Old N m w -> f_clock w + 1 < 4294967296 - 70000 ->
  FakeTick s N (advanceMillis 1 w) = Ok w' ->
  (forall own, all_ids (calls_of (name m) (f_log w')) = Old m ++ own -> unused N m Old own) ->
  f_clock w' = f_clock w + 1 /\ (lull name Old N m w' \/ led name Old N m w').
Proof.
  intros Sm L Hc Et Sp. destruct L as [(T & s1 & h & g & a & kills & P) Nm Inj Ids Kn].
  pose proof (pause_patience _ _ _ _ _ _ _ _ _ P) as Pat. destruct P as [K Hm Tk Ls Air0 Sl0 Ms Na Hb Sl].
  set (w0 := advanceMillis 1 w) in *.
  assert (K0 : ok N w0) by (destruct K as [[? ? ? ?] ? ?]; constructor; [constructor|..]; auto; cbn; lia).
  assert (Ce : forall o, cell w0 o = cell w o) by (intros []; reflexivity).
  destruct (FakeTick_ok s N w0 K0) as (evs & w1 & E1 & K1 & Tm & Lg & Nm1 & _ & Ls1 & _ & Ck & Res).
  rewrite Et in E1. injection E1 as <-.
  change (f_name w0) with (f_name w) in *. change (f_ticked w0) with (f_ticked w) in *. change (f_node w0) with (f_node w) in *.
  change (f_loss w0) with (f_loss w) in *. change (f_log w0) with (f_log w) in *. change (f_clock w0) with (f_clock w + 1) in *.
  set (t := f_clock w + 1) in *.
  assert (Ht : 0 <= t < 4294967296 - 70000) by (pose proof (k_clock _ _ K); subst t; lia).
  assert (Rc : forall i, receives s w0 i = None).
  { intros i. unfold receives. rewrite Ce, Air0. destruct (keeps _ _ _ _); reflexivity. }
  assert (Mine : calls_of (name m) (f_log w') = calls_of (name m) (f_log w) ++ evs m).
  { rewrite Lg, calls_of_app. f_equal. destruct (calls_of_round (f_name w) evs N (name m)) as [Q _].
    - intros i i' Hi Hi'. rewrite !Nm by assumption. apply Inj; assumption.
    - apply Q; [exact Hm|apply Nm; exact Hm]. }
  split; [exact Ck|].
  assert (Oth : forall i, (i < N)%nat -> i <> m -> f_node w' i = f_node w i /\ outs (evs i) = []).
  { intros i Hi Ni. destruct (Sl i Hi Ni) as [S1 S2]. destruct (Tm i Hi) as [Em _]. rewrite Rc in Em.
    destruct (slave_idles (env_of s (f_name w i)) t (f_ticked w i) (f_node w i) eq_refl (k_nodes _ _ K i Hi) S1 ltac:(lia) ltac:(lia)) as (ev & E & O).
    rewrite E in Em. injection Em as <- <-. auto. }
  destruct (Tm m Hm) as [Em _]. rewrite Nm, Tk, Rc in Em by exact Hm.
  assert (M0 : ms t (f_node w m) None T [] s1 h g a kills) by (apply ms_next; [exact Ms|exact Hb|congruence]).
  destruct (ms_machine (env_of s (name m)) t (f_node w m) None T [] s1 h g a kills None (f_node w' m) (evs m) eq_refl M0 Na ltac:(lia))
    as (U' & s1' & h' & a' & kills' & M2 & Na2 & Hb2 & EU & _ & _); [intros p [=]|intros p [=]|exact Em|]. cbn [app] in EU.
  assert (Ids' : all_ids (calls_of (name m) (f_log w')) = Old m ++ U').
  { rewrite Mine, EU. unfold all_ids. rewrite map_app, concat_app, map_app. fold (all_ids (calls_of (name m) (f_log w))). rewrite Ids. reflexivity. }
  apply Sp in Ids' as Sp'. cbv zeta in Res.
  pose proof (ms_short _ _ _ _ _ _ _ _ _ _ M2) as Sh2. pose proof (m_slot _ _ _ _ _ _ _ _ _ _ M2) as Slot2.
  pose proof (first_some (fun i => is_some (after_out (cell w0 (Radio i)) (outs (evs i)))) N) as FS.
  assert (Names' : forall i, (i < N)%nat -> f_name w' i = name i) by (intros i Hi; rewrite Nm1; apply Nm; exact Hi).
  assert (Tick' : forall i, (i < N)%nat -> f_ticked w' i = true) by (intros i Hi; apply (Tm i Hi)).
  destruct (find _ (seq 0 N)) as [k|]; destruct Res as [RA RR].
  - (* the master transmits *)
    right. destruct FS as (Lk & Fk & _). cbn beta in Fk.
    assert (k = m).
    { destruct (Nat.eq_dec k m) as [X|X]; [exact X|]. destruct (Oth k Lk X) as [_ Qk]. rewrite Qk, Ce, Sl0 in Fk by exact Lk. discriminate. }
    subst k. rewrite Ce, Sl0 in Fk, RA by exact Hm. destruct (after_out None (outs (evs m))) as [p|] eqn:Ep; [|discriminate].
    destruct Slot2 as (NU' & Pp & Typ). destruct (exists_last NU') as (U0 & x & EU0). rewrite EU0 in *. rewrite last_last in Pp. rewrite app_length in Sh2. cbn [length] in Sh2.
    exists [], (U0 ++ [x]), [], true, 0%nat, s1', h', g, (match a' with InSlot => OnAir | b => b end), kills'.
    constructor; auto; try congruence.
    + rewrite app_nil_r. exact Ids'.
    + rewrite !app_length. cbn [length]. lia.
    + rewrite Ck, RR, Nat.eqb_refl by exact Hm. destruct M2 as [Q1 Q2 Q3 Q4 Q5 Q6 Q7 Q8 Q9 Q10]. constructor; auto; try congruence.
      * destruct Q3 as [P Q3]. exists (P ++ T). rewrite app_nil_r, <- app_assoc. exact Q3.
      * split; [reflexivity|]. destruct a'; discriminate.
      * destruct Q10 as [L1 L2 L3 L4 L5 L6]. destruct a'; cbn [pend] in *; constructor; auto; discriminate.
    + intros i Hi Ni. destruct (Oth i Hi Ni) as [Qn Qo]. destruct (Sl i Hi Ni) as [S1 S2]. rewrite Qn, app_nil_r.
      split; [exact S1|]. split; [exact (Kn i Hi Ni)|]. split; [|right; exact S2].
      intros q. rewrite RR by exact Hi. destruct (Nat.eqb_spec i m); [contradiction|]. rewrite Ce, Qo, Sl0 by exact Hi. discriminate.
    + exists p. split; [exact RA|]. split; [rewrite Pp; symmetry; apply last_last|]. rewrite Pp. split.
      * intros i Hi Ni. rewrite app_nil_r. apply (proj2 Sp' i x Hi Ni). rewrite firstn_all2 by (rewrite app_length; cbn [length]; lia). apply in_or_app. right. left. reflexivity.
      * split; [apply (near_snoc [] [] U0 x); [apply near_nil|lia]|].
        destruct Typ as [[Ty Ea]|[Ty Ea]]; [left|right]; (split; [exact Ty|]); [rewrite Ea; reflexivity|destruct a'; congruence].
  - (* nobody has anything *)
    left. specialize (FS m Hm) as F0. cbn beta in F0. rewrite Ce, Sl0 in F0 by exact Hm. apply not_some in F0. rewrite F0 in Slot2, M2.
    destruct Slot2 as [U0 Ns]. rewrite U0 in *. rewrite app_nil_r in Ids'. constructor; auto.
    + exists T, s1', h', g, a', kills'. constructor; auto; try congruence; try (rewrite Ck; assumption).
      * intros i Hi Ni. rewrite (proj1 (Oth i Hi Ni)). exact (Sl i Hi Ni).
    + intros i Hi Ni. rewrite (proj1 (Oth i Hi Ni)). exact (Kn i Hi Ni).
Qed.

Lemma lull_ok name Old N m w : lull name Old N m w \/ led name Old N m w -> ok N w.
Proof. intros [[(T & s1 & h & g & a & kills & P) _ _ _ _]|(D & T & U & fly & j & s1 & h & g & a & kills & R)]; [apply P|apply R]. Qed.

Lemma lull_ticks s name Old N m k : (N <= 900)%nat -> forall w w', lull name Old N m w \/ led name Old N m w ->
  f_clock w + Z.of_nat k < 4294967296 - 70000 -> fsteps s N (runTicks k) w = Ok w' ->
  (forall own, all_ids (calls_of (name m) (f_log w')) = Old m ++ own -> unused N m Old own) ->
  lull name Old N m w' \/ led name Old N m w'.
Proof.
  intros Sm. induction k as [|k IH]; intros w w' H Hc E Sp.
  - cbn in E. injection E as <-. exact H.
  - cbn [runTicks fsteps fstep obind] in E. destruct (FakeTick s N (advanceMillis 1 w)) as [w1| |] eqn:E1; try discriminate. cbn [obind] in E.
    pose proof (lull_ok _ _ _ _ _ H) as K.
    assert (K1 : ok N w1).
    { assert (K0 : ok N (advanceMillis 1 w)) by (destruct K as [[? ? ? ?] ? ?]; constructor; [constructor|..]; auto; cbn; lia).
      destruct (FakeTick_ok s N _ K0) as (evs & w2 & E2 & K2 & _). rewrite E1 in E2. injection E2 as <-. exact K2. }
    destruct (ticks_log s N k w1 w' K1 E) as (_ & _ & new & Lg).
    assert (Sp1 : forall own, all_ids (calls_of (name m) (f_log w1)) = Old m ++ own -> unused N m Old own).
    { intros own Eo. rewrite Lg, calls_of_app in Sp. unfold all_ids in *. rewrite map_app, concat_app, map_app, Eo, <- app_assoc in Sp.
      exact (unused_prefix _ _ _ _ _ (Sp _ eq_refl)). }
    assert (H1 : f_clock w1 = f_clock w + 1 /\ (lull name Old N m w1 \/ led name Old N m w1)).
    { destruct H as [L|(D & T & U & fly & j & s1 & h & g & a & kills & R)].
      - apply (lull_round s name Old N m w w1 Sm L ltac:(lia) E1 Sp1).
      - destruct (reign_step s name Old N m Sm _ _ _ _ _ _ _ _ _ _ _ w1 R ltac:(lia) E1 Sp1) as (Ck & R'). split; [exact Ck|]. right. exact R'. }
    destruct H1 as [Ck H1]. apply (IH w1 w' H1); [lia|exact E|exact Sp].
Qed.

(** ** Stops *)
Definition nothing_in_the_air (N : nat) (w : fakenet) : Prop := on_air w = None /\ forall i, (i < N)%nat -> waiting w i = None.

Lemma led_pauses name Old N m w : led name Old N m w -> nothing_in_the_air N w ->
  exists T s1 h g a kills, pause N m w T s1 h g a kills.
Proof.
  intros (D & T & U & fly & j & s1 & h & g & a & kills & R) [Air0 Qt].
  assert (Fa : fly = false /\ a <> OnAir).
  { pose proof (r_air _ _ _ _ _ _ _ _ _ _ _ _ _ _ _ R) as Ra. destruct fly.
    - destruct Ra as (X & CA & _). unfold on_air in Air0. congruence.
    - destruct Ra as (_ & _ & _ & Na & _). auto. }
  destruct Fa as [-> Na]. pose proof (r_ms _ _ _ _ _ _ _ _ _ _ _ _ _ _ _ R) as M. pose proof (r_m _ _ _ _ _ _ _ _ _ _ _ _ _ _ _ R) as Hm.
  pose proof (Qt m Hm) as Q. unfold waiting in Q. rewrite Q in M. destruct (m_slot _ _ _ _ _ _ _ _ _ _ M) as [EU _]. subst U.
  exists T, s1, h, g, a, kills. constructor; auto; try apply R; [exact Hm|].
  intros i Hi Ni. destruct (r_slaves _ _ _ _ _ _ _ _ _ _ _ _ _ _ _ R i Hi Ni) as (S1 & _ & _ & [X|X]); [contradiction|]. auto.
Qed.

Lemma pause_lulls s N m w T s1 h g a kills : pause N m w T s1 h g a kills -> traced s N w ->
  lull (f_name w) (fun i => all_ids (calls_of (f_name w i) (f_log w))) N m w.
Proof.
  intros P Tr. constructor; auto.
  - exists T, s1, h, g, a, kills. exact P.
  - apply (t_inj _ _ _ Tr).
  - intros i Hi _. apply (traced_knows s N w i Tr Hi).
Qed.

Lemma powered_waits s k t : 0 <= t < 4294967296 - 70000 ->
  state (powered s k t) = Slave /\ t + 5000 <= t_hb (powered s k t).
Proof.
  intros Ht. unfold powered, bare. destruct (s_junk s k) as [[[ty1 ty2] d1] d2]. cbn [state t_hb with_num_palettes with_num_effects]. split; [reflexivity|].
  rewrite (u32_id t) by lia. rewrite u32_id by lia. lia.
Qed.

(** A slave is replaced. *)
Lemma ms_earlier t n slot T U s1 h g a kills : ms t n slot T U s1 h g a kills -> ms t n slot T U s1 h (Z.min g t) a kills.
Proof.
  intros [M1 M2 M3 M4 M5 M6 M7 M8 M9 [L1 L2 L3 L4 L5 L6]]. constructor; auto. constructor; auto. destruct a; cbn [pend] in *; lia.
Qed.

Definition pauses (N m : nat) (w : fakenet) : Prop := exists T s1 h g a kills, pause N m w T s1 h g a kills.

Lemma pause_reinit s N m w r w' : junk_ok s -> traced s N w -> pauses N m w -> (r < N)%nat -> r <> m ->
  f_clock w < 4294967296 - 70000 -> reinitNode s r w = Ok w' ->
  pauses N m w' /\ traced s N w' /\ f_clock w' = f_clock w.
Proof.
  intros J Tr (T & s1 & h & g & a & kills & P) Hr Ne Hc E. destruct P as [K Hm Tk Ls Air0 Sl0 Ms Na Hb Sl].
  destruct (reinit_ok s N w r J K Tr Hr) as (w2 & Er & K2 & T2 & Nd & Tk2 & _ & _ & Ls2 & _ & Ck2 & Ce2). rewrite E in Er. injection Er as <-.
  split; [|auto]. assert (Nm : f_node w' m = f_node w m) by (rewrite Nd; unfold upd; destruct (Nat.eqb_spec m r); [congruence|reflexivity]).
  exists T, s1, h, (Z.min g (f_clock w)), a, kills. constructor; auto.
  - rewrite Tk2. unfold upd. destruct (Nat.eqb_spec m r); [congruence|exact Tk].
  - congruence.
  - rewrite (proj2 (Ce2 Air)). exact Air0.
  - intros i Hi. rewrite (proj2 (Ce2 (Radio i))). apply Sl0. exact Hi.
  - rewrite Ck2, Nm. apply ms_earlier. exact Ms.
  - lia.
  - intros i Hi Ni. rewrite Nd. unfold upd. destruct (Nat.eqb_spec i r) as [->|].
    + pose proof (k_clock _ _ K). destruct (powered_waits s (f_born w) (f_clock w) ltac:(lia)) as [A B]. split; [exact A|]. lia.
    + destruct (Sl i Hi Ni). split; [assumption|]. lia.
Qed.

(** Nobody leads any more. *)
Record hush (N : nat) (w : fakenet) : Prop := mkHush {
  q_ok : ok N w;
  q_loss : f_loss w = 0;
  q_air : cell w Air = None;
  q_slots : forall i, (i < N)%nat -> cell w (Radio i) = None;
  q_slaves : forall i, (i < N)%nat -> state (f_node w i) = Slave /\ f_clock w + 997 <= t_hb (f_node w i)
}.

Lemma hush_master s N m w w' : junk_ok s -> traced s N w -> pauses N m w -> f_clock w < 4294967296 - 70000 -> reinitNode s m w = Ok w' ->
  hush N w' /\ traced s N w' /\ f_clock w' = f_clock w.
Proof.
  intros J Tr (T & s1 & h & g & a & kills & P) Hc E. pose proof (pause_patience _ _ _ _ _ _ _ _ _ P). destruct P as [K Hm Tk Ls Air0 Sl0 Ms Na Hb Sl].
  destruct (reinit_ok s N w m J K Tr Hm) as (w2 & Er & K2 & T2 & Nd & Tk2 & _ & _ & Ls2 & _ & Ck2 & Ce2). rewrite E in Er. injection Er as <-.
  split; [|auto]. constructor; auto.
  - congruence.
  - rewrite (proj2 (Ce2 Air)). exact Air0.
  - intros i Hi. rewrite (proj2 (Ce2 (Radio i))). apply Sl0. exact Hi.
  - intros i Hi. rewrite Ck2, Nd. unfold upd. destruct (Nat.eqb_spec i m) as [->|Ni].
    + pose proof (k_clock _ _ K). destruct (powered_waits s (f_born w) (f_clock w) ltac:(lia)). split; [assumption|lia].
    + destruct (Sl i Hi Ni). split; [assumption|]. lia.
Qed.

Lemma hush_reinit s N r w w' : junk_ok s -> traced s N w -> hush N w -> (r < N)%nat -> f_clock w < 4294967296 - 70000 -> reinitNode s r w = Ok w' ->
  hush N w' /\ traced s N w' /\ f_clock w' = f_clock w.
Proof.
  intros J Tr [K Ls Air0 Sl0 Sl] Hr Hc E.
  destruct (reinit_ok s N w r J K Tr Hr) as (w2 & Er & K2 & T2 & Nd & Tk2 & _ & _ & Ls2 & _ & Ck2 & Ce2). rewrite E in Er. injection Er as <-.
  split; [|auto]. constructor; auto.
  - congruence.
  - rewrite (proj2 (Ce2 Air)). exact Air0.
  - intros i Hi. rewrite (proj2 (Ce2 (Radio i))). apply Sl0. exact Hi.
  - intros i Hi. rewrite Ck2, Nd. unfold upd. destruct (Nat.eqb_spec i r) as [->|Ni].
    + pose proof (k_clock _ _ K). destruct (powered_waits s (f_born w) (f_clock w) ltac:(lia)). split; [assumption|lia].
    + apply Sl. exact Hi.
Qed.

Lemma reinits s N m rs : junk_ok s -> forall w w', traced s N w -> pauses N m w -> Forall (fun r => (r < N)%nat) rs ->
  f_clock w < 4294967296 - 70000 -> fsteps s N (map FReinit rs) w = Ok w' ->
  traced s N w' /\ f_clock w' = f_clock w /\ (~ In m rs -> pauses N m w') /\ (In m rs -> hush N w').
Proof.
  intros J.
  assert (Hu : forall rs w w', traced s N w -> hush N w -> Forall (fun r => (r < N)%nat) rs -> f_clock w < 4294967296 - 70000 ->
    fsteps s N (map FReinit rs) w = Ok w' -> traced s N w' /\ f_clock w' = f_clock w /\ hush N w').
  { clear rs. induction rs as [|r rs IH]; intros w w' Tr H F Hc E; cbn [map fsteps fstep obind] in E.
    - injection E as <-. auto.
    - destruct (reinitNode s r w) as [w1| |] eqn:E1; try discriminate. cbn [obind] in E. inversion F; subst.
      destruct (hush_reinit s N r w w1 J Tr H H2 Hc E1) as (H1 & T1 & Ck). destruct (IH w1 w' T1 H1 H3 ltac:(lia) E) as (A & B & C). split; [exact A|]. split; [lia|exact C]. }
  induction rs as [|r rs IH]; intros w w' Tr P F Hc E; cbn [map fsteps fstep obind] in E.
  - injection E as <-. split; [exact Tr|]. split; [reflexivity|]. split; [intros _; exact P|intros []].
  - destruct (reinitNode s r w) as [w1| |] eqn:E1; try discriminate. cbn [obind] in E. inversion F as [|? ? Hr Frs]; subst.
    destruct (Nat.eq_dec r m) as [->|Ne].
    + destruct (hush_master s N m w w1 J Tr P Hc E1) as (H1 & T1 & Ck). destruct (Hu rs w1 w' T1 H1 Frs ltac:(lia) E) as (A & B & C).
      split; [exact A|]. split; [lia|]. split; [intros X; exfalso; apply X; left; reflexivity|intros _; exact C].
    + destruct (pause_reinit s N m w r w1 J Tr P Hr Ne Hc E1) as (P1 & T1 & Ck). destruct (IH w1 w' T1 P1 Frs ltac:(lia) E) as (A & B & C & D).
      split; [exact A|]. split; [lia|]. split; [intros X; apply C; intros Y; apply X; right; exact Y|]. intros [X|X]; [congruence|exact (D X)].
Qed.

(** The first round of it. *)
Lemma hush_round s N w w' : hush N w -> f_clock w < 4294967296 - 70000 -> FakeTick s N (advanceMillis 1 w) = Ok w' ->
  silent N w' /\ f_loss w' = 0 /\ f_clock w' = f_clock w + 1 /\
  forall i, (i < N)%nat -> f_node w' i = f_node w i.
Proof.
  intros [K Ls Air0 Sl0 Sl] Hc Et. set (w0 := advanceMillis 1 w) in *.
  assert (K0 : ok N w0) by (destruct K as [[? ? ? ?] ? ?]; constructor; [constructor|..]; auto; cbn; lia).
  assert (Ce : forall o, cell w0 o = cell w o) by (intros []; reflexivity).
  destruct (FakeTick_ok s N w0 K0) as (evs & w1 & E1 & K1 & Tm & Lg & Nm1 & _ & Ls1 & _ & Ck & Res).
  rewrite Et in E1. injection E1 as <-.
  assert (Oth : forall i, (i < N)%nat -> f_node w' i = f_node w i /\ outs (evs i) = []).
  { intros i Hi. destruct (Sl i Hi) as [S1 S2]. destruct (Tm i Hi) as [Em _].
    assert (Rc : receives s w0 i = None) by (unfold receives; rewrite Ce, Air0; destruct (keeps _ _ _ _); reflexivity). rewrite Rc in Em.
    pose proof (k_clock _ _ K).
    destruct (slave_idles (env_of s (f_name w0 i)) (f_clock w0) (f_ticked w0 i) (f_node w0 i) eq_refl (k_nodes _ _ K i Hi) S1 ltac:(cbn; lia) ltac:(cbn; lia)) as (ev & E & O).
    rewrite E in Em. injection Em as <- <-. auto. }
  split; [|split; [rewrite Ls1; exact Ls|split; [exact Ck|intros i Hi; apply Oth; exact Hi]]].
  pose proof (first_some (fun i => is_some (after_out (cell w0 (Radio i)) (outs (evs i)))) N) as FS. cbv zeta in Res.
  destruct (find _ (seq 0 N)) as [k|].
  { destruct FS as (Lk & Fk & _). destruct (Oth k Lk) as [_ Qk]. rewrite Qk, Ce, Sl0 in Fk by exact Lk. discriminate. }
  destruct Res as [RA RR]. split; [exact RA|]. intros i Hi. split; [apply RR; exact Hi|]. unfold GetCurrentState. rewrite (proj1 (Oth i Hi)). apply Sl. exact Hi.
Qed.
