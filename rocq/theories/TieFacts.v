(** Proof support for C138: several nodes of the simulated network whose waits
    end at the same time. *)
From Coq Require Import ZArith NArith Lia List Bool.
From Coq Require Import ZifyBool.
From Verif Require Import CInt CIntFacts Packet SpecPacket PacketFacts NetMgr NetHist SpecNet NetFacts Rsm RsmStep RsmEval RsmHist SpecRsm RsmFacts RoleFacts.
From Verif Require Import Fastled Palette Device LedMgr Effects Show Bench FakeNet FakeNetFacts SimFacts PropFakeNet PropSim.
Import ListNotations.
Open Scope Z_scope.
Ltac Zify.zify_post_hook ::= Z.div_mod_to_equations.

(** ** One node *)
(** A node that took over at time [t0] and whose next packet of its own is not
    due before [t0 + 1000]. *)
Definition boss (t0 : Z) (n : node) : Prop :=
  state n = Master /\ t_hb n = t0 + 1000 /\ t_bc n = t0 + 2000 /\ (t_ce n = 0 \/ t0 + 1000 <= t_ce n).

Lemma boss_quiet e t0 t n inc out n' : boss t0 n -> 0 <= t0 -> t <= t0 + 1000 -> heard n inc = None -> tick e t n inc out n' -> out = [] /\ n' = n.
Proof.
  intros (S & H & B & C) P L Hd T.
  assert (D1 : timer_due t (t_hb n) = false) by (apply timer_due_false; lia).
  assert (D2 : timer_due t (t_ce n) = false) by (apply timer_due_false; lia).
  assert (D3 : timer_due t (t_bc n) = false) by (apply timer_due_false; lia).
  inversion T; subst; try congruence. auto.
Qed.

(** After a first tick that leaves nothing to do the second does nothing. *)
Lemma machine_once e t n inc o1 n1 : plat e = Host -> nodeok n -> inc_sound inc -> 0 <= t < 4294967296 ->
  RadioTick e t inc n = Ok (tt, n1, o1) -> tick e t n inc o1 n1 ->
  (forall out n', tick e t n1 inc out n' -> out = [] /\ n' = n1) ->
  exists evs, machine e t true inc n = Ok (n1, evs) /\ outs evs = o1.
Proof.
  intros Pl Nk I Ht E1 T1 Q. unfold machine. rewrite u32_id by lia. rewrite E1.
  destruct (tick_nodeok e t n inc _ _ Nk I Ht T1) as [Nk1 _].
  destruct (nodeok_runs e t n1 inc Pl Nk1 I Ht) as (n2 & o2 & E2 & T2). rewrite E2. destruct (Q _ _ T2) as [-> ->].
  eexists. split; [reflexivity|]. unfold outs. cbn. rewrite app_nil_r. reflexivity.
Qed.

Lemma boss_ignores e t0 t n D inc : plat e = Host -> nodeok n -> boss t0 n -> knows (nm n) D -> inc_sound inc ->
  0 <= t0 -> 0 <= t < 4294967296 -> t <= t0 + 1000 -> (forall p, inc = Some p -> In (pid p) (last5 D)) ->
  exists evs, machine e t true inc n = Ok (n, evs) /\ outs evs = [].
Proof.
  intros Pl Nk B Kn I P Ht L Old.
  assert (H : heard n inc = None) by (destruct inc as [p|]; [|reflexivity]; apply (knows_heard n D p Kn); apply Old; reflexivity).
  destruct (nodeok_runs e t n inc Pl Nk I Ht) as (n1 & o1 & E1 & T1).
  destruct (boss_quiet e t0 t n inc _ _ B P L H T1) as [-> ->].
  apply (machine_once e t n inc [] n Pl Nk I Ht E1 T1). intros out n'. apply (boss_quiet e t0 t n inc out n' B P L H).
Qed.

(** A node whose wait is over takes over. *)
Lemma waiter_takes e t n D : plat e = Host -> nodeok n -> state n = Slave -> knows (nm n) D -> t_hb n <> 0 -> t = t_hb n + 1 ->
  0 <= t < 4294967296 - 70000 -> (ce_takeover t n = 0 \/ t + 1000 <= ce_takeover t n) ->
  exists n' evs, machine e t true None n = Ok (n', evs) /\ outs evs = [Own ByHeartbeat (hb_packet e t n)] /\
    boss t n' /\ knows (nm n') (D ++ [RsmStep.fresh e n]) /\ rng n' = S (rng n).
Proof.
  intros Pl Nk St Kn Nz Et Ht Ce. assert (I : inc_sound None) by (intros p [=]).
  destruct (nodeok_runs e t n None Pl Nk I ltac:(lia)) as (n1 & o1 & E1 & T1).
  assert (Due : timer_due t (t_hb n) = true) by (apply timer_due_iff; pose proof (g_hb _ (proj1 Nk)); lia).
  assert (R : o1 = [Own ByHeartbeat (hb_packet e t n)] /\ boss t n1 /\ knows (nm n1) (D ++ [RsmStep.fresh e n]) /\ rng n1 = S (rng n)).
  { inversion T1; subst; try congruence; try discriminate; [destruct H0; congruence|]. split; [reflexivity|].
    split; [|split; [apply knows_push; exact Kn|reflexivity]]. split; [reflexivity|]. cbn. rewrite !u32_id by lia. auto. }
  destruct R as (-> & B & K1 & R1).
  destruct (machine_once e t n None _ n1 Pl Nk I ltac:(lia) E1 T1) as (evs & Em & Eo).
  { intros out n'. apply (boss_quiet e t t n1 None out n' B ltac:(lia) ltac:(lia) eq_refl). }
  exists n1, evs. auto.
Qed.

(** A new master that gets the heartbeat of another. *)
Lemma boss_hears_heartbeat e t0 t n D p : plat e = Host -> nodeok n -> boss t0 n -> knows (nm n) D -> sound p -> ptype p = 0 ->
  0 <= t0 -> t0 <= t <= t0 + 1000 -> t0 < 4294967296 - 70000 -> ~ In (pid p) (last5 D) ->
  exists n' evs, machine e t true (Some p) n = Ok (n', evs) /\
    ((pid p < election_number e n /\ outs evs = [Forwarded p; Own ByElection (claim_packet e n)] /\ boss t0 n' /\ knows (nm n') (D ++ [pid p; pid (claim_packet e n)])) \/
     (election_number e n <= pid p /\ outs evs = [Forwarded p] /\ state n' = Slave /\ knows (nm n') (D ++ [pid p]) /\ t + 5000 <= t_hb n')).
Proof.
  intros Pl Nk B Kn So Ty P Ht Hc New. assert (I : inc_sound (Some p)) by (intros q [= <-]; exact So).
  destruct (nodeok_runs e t n (Some p) Pl Nk I ltac:(lia)) as (n1 & o1 & E1 & T1).
  pose proof (knows_new n D p Kn New) as Hd. pose proof B as (St & B1 & B2 & B3).
  assert (R : (pid p < election_number e n /\ o1 = [Forwarded p; Own ByElection (claim_packet e n)] /\ boss t0 n1 /\ knows (nm n1) (D ++ [pid p; pid (claim_packet e n)])) \/
     (election_number e n <= pid p /\ o1 = [Forwarded p] /\ state n1 = Slave /\ knows (nm n1) (D ++ [pid p]) /\ t + 5000 <= t_hb n1)).
  { unfold HEARTBEAT, CLAIM_MASTER, SET_EFFECT, SET_CONTROL in *.
    inversion T1; subst; try congruence;
      match goal with H : heard n (Some p) = Some ?q |- _ => rewrite Hd in H; injection H as <- end;
      unfold HEARTBEAT, CLAIM_MASTER, SET_EFFECT, SET_CONTROL in *; try lia.
    - left. split; [assumption|]. split; [reflexivity|]. split; [repeat split; assumption|].
      change [pid p; pid (claim_packet e n)] with ([pid p] ++ [pid (claim_packet e n)]). rewrite app_assoc.
      apply (knows_push (nm_push (nm n) (pid p)) (D ++ [pid p])), knows_push. exact Kn.
    - right. split; [assumption|]. split; [reflexivity|]. split; [reflexivity|]. split; [apply knows_push; exact Kn|]. cbn. rewrite u32_id by lia. lia. }
  assert (Q : forall out n', tick e t n1 (Some p) out n' -> out = [] /\ n' = n1).
  { intros out n' T2. destruct R as [(_ & _ & B' & K')|(_ & _ & S' & K' & H')].
    - apply (boss_quiet e t0 t n1 (Some p) out n' B' P ltac:(lia)); [|exact T2]. apply (knows_heard n1 _ p K').
      change [pid p; pid (claim_packet e n)] with ([pid p] ++ [pid (claim_packet e n)]). rewrite app_assoc.
      assert (X := last_in_last5 (D ++ [pid p]) [pid (claim_packet e n)] ltac:(intros Z; apply app_eq_nil in Z as [_ Z]; discriminate) ltac:(cbn; lia)).
      rewrite last_last in X. exact X.
    - apply (not_due_slave e t n1 (Some p) S' ltac:(lia) ltac:(lia)); [|exact T2]. apply (knows_heard n1 _ p K'), last5_incl_snoc. }
  destruct (machine_once e t n (Some p) o1 n1 Pl Nk I ltac:(lia) E1 T1 Q) as (evs & Em & Eo).
  exists n1, evs. split; [exact Em|]. rewrite Eo. exact R.
Qed.

(** A claim makes everybody else a slave. *)
Lemma claim_heard e t n D p : plat e = Host -> nodeok n -> knows (nm n) D -> sound p -> ptype p = 1 -> 0 <= t < 4294967296 - 70000 ->
  ~ In (pid p) (last5 D) ->
  exists n' evs, machine e t true (Some p) n = Ok (n', evs) /\ outs evs = [Forwarded p] /\ state n' = Slave /\ knows (nm n') (D ++ [pid p]) /\ t + 5000 <= t_hb n'.
Proof.
  intros Pl Nk Kn So Ty Ht New. assert (I : inc_sound (Some p)) by (intros q [= <-]; exact So).
  destruct (nodeok_runs e t n (Some p) Pl Nk I ltac:(lia)) as (n1 & o1 & E1 & T1).
  pose proof (knows_new n D p Kn New) as Hd.
  assert (R : o1 = [Forwarded p] /\ state n1 = Slave /\ knows (nm n1) (D ++ [pid p]) /\ t + 5000 <= t_hb n1).
  { unfold HEARTBEAT, CLAIM_MASTER, SET_EFFECT, SET_CONTROL in *. pose proof (silence_range e n) as Sr.
    inversion T1; subst; try congruence;
      match goal with H : heard n (Some p) = Some ?q |- _ => rewrite Hd in H; injection H as <- end;
      unfold HEARTBEAT, CLAIM_MASTER, SET_EFFECT, SET_CONTROL in *; try lia;
      (split; [reflexivity|]); (split; [first [reflexivity|assumption]|]); (split; [apply knows_push; exact Kn|]); cbn; rewrite u32_id by lia; lia. }
  destruct R as (-> & S1 & K1 & H1).
  destruct (machine_once e t n (Some p) _ n1 Pl Nk I ltac:(lia) E1 T1) as (evs & Em & Eo).
  { intros out n'. apply (not_due_slave e t n1 (Some p) S1 ltac:(lia) ltac:(lia)). apply (knows_heard n1 _ p K1), last5_incl_snoc. }
  exists n1, evs. auto.
Qed.

(** A slave that gets a heartbeat. *)
Lemma slave_gets e t n D p : plat e = Host -> nodeok n -> state n = Slave -> knows (nm n) D -> sound p -> ptype p = 0 ->
  0 <= t < 4294967296 - 70000 -> ~ In (pid p) (last5 D) ->
  exists n' evs, machine e t true (Some p) n = Ok (n', evs) /\ outs evs = [Forwarded p] /\ state n' = Slave /\ knows (nm n') (D ++ [pid p]) /\ t + 5000 <= t_hb n'.
Proof.
  intros Pl Nk St Kn So Ty Ht New. destruct (slave_takes e t n D p Pl Nk St Kn So Ht New (or_introl Ty)) as (n' & evs & E & O & S & K & H & _).
  exists n', evs. specialize (H Ty). auto with zarith.
Qed.
Lemma slave_still e t n D inc : plat e = Host -> nodeok n -> state n = Slave -> knows (nm n) D -> inc_sound inc ->
  0 <= t < 4294967296 -> t <= t_hb n -> (forall p, inc = Some p -> In (pid p) (last5 D)) ->
  exists evs, machine e t true inc n = Ok (n, evs) /\ outs evs = [].
Proof. intros Pl Nk St Kn I Ht B Old. eexists. split; [apply (slave_ignores e t n D inc Pl Nk St Kn I Ht B Old)|reflexivity]. Qed.

(** ** A round of the network without loss *)
Record whole (name : nat -> nat) (N : nat) (w : fakenet) : Prop := mkWhole {
  h_ok : ok N w;
  h_names : forall i, (i < N)%nat -> f_name w i = name i;
  h_inj : forall i j, (i < N)%nat -> (j < N)%nat -> name i = name j -> i = j;
  h_ticked : forall i, (i < N)%nat -> f_ticked w i = true;
  h_loss : f_loss w = 0
}.
Definition ids_of (name : nat -> nat) (w : fakenet) (i : nat) : list Z := all_ids (calls_of (name i) (f_log w)).

Lemma whole_advance name N w d : 0 <= d -> whole name N w -> whole name N (advanceMillis d w).
Proof. intros Hd [K C1 C2 C3 C4]. constructor; auto. destruct K as [[? ? ? ?] ? ?]; constructor; [constructor|..]; auto; cbn; lia. Qed.
Lemma calm_whole name Old due N w : calm name Old due N w -> whole name N w.
Proof. intros [K C1 C2 C3 C4 _ _ _ _]. constructor; auto. Qed.

Lemma all_ids_app a b : all_ids (a ++ b) = all_ids a ++ map (fun x => pid (rtx_packet x)) (outs b).
Proof. unfold all_ids, outs. rewrite map_app, concat_app, map_app. reflexivity. Qed.

Lemma whole_round s name N w w' : whole name N w -> FakeTick s N w = Ok w' ->
  whole name N w' /\ f_clock w' = f_clock w /\ exists evs : nat -> list event,
  (forall i, (i < N)%nat -> machine (env_of s (name i)) (f_clock w) true (option_map zero_tail (cell w Air)) (f_node w i) = Ok (f_node w' i, evs i)) /\
  (forall i, (i < N)%nat -> ids_of name w' i = ids_of name w i ++ map (fun x => pid (rtx_packet x)) (outs (evs i))) /\
  let full i := after_out (cell w (Radio i)) (outs (evs i)) in
  ((exists k, (k < N)%nat /\ full k <> None /\ (forall i, (i < k)%nat -> full i = None) /\ cell w' Air = full k /\
      forall i, (i < N)%nat -> cell w' (Radio i) = if Nat.eqb i k then None else full i) \/
   ((forall i, (i < N)%nat -> full i = None) /\ cell w' Air = None /\ forall i, (i < N)%nat -> cell w' (Radio i) = None)).
Proof.
  intros [K C1 C2 C3 C4] E.
  destruct (FakeTick_ok s N w K) as (evs & w1 & E1 & K1 & Tm & Lg & Nm & _ & Ls & _ & Ck & Res).
  rewrite E in E1. injection E1 as <-. split.
  { constructor; auto; [intros i Hi; rewrite Nm; auto|intros i Hi; apply (Tm i Hi)|congruence]. }
  split; [exact Ck|]. exists evs. split.
  { intros i Hi. destruct (Tm i Hi) as [Em _]. rewrite C1, C3 in Em by exact Hi. unfold receives, keeps in Em. rewrite C4 in Em. exact Em. }
  split.
  { intros i Hi. unfold ids_of. rewrite Lg, calls_of_app. destruct (calls_of_round (f_name w) evs N (name i)) as [R _].
    { intros x y Hx Hy. rewrite !C1 by assumption. apply C2; assumption. }
    rewrite (R i Hi (C1 i Hi)). apply all_ids_app. }
  cbv zeta in *. pose proof (first_some (fun i => is_some (after_out (cell w (Radio i)) (outs (evs i)))) N) as FS.
  destruct (find _ (seq 0 N)) as [k|].
  - left. destruct FS as (Lk & Fk & Bk). destruct Res as [RA RR]. exists k. split; [exact Lk|].
    split; [destruct (after_out _ _); [discriminate|cbn in Fk; discriminate]|]. split; [intros i Hi; apply not_some, Bk; exact Hi|]. auto.
  - right. destruct Res as [RA RR]. split; [intros i Hi; apply not_some, FS; exact Hi|]. auto.
Qed.

(** ** The tie *)
Section Tie.
Variable s : source.
Variable name : nat -> nat.
Variable Old : nat -> list Z.
Variable due : nat -> Z.
Variable N : nat.
Hypothesis small : (N <= 900)%nat.
(** The nodes while everybody waits. *)
Variable n0 : nat -> node.
(** The first of those that wait least. *)
Variable a : nat.
Hypothesis Ha : (a < N)%nat.
Hypothesis Some_time : due a <> 0.
Hypothesis Least : forall i, (i < N)%nat -> due a <= due i.
Hypothesis Lowest : forall i, (i < a)%nat -> due i <> due a.

Let t : Z := due a + 1.
Hypothesis Room : 0 <= due a < 4294967296 - 80000.

Definition tiedb (i : nat) : bool := due i =? due a.
Definition hid (i : nat) : Z := RsmStep.fresh (env_of s (name i)) (n0 i).
(** What a new master draws when it hears another, and the id of its claim. *)
Definition number (i : nat) : Z :=
  match random2 Host 1 65535 (s_draw s (name i) (S (rng (n0 i)))) with Ok v => v | _ => 0 end.
Definition cid (i : nat) : Z := id_of Host (s_draw s (name i) (S (S (rng (n0 i))))).
Definition winsb (i : nat) : bool := tiedb i && negb (Nat.eqb i a) && (hid a <? number i).
(** What node [i] has transmitted after the heartbeat of [a] came in. *)
Definition own (i : nat) : list Z := if tiedb i then [hid i] else [].
Definition known (i : nat) : list Z :=
  Old i ++ own i ++ (if Nat.eqb i a then [] else hid a :: (if winsb i then [cid i] else [])).

Hypothesis Timer : forall i, (i < N)%nat -> tiedb i = true -> ce_takeover t (n0 i) = 0 \/ t + 1000 <= ce_takeover t (n0 i).
Hypothesis New_heartbeat : forall i, (i < N)%nat -> i <> a -> ~ In (hid a) (last5 (Old i ++ own i)).

Definition waiting (w : fakenet) : Prop := calm name Old due N w /\ forall i, (i < N)%nat -> f_node w i = n0 i.

Lemma waiting_tick w w' : waiting w -> f_clock w <= due a -> FakeTick s N w = Ok w' -> waiting w' /\ f_clock w' = f_clock w.
Proof.
  intros [C Nd] L E. pose proof (calm_whole _ _ _ _ _ C) as H.
  destruct (calm_tick s name Old due N small w w' C) as [C' Ck]; [intros i Hi; pose proof (Least i Hi); lia|exact E|].
  split; [|exact Ck]. split; [exact C'|]. intros i Hi. destruct (whole_round s name N w w' H E) as (_ & _ & evs & Em & _).
  specialize (Em i Hi). rewrite (c_air _ _ _ _ _ C) in Em.
  assert (Q := calm_node s name Old due N small w i C Hi ltac:(pose proof (Least i Hi); lia)).
  rewrite (c_names _ _ _ _ _ C), (c_ticked _ _ _ _ _ C) in Q by exact Hi. unfold receives in Q. rewrite (c_air _ _ _ _ _ C) in Q.
  replace (if keeps s (f_loss w) (f_lost w) i then option_map zero_tail None else None) with (@None packet) in Q by (destruct (keeps _ _ _ _); reflexivity).
  cbn [option_map] in Em. rewrite Q in Em. injection Em as <- _. auto.
Qed.

Lemma waiting_idle os : Forall idle os -> forall w w', waiting w -> f_clock w + passed os <= due a -> fsteps s N os w = Ok w' ->
  waiting w' /\ f_clock w' = f_clock w + passed os.
Proof.
  intros F. induction F as [|o os Ho F IH]; intros w w' W B E.
  - cbn in E |- *. injection E as <-. split; [exact W|lia].
  - assert (P0 : 0 <= passed os).
    { clear - F. induction F as [|o os Ho F IH]; [cbn; lia|]. unfold passed in *. destruct o; cbn [fold_right idle] in *; try contradiction; lia. }
    destruct o; try contradiction; cbn [fsteps fstep obind] in E; cbn [passed fold_right] in *; cbn in Ho.
    + fold (passed os) in *. destruct W as [C Nd].
      destruct (IH _ w' (conj (calm_advance name Old due N small w d Ho C) Nd) ltac:(cbn; lia) E) as [W' Ck]. split; [exact W'|]. rewrite Ck. cbn. lia.
    + fold (passed os) in *. destruct (FakeTick s N w) as [w1| |] eqn:E1; try discriminate. cbn [obind] in E.
      destruct (waiting_tick w w1 W ltac:(lia) E1) as [W1 Ck1].
      destruct (IH w1 w' W1 ltac:(lia) E) as [W' Ck]. split; [exact W'|]. lia.
Qed.

Lemma tied_a : tiedb a = true.
Proof. unfold tiedb. apply Z.eqb_refl. Qed.

(** Right after the waits ended: the heartbeat of [a] is on the air, those of
    the others wait in their radios. *)
Record outset (w : fakenet) : Prop := mkOutset {
  o_whole : whole name N w;
  o_clock : f_clock w = t;
  o_ids : forall i, (i < N)%nat -> ids_of name w i = Old i ++ own i;
  o_knows : forall i, (i < N)%nat -> knows (nm (f_node w i)) (Old i ++ own i);
  o_boss : forall i, (i < N)%nat -> tiedb i = true -> boss t (f_node w i) /\ rng (f_node w i) = S (rng (n0 i));
  o_slave : forall i, (i < N)%nat -> tiedb i = false -> state (f_node w i) = Slave;
  o_air : exists x, cell w Air = Some x /\ pid x = hid a /\ ptype x = 0;
  o_slot : cell w (Radio a) = None
}.

Lemma outset_first w w' : waiting w -> f_clock w = t -> FakeTick s N w = Ok w' -> outset w'.
Proof.
  intros [C Nd] Ct E. pose proof (calm_whole _ _ _ _ _ C) as H.
  destruct (whole_round s name N w w' H E) as (H' & Ck & evs & Em & Ids & Res).
  pose proof C as [K _ _ _ _ CI CA CS CN]. rewrite CA in Em. cbn [option_map] in Em.
  assert (Tied : forall i, (i < N)%nat -> tiedb i = true ->
    boss t (f_node w' i) /\ knows (nm (f_node w' i)) (Old i ++ [hid i]) /\ rng (f_node w' i) = S (rng (n0 i)) /\
    outs (evs i) = [Own ByHeartbeat (hb_packet (env_of s (name i)) t (n0 i))]).
  { intros i Hi Ti. specialize (Em i Hi). destruct (CN i Hi) as (S1 & K1 & T1). rewrite Nd in * by exact Hi. unfold tiedb in Ti.
    pose proof (k_nodes _ _ K i Hi) as Nk. rewrite Nd in Nk by exact Hi.
    destruct (waiter_takes (env_of s (name i)) t (n0 i) (Old i) eq_refl Nk S1 K1 ltac:(lia) ltac:(unfold t; lia) ltac:(unfold t; lia) (Timer i Hi Ti)) as (n' & ev & E1 & O1 & B1 & K2 & R1).
    rewrite Ct, E1 in Em. injection Em as <- <-. auto. }
  assert (Not : forall i, (i < N)%nat -> tiedb i = false -> f_node w' i = f_node w i /\ outs (evs i) = []).
  { intros i Hi Ti. specialize (Em i Hi). destruct (CN i Hi) as (S1 & K1 & T1). unfold tiedb in Ti. pose proof (Least i Hi).
    pose proof (k_nodes _ _ K i Hi) as Nk. assert (I : inc_sound None) by (intros p [=]).
    destruct (slave_still (env_of s (name i)) (f_clock w) (f_node w i) (Old i) None eq_refl Nk S1 K1 I ltac:(unfold t in Ct; lia) ltac:(unfold t in Ct; lia) ltac:(intros p [=])) as (ev & E1 & O1).
    rewrite E1 in Em. injection Em as <- <-. auto. }
  assert (Full : forall i, (i < N)%nat -> after_out (cell w (Radio i)) (outs (evs i)) = if tiedb i then Some (hb_packet (env_of s (name i)) t (n0 i)) else None).
  { intros i Hi. rewrite CS by exact Hi. destruct (tiedb i) eqn:Ti; [destruct (Tied i Hi Ti) as (_ & _ & _ & ->)|destruct (Not i Hi Ti) as (_ & ->)]; reflexivity. }
  cbv zeta in Res. destruct Res as [(k & Hk & Fk & Bk & RA & RR)|(Bk & _)].
  2:{ specialize (Bk a Ha). rewrite Full, tied_a in Bk by exact Ha. discriminate. }
  assert (Ek : k = a).
  { destruct (lt_eq_lt_dec k a) as [[L|L]|L]; [|exact L|].
    - exfalso. apply Fk. rewrite Full by exact Hk. specialize (Lowest k L). destruct (tiedb k) eqn:Tk; [|reflexivity]. unfold tiedb in Tk. lia.
    - exfalso. specialize (Bk a L). rewrite Full, tied_a in Bk by exact Ha. discriminate. }
  subst k. constructor; auto.
  - congruence.
  - intros i Hi. rewrite Ids by exact Hi. unfold ids_of. rewrite CI by exact Hi. unfold own.
    destruct (tiedb i) eqn:Ti; [destruct (Tied i Hi Ti) as (_ & _ & _ & ->)|destruct (Not i Hi Ti) as (_ & ->)]; reflexivity.
  - intros i Hi. unfold own. destruct (tiedb i) eqn:Ti; [destruct (Tied i Hi Ti) as (_ & K1 & _); exact K1|].
    destruct (Not i Hi Ti) as (-> & _). rewrite app_nil_r. apply (CN i Hi).
  - intros i Hi Ti. destruct (Tied i Hi Ti) as (B1 & _ & R1 & _). auto.
  - intros i Hi Ti. destruct (Not i Hi Ti) as (-> & _). apply (CN i Hi).
  - rewrite RA, Full, tied_a by exact Ha. eexists. split; [reflexivity|]. split; reflexivity.
  - rewrite RR, Nat.eqb_refl by exact Ha. reflexivity.
Qed.

(** The heartbeat of [a] has come in. *)
Record settled (w : fakenet) : Prop := mkSettled {
  e_whole : whole name N w;
  e_clock : t + 1 <= f_clock w <= t + 900;
  e_ids : forall i, (i < N)%nat -> ids_of name w i = known i;
  e_knows : forall i, (i < N)%nat -> knows (nm (f_node w i)) (known i);
  e_boss : forall i, (i < N)%nat -> (i = a \/ winsb i = true) -> boss t (f_node w i);
  e_slave : forall i, (i < N)%nat -> i <> a -> winsb i = false -> state (f_node w i) = Slave /\ t + 1 + 5000 <= t_hb (f_node w i);
  e_slot : forall i p, (i < N)%nat -> cell w (Radio i) = Some p -> i <> a /\ if winsb i then pid p = cid i /\ ptype p = 1 else pid p = hid a
}.

(** Where the packets are: [k] was the first with one. *)
Definition flown (w : fakenet) (full : nat -> option packet) (k : nat) : Prop :=
  (k < N)%nat /\ full k <> None /\ (forall i, (i < k)%nat -> full i = None) /\ cell w Air = full k /\
  forall i, (i < N)%nat -> cell w (Radio i) = if Nat.eqb i k then None else full i.

Lemma settled_first w w' : outset w -> FakeTick s N (advanceMillis 1 w) = Ok w' ->
  settled w' /\ f_clock w' = t + 1 /\ exists full,
  ((exists k, flown w' full k) \/ (forall i, (i < N)%nat -> full i = None) /\ cell w' Air = None) /\
  full a = None /\ forall i, (i < N)%nat -> i <> a -> exists p, full i = Some p /\ if winsb i then pid p = cid i /\ ptype p = 1 else pid p = hid a.
Proof.
  intros [H Ct CI CK CB CS (x & Ex & Px & Tx) CSl] E.
  destruct (whole_round s name N _ w' (whole_advance _ _ _ 1 ltac:(lia) H) E) as (H' & Ck & evs & Em & Ids & Res).
  assert (Ca : f_clock (advanceMillis 1 w) = t + 1) by (cbn; lia). rewrite Ca in *.
  change (cell (advanceMillis 1 w) Air) with (cell w Air) in Em. rewrite Ex in Em. cbn [option_map] in Em. set (y := zero_tail x) in *.
  assert (Py : pid y = hid a /\ ptype y = 0) by (split; [exact Px|exact Tx]). destruct Py as [Py Ty].
  assert (So : sound y) by (apply zero_tail_sound; eapply cell_air_sound; [apply (h_ok _ _ _ H)|exact Ex]).
  assert (I : inc_sound (Some y)) by (intros q [= <-]; exact So).
  assert (Nk : forall i, (i < N)%nat -> nodeok (f_node w i)) by (intros i Hi; apply (k_nodes _ _ (h_ok _ _ _ H) i Hi)).
  assert (A : f_node w' a = f_node w a /\ outs (evs a) = []).
  { specialize (Em a Ha). destruct (boss_ignores (env_of s (name a)) t (t + 1) (f_node w a) (Old a ++ own a) (Some y) eq_refl (Nk a Ha) (proj1 (CB a Ha tied_a)) (CK a Ha) I
      ltac:(unfold t; lia) ltac:(unfold t; lia) ltac:(lia)) as (ev & E1 & O1).
    { intros p [= <-]. rewrite Py. unfold own. rewrite tied_a. apply last5_incl_snoc. }
    cbn [advanceMillis set_clock f_node] in Em. rewrite E1 in Em. injection Em as <- <-. auto. }
  assert (B : forall i, (i < N)%nat -> i <> a ->
    knows (nm (f_node w' i)) (known i) /\
    (if winsb i then boss t (f_node w' i) else state (f_node w' i) = Slave /\ t + 1 + 5000 <= t_hb (f_node w' i)) /\
    exists p, after_out (cell w (Radio i)) (outs (evs i)) = Some p /\ (if winsb i then pid p = cid i /\ ptype p = 1 else pid p = hid a) /\
    ids_of name w i ++ map (fun x => pid (rtx_packet x)) (outs (evs i)) = known i).
  { intros i Hi Ni. specialize (Em i Hi). cbn [advanceMillis set_clock f_node] in Em. specialize (New_heartbeat i Hi Ni). rewrite <- Py in New_heartbeat.
    rewrite CI by exact Hi. unfold known. destruct (Nat.eqb_spec i a) as [->|_]; [contradiction|]. destruct (tiedb i) eqn:Ti.
    - destruct (CB i Hi Ti) as [Bi Ri].
      destruct (boss_hears_heartbeat (env_of s (name i)) t (t + 1) (f_node w i) (Old i ++ own i) y eq_refl (Nk i Hi) Bi (CK i Hi) So Ty ltac:(unfold t; lia) ltac:(lia) ltac:(unfold t; lia) New_heartbeat)
        as (n' & ev & E1 & Cases).
      rewrite E1 in Em. injection Em as <- <-.
      assert (El : election_number (env_of s (name i)) (f_node w i) = number i) by (unfold election_number, number; rewrite Ri; reflexivity).
      assert (Cl : pid (claim_packet (env_of s (name i)) (f_node w i)) = cid i) by (unfold claim_packet, cid; rewrite Ri; reflexivity).
      unfold winsb. rewrite Ti. replace (Nat.eqb i a) with false by (symmetry; apply Nat.eqb_neq; exact Ni). cbn [andb negb].
      rewrite El, Cl, Py in *. destruct Cases as [(L & O1 & B1 & K1)|(L & O1 & S1 & K1 & H1)]; rewrite O1.
      + replace (hid a <? number i) with true by lia. rewrite <- app_assoc in K1. split; [exact K1|]. split; [exact B1|].
        eexists. split; [reflexivity|]. split; [split; [exact Cl|reflexivity]|]. cbn [map rtx_packet]. rewrite Py, Cl, <- app_assoc. reflexivity.
      + replace (hid a <? number i) with false by lia. rewrite <- app_assoc in K1. split; [exact K1|]. split; [auto|].
        eexists. split; [reflexivity|]. split; [exact Py|]. cbn [map rtx_packet]. rewrite Py, <- app_assoc. reflexivity.
    - destruct (slave_gets (env_of s (name i)) (t + 1) (f_node w i) (Old i ++ own i) y eq_refl (Nk i Hi) (CS i Hi Ti) (CK i Hi) So Ty ltac:(unfold t; lia) New_heartbeat)
        as (n' & ev & E1 & O1 & S1 & K1 & H1).
      rewrite E1 in Em. injection Em as <- <-. unfold winsb. rewrite Ti. cbn [andb]. rewrite O1, Py in *. rewrite <- app_assoc in K1. split; [exact K1|]. split; [auto|].
      eexists. split; [reflexivity|]. split; [exact Py|]. cbn [map rtx_packet]. rewrite Py, <- app_assoc. reflexivity. }
  assert (Wa : winsb a = false) by (unfold winsb; rewrite Nat.eqb_refl, andb_false_r; reflexivity).
  change (fun i => after_out (cell (advanceMillis 1 w) (Radio i)) (outs (evs i))) with (fun i => after_out (cell w (Radio i)) (outs (evs i))) in Res.
  set (full := fun i => after_out (cell w (Radio i)) (outs (evs i))) in Res. cbv zeta in Res.
  assert (Fa : full a = None) by (unfold full; rewrite (proj2 A), CSl; reflexivity).
  split; [|split; [congruence|exists full; split; [destruct Res as [(k & F)|(F1 & F2 & _)]; [left; exists k; exact F|right; auto]|]; split; [exact Fa|]]].
  2:{ intros i Hi Ni. destruct (B i Hi Ni) as (_ & _ & p & E1 & E2 & _). exists p. auto. }
  assert (Ka : known a = Old a ++ own a) by (unfold known; rewrite Nat.eqb_refl, app_nil_r; reflexivity).
  constructor; auto.
  - lia.
  - intros i Hi. rewrite Ids by exact Hi. change (ids_of name (advanceMillis 1 w) i) with (ids_of name w i).
    destruct (Nat.eq_dec i a) as [->|Ni]; [|destruct (B i Hi Ni) as (_ & _ & p & _ & _ & Q); exact Q].
    rewrite (proj2 A), Ka, CI by exact Ha. apply app_nil_r.
  - intros i Hi. destruct (Nat.eq_dec i a) as [->|Ni]; [rewrite (proj1 A), Ka; auto|apply (B i Hi Ni)].
  - intros i Hi [->|Wi]; [rewrite (proj1 A); apply (CB a Ha tied_a)|]. destruct (Nat.eq_dec i a) as [->|Ni]; [congruence|].
    destruct (B i Hi Ni) as (_ & Q & _). rewrite Wi in Q. exact Q.
  - intros i Hi Ni Wi. destruct (B i Hi Ni) as (_ & Q & _). rewrite Wi in Q. exact Q.
  - intros i p Hi Ep. assert (Ef : full i = Some p).
    { destruct Res as [(k & _ & _ & _ & _ & RR)|(_ & _ & RR)]; rewrite RR in Ep by exact Hi; [|discriminate]. destruct (Nat.eqb i k); [discriminate|exact Ep]. }
    assert (Ni : i <> a) by (intros ->; congruence). split; [exact Ni|]. destruct (B i Hi Ni) as (_ & _ & q & E1 & E2 & _). fold (full i) in E1. rewrite Ef in E1. injection E1 as <-. exact E2.
Qed.

(** ** Nobody draws more than the heartbeat *)
Lemma lone_reign w w' : outset w -> FakeTick s N (advanceMillis 1 w) = Ok w' -> (forall i, (i < N)%nat -> winsb i = false) ->
  reign name (fun i => if Nat.eqb i a then Old a else Old i ++ own i) N a w' [hid a] [hid a] [] false 0%nat 0 t (t + 1) Got [].
Proof.
  intros O E NW. pose proof (settled_first w w' O E) as ([H (C1 & _) CI CK CB CS CSl] & Ct & full & Res & Fa & Fo).
  assert (Sl : forall i p, (i < N)%nat -> cell w' (Radio i) = Some p -> i <> a /\ pid p = hid a).
  { intros i p Hi Ep. destruct (CSl i p Hi Ep) as [Ni Q]. rewrite NW in Q by exact Hi. auto. }
  constructor; try (apply H); auto.
  - fold (ids_of name w' a). rewrite CI by exact Ha. unfold known, own. rewrite Nat.eqb_refl, tied_a, !app_nil_r. reflexivity.
  - cbn; lia.
  - rewrite Ct. destruct (CB a Ha (or_introl eq_refl)) as (B1 & B2 & B3 & B4). constructor; auto.
    + apply (k_nodes _ _ (h_ok _ _ _ H) a Ha).
    + exists (Old a). rewrite app_nil_r. pose proof (CK a Ha) as K. unfold known, own in K. rewrite Nat.eqb_refl, tied_a, app_nil_r in K. exact K.
    + discriminate.
    + destruct (cell w' (Radio a)) as [p|] eqn:Ep; [destruct (Sl a p Ha Ep); congruence|]. split; [reflexivity|discriminate].
    + congruence.
    + congruence.
    + unfold t. lia.
    + unfold t in *. lia.
    + constructor; cbn; try lia; try discriminate; auto; try contradiction. intros [|? [|? ?]] ?; discriminate.
  - rewrite Ct. lia.
  - congruence.
  - intros i Hi Ni. destruct (CS i Hi Ni (NW i Hi)) as [S1 S2]. replace (Nat.eqb i a) with false by (symmetry; apply Nat.eqb_neq; exact Ni).
    split; [exact S1|]. split; [|split; [intros p Ep; split; [discriminate|apply (Sl i p Hi Ep)]|right; exact S2]].
    pose proof (CK i Hi) as K. unfold known in K. rewrite NW in K by exact Hi. replace (Nat.eqb i a) with false in K by (symmetry; apply Nat.eqb_neq; exact Ni).
    rewrite <- app_assoc. exact K.
  - split; [discriminate|]. split; [reflexivity|]. split; [apply (near_snoc [] [] [] (hid a)); [apply near_nil|cbn; lia]|]. split; [discriminate|].
    intros p Ep. cbn [last]. destruct Res as [(k & Hk & Fk & _ & RA & _)|(_ & RA)]; [|congruence].
    assert (Nk : k <> a) by (intros ->; congruence). destruct (Fo k Hk Nk) as (q & Eq & Q). rewrite NW in Q by exact Hk. congruence.
Qed.

(** ** Somebody does *)
Section Winner.
Variable m : nat.
Hypothesis Hm : (m < N)%nat.
Hypothesis Win : winsb m = true.
Hypothesis First_win : forall i, (i < m)%nat -> winsb i = false.
Hypothesis New_claim : forall i, (i < N)%nat -> i <> m -> ~ In (cid m) (last5 (known i)).

Lemma m_after_a : (a < m)%nat.
Proof.
  unfold winsb in Win. apply andb_true_iff in Win as [W _]. apply andb_true_iff in W as [W1 W2].
  destruct (lt_eq_lt_dec a m) as [[L|L]|L]; [exact L| |].
  - subst m. rewrite Nat.eqb_refl in W2. discriminate.
  - specialize (Lowest m L). unfold tiedb in W1. lia.
Qed.

Definition draining (j : nat) (w : fakenet) : Prop :=
  settled w /\ (j <= m)%nat /\ f_clock w + (if (a <? j)%nat then 1 else 0) <= t + Z.of_nat j /\
  (forall i, (i < j)%nat -> cell w (Radio i) = None) /\ cell w (Radio m) <> None /\
  (forall p, cell w Air = Some p -> pid p = hid a).
Definition claimed (w : fakenet) : Prop :=
  settled w /\ f_clock w <= t + Z.of_nat m /\ cell w (Radio m) = None /\ exists p, cell w Air = Some p /\ pid p = cid m /\ ptype p = 1.

Lemma flown_stage w full k j : settled w -> flown w full k -> (j <= k)%nat -> (k <= m)%nat ->
  f_clock w - 1 + (if (a <? j)%nat then 1 else 0) <= t + Z.of_nat j ->
  (forall i p, (i < N)%nat -> full i = Some p -> i <> a /\ if winsb i then pid p = cid i /\ ptype p = 1 else pid p = hid a) -> full m <> None ->
  (exists j', draining j' w) \/ claimed w.
Proof.
  intros St (Hk & Fk & Bk & RA & RR) Jk Km Cl Fo Fm.
  destruct (full k) as [p|] eqn:Ep; [|congruence]. destruct (Fo k p Hk Ep) as [Nka Fp].
  assert (Tm : f_clock w + (if (a <? S k)%nat then 1 else 0) <= t + Z.of_nat (S k)).
  { destruct (Nat.ltb_spec a j), (Nat.ltb_spec a (S k)); lia. }
  destruct (Nat.eq_dec k m) as [->|Ne].
  - right. rewrite Win in Fp. split; [exact St|]. split.
    { pose proof m_after_a. destruct (Nat.ltb_spec a (S m)); lia. }
    split; [rewrite RR, Nat.eqb_refl by exact Hm; reflexivity|]. exists p. split; [congruence|exact Fp].
  - left. exists (S k). rewrite First_win in Fp by lia. split; [exact St|]. split; [lia|]. split; [exact Tm|]. split.
    { intros i Hi. rewrite RR by lia. destruct (Nat.eqb_spec i k); [reflexivity|]. apply Bk. lia. }
    split; [rewrite RR by exact Hm; replace (Nat.eqb m k) with false by (symmetry; apply Nat.eqb_neq; lia); exact Fm|]. intros q Eq. congruence.
Qed.

Lemma drain_first w w' : outset w -> FakeTick s N (advanceMillis 1 w) = Ok w' -> (exists j, draining j w') \/ claimed w'.
Proof.
  intros O E. pose proof (settled_first w w' O E) as (S & Ct & full & Res & Fa & Fo). pose proof m_after_a as Am.
  destruct (Fo m Hm ltac:(lia)) as (pm & Em & _).
  destruct Res as [(k & F)|(Q & _)]; [|rewrite Q in Em by exact Hm; discriminate].
  apply (flown_stage w' full k 0%nat S F).
  - lia.
  - destruct (le_lt_dec k m) as [L|L]; [exact L|]. destruct F as (_ & _ & Bk & _). rewrite Bk in Em by exact L. discriminate.
  - destruct (Nat.ltb_spec a 0); lia.
  - intros i p Hi Ep. assert (Ni : i <> a) by (intros ->; congruence). destruct (Fo i Hi Ni) as (q & Eq & Q). rewrite Ep in Eq. injection Eq as <-. auto.
  - congruence.
Qed.

Lemma known_heartbeat i : (i < N)%nat -> In (hid a) (last5 (known i)).
Proof.
  intros Hi. unfold known. destruct (Nat.eqb_spec i a) as [->|Ni].
  - unfold own. rewrite tied_a, app_nil_r. apply last5_incl_snoc.
  - rewrite app_assoc. change (hid a :: (if winsb i then [cid i] else [])) with ([hid a] ++ (if winsb i then [cid i] else [])). rewrite app_assoc.
    assert (X := last_in_last5 ((Old i ++ own i) ++ [hid a]) (if winsb i then [cid i] else []) ltac:(intros Z; apply app_eq_nil in Z as [_ Z]; discriminate) ltac:(destruct (winsb i); cbn; lia)).
    rewrite last_last in X. exact X.
Qed.

Lemma drain_round w w' j : draining j w -> FakeTick s N (advanceMillis 1 w) = Ok w' ->
  f_clock w' = f_clock w + 1 /\ ((exists j', draining j' w') \/ claimed w').
Proof.
  intros ([H (C1 & C2) CI CK CB CS CSl] & Jm & Tj & Lj & Sm & Air0) E.
  destruct (whole_round s name N _ w' (whole_advance _ _ _ 1 ltac:(lia) H) E) as (H' & Ck & evs & Em & Ids & Res).
  assert (Ca : f_clock (advanceMillis 1 w) = f_clock w + 1) by reflexivity. rewrite Ca in *. split; [exact Ck|].
  change (cell (advanceMillis 1 w) Air) with (cell w Air) in Em.
  assert (I : inc_sound (option_map zero_tail (cell w Air))).
  { intros q Eq. destruct (cell w Air) as [x|] eqn:Ex; [|discriminate]. injection Eq as <-. apply zero_tail_sound. eapply cell_air_sound; [apply (h_ok _ _ _ H)|exact Ex]. }
  assert (Kn : forall i, (i < N)%nat -> forall p, option_map zero_tail (cell w Air) = Some p -> In (pid p) (last5 (known i))).
  { intros i Hi p Ep. destruct (cell w Air) as [x|] eqn:Ex; [|discriminate]. injection Ep as <-. change (pid (zero_tail x)) with (pid x). rewrite (Air0 x eq_refl). apply known_heartbeat. exact Hi. }
  assert (Nk : forall i, (i < N)%nat -> nodeok (f_node w i)) by (intros i Hi; apply (k_nodes _ _ (h_ok _ _ _ H) i Hi)).
  pose proof m_after_a as Am.
  assert (Bj : f_clock w + 1 <= t + 900) by (destruct (Nat.ltb_spec a j); lia).
  assert (Q : forall i, (i < N)%nat -> f_node w' i = f_node w i /\ outs (evs i) = []).
  { intros i Hi. specialize (Em i Hi). cbn [advanceMillis set_clock f_node] in Em.
    assert (D : (i = a \/ winsb i = true) \/ (i <> a /\ winsb i = false)) by (destruct (Nat.eq_dec i a), (winsb i); auto).
    destruct D as [D|[D1 D2]].
    - destruct (boss_ignores (env_of s (name i)) t (f_clock w + 1) (f_node w i) (known i) _ eq_refl (Nk i Hi) (CB i Hi D) (CK i Hi) I ltac:(unfold t; lia) ltac:(unfold t in *; lia) ltac:(lia) (Kn i Hi)) as (ev & E1 & O1).
      rewrite E1 in Em. injection Em as <- <-. auto.
    - destruct (CS i Hi D1 D2) as [S1 S2].
      destruct (slave_still (env_of s (name i)) (f_clock w + 1) (f_node w i) (known i) _ eq_refl (Nk i Hi) S1 (CK i Hi) I ltac:(unfold t in *; lia) ltac:(lia) (Kn i Hi)) as (ev & E1 & O1).
      rewrite E1 in Em. injection Em as <- <-. auto. }
  change (fun i => after_out (cell (advanceMillis 1 w) (Radio i)) (outs (evs i))) with (fun i => after_out (cell w (Radio i)) (outs (evs i))) in Res.
  set (full := fun i => after_out (cell w (Radio i)) (outs (evs i))) in Res. cbv zeta in Res.
  assert (Fo : forall i, (i < N)%nat -> full i = cell w (Radio i)) by (intros i Hi; unfold full; rewrite (proj2 (Q i Hi)); reflexivity).
  assert (Fm : full m <> None) by (rewrite Fo by exact Hm; exact Sm).
  destruct Res as [(k & F)|(Z & _)]; [|exfalso; apply Fm, Z; exact Hm].
  assert (Fp : forall i p, (i < N)%nat -> full i = Some p -> i <> a /\ if winsb i then pid p = cid i /\ ptype p = 1 else pid p = hid a).
  { intros i p Hi Ep. rewrite Fo in Ep by exact Hi. apply (CSl i p Hi Ep). }
  apply (flown_stage w' full k j); auto.
  - constructor; auto; try (rewrite Ck; lia).
    + intros i Hi. rewrite Ids by exact Hi. change (ids_of name (advanceMillis 1 w) i) with (ids_of name w i). rewrite CI, (proj2 (Q i Hi)) by exact Hi. apply app_nil_r.
    + intros i Hi. rewrite (proj1 (Q i Hi)). auto.
    + intros i Hi. rewrite (proj1 (Q i Hi)). auto.
    + intros i Hi. rewrite (proj1 (Q i Hi)). auto.
    + intros i p Hi Ep. destruct F as (_ & _ & _ & _ & RR). rewrite RR in Ep by exact Hi. destruct (Nat.eqb i k); [discriminate|]. exact (Fp i p Hi Ep).
  - destruct (le_lt_dec j k) as [L|L]; [exact L|]. destruct F as (Hk & Fk & _). exfalso. apply Fk. change (full k = None). rewrite Fo by exact Hk. apply Lj. exact L.
  - destruct (le_lt_dec k m) as [L|L]; [exact L|]. destruct F as (_ & _ & Bk & _). exfalso. apply Fm, Bk. exact L.
  - rewrite Ck. lia.
Qed.

(** What each node had transmitted when it got the claim. *)
Definition before (i : nat) : list Z := if Nat.eqb i m then Old m ++ own m ++ [hid a] else known i.
Lemma known_m : known m = before m ++ [cid m].
Proof.
  unfold before. rewrite Nat.eqb_refl. unfold known. pose proof m_after_a. replace (Nat.eqb m a) with false by (symmetry; apply Nat.eqb_neq; lia).
  rewrite Win, <- !app_assoc. reflexivity.
Qed.

Lemma claim_round w w' : claimed w -> FakeTick s N (advanceMillis 1 w) = Ok w' ->
  f_clock w' = f_clock w + 1 /\ reign name before N m w' [cid m] [cid m] [] false 0%nat 0 t (f_clock w + 1) Got [].
Proof.
  intros ([H (C1 & C2) CI CK CB CS CSl] & Cm & Sm & x & Ex & Px & Tx) E.
  destruct (whole_round s name N _ w' (whole_advance _ _ _ 1 ltac:(lia) H) E) as (H' & Ck & evs & Em & Ids & Res).
  assert (Ca : f_clock (advanceMillis 1 w) = f_clock w + 1) by reflexivity. rewrite Ca in *. split; [exact Ck|].
  change (cell (advanceMillis 1 w) Air) with (cell w Air) in Em. rewrite Ex in Em. cbn [option_map] in Em. set (y := zero_tail x) in *.
  assert (Py : pid y = cid m) by exact Px. assert (Ty : ptype y = 1) by exact Tx.
  assert (So : sound y) by (apply zero_tail_sound; eapply cell_air_sound; [apply (h_ok _ _ _ H)|exact Ex]).
  assert (I : inc_sound (Some y)) by (intros q [= <-]; exact So).
  assert (Nk : forall i, (i < N)%nat -> nodeok (f_node w i)) by (intros i Hi; apply (k_nodes _ _ (h_ok _ _ _ H) i Hi)).
  assert (Bt : f_clock w + 1 <= t + 1000) by lia.
  assert (A : f_node w' m = f_node w m /\ outs (evs m) = []).
  { specialize (Em m Hm). cbn [advanceMillis set_clock f_node] in Em.
    destruct (boss_ignores (env_of s (name m)) t (f_clock w + 1) (f_node w m) (known m) (Some y) eq_refl (Nk m Hm) (CB m Hm (or_intror Win)) (CK m Hm) I ltac:(unfold t; lia) ltac:(unfold t in *; lia) Bt) as (ev & E1 & O1).
    { intros p [= <-]. rewrite Py, known_m. apply last5_incl_snoc. }
    rewrite E1 in Em. injection Em as <- <-. auto. }
  assert (B : forall i, (i < N)%nat -> i <> m -> state (f_node w' i) = Slave /\ knows (nm (f_node w' i)) (known i ++ [cid m]) /\ f_clock w + 1 + 5000 <= t_hb (f_node w' i) /\ outs (evs i) = [Forwarded y]).
  { intros i Hi Ni. specialize (Em i Hi). cbn [advanceMillis set_clock f_node] in Em. specialize (New_claim i Hi Ni). rewrite <- Py in New_claim.
    destruct (claim_heard (env_of s (name i)) (f_clock w + 1) (f_node w i) (known i) y eq_refl (Nk i Hi) (CK i Hi) So Ty ltac:(unfold t in *; lia) New_claim) as (n' & ev & E1 & O1 & S1 & K1 & H1).
    rewrite E1 in Em. injection Em as <- <-. rewrite Py in K1. auto. }
  change (fun i => after_out (cell (advanceMillis 1 w) (Radio i)) (outs (evs i))) with (fun i => after_out (cell w (Radio i)) (outs (evs i))) in Res.
  set (full := fun i => after_out (cell w (Radio i)) (outs (evs i))) in Res. cbv zeta in Res.
  assert (Fm : full m = None) by (unfold full; rewrite (proj2 A), Sm; reflexivity).
  assert (Fp : forall i p, (i < N)%nat -> full i = Some p -> i <> m /\ pid p = cid m).
  { intros i p Hi Ep. assert (Ni : i <> m) by (intros ->; congruence). split; [exact Ni|]. destruct (B i Hi Ni) as (_ & _ & _ & Oi).
    unfold full in Ep. rewrite Oi in Ep. cbn in Ep. injection Ep as <-. exact Py. }
  assert (Sl : forall i p, (i < N)%nat -> cell w' (Radio i) = Some p -> i <> m /\ pid p = cid m).
  { intros i p Hi Ep. destruct Res as [(k & _ & _ & _ & _ & RR)|(_ & _ & RR)]; rewrite RR in Ep by exact Hi; [|discriminate]. destruct (Nat.eqb i k); [discriminate|]. exact (Fp i p Hi Ep). }
  constructor; try (apply H'); auto.
  - fold (ids_of name w' m). rewrite Ids by exact Hm. change (ids_of name (advanceMillis 1 w) m) with (ids_of name w m). rewrite CI, (proj2 A), known_m, !app_nil_r by exact Hm. reflexivity.
  - cbn; lia.
  - rewrite Ck, (proj1 A). destruct (CB m Hm (or_intror Win)) as (B1 & B2 & B3 & B4). constructor; auto.
    + exists (before m). rewrite app_nil_r, <- known_m. apply CK. exact Hm.
    + discriminate.
    + destruct (cell w' (Radio m)) as [p|] eqn:Ep; [destruct (Sl m p Hm Ep); congruence|]. split; [reflexivity|discriminate].
    + congruence.
    + congruence.
    + unfold t in *. lia.
    + unfold t in *. lia.
    + constructor; cbn; try lia; try discriminate; auto; try contradiction. intros [|? [|? ?]] ?; discriminate.
  - rewrite Ck. lia.
  - congruence.
  - intros i Hi Ni. destruct (B i Hi Ni) as (S1 & S2 & S3 & _). unfold before. replace (Nat.eqb i m) with false by (symmetry; apply Nat.eqb_neq; exact Ni).
    split; [exact S1|]. split; [exact S2|]. split; [intros p Ep; split; [discriminate|apply (Sl i p Hi Ep)]|right; exact S3].
  - split; [discriminate|]. split; [reflexivity|]. split; [apply (near_snoc [] [] [] (cid m)); [apply near_nil|cbn; lia]|]. split; [discriminate|].
    intros p Ep. cbn [last]. destruct Res as [(k & Hk & Fk & _ & RA & _)|(_ & RA & _)]; [|congruence]. rewrite RA in Ep. apply (Fp k p Hk Ep).
Qed.
End Winner.

(** ** The run *)
Variable m : nat.
Definition elected : Prop :=
  (m = a /\ forall i, (i < N)%nat -> winsb i = false) \/
  ((m < N)%nat /\ winsb m = true /\ (forall i, (i < m)%nat -> winsb i = false) /\ forall i, (i < N)%nat -> i <> m -> ~ In (cid m) (last5 (known i))).
Hypothesis El : elected.
(** What each node had transmitted when the one that stays sent its first
    packet that everybody got. *)
Definition earlier (i : nat) : list Z :=
  if Nat.eqb m a then (if Nat.eqb i a then Old a else Old i ++ own i) else before m i.
Definition reigns (w : fakenet) : Prop :=
  exists D T U fly j s1 h g ph kills, reign name earlier N m w D T U fly j s1 h g ph kills.
Definition staged (w : fakenet) : Prop :=
  (waiting w /\ f_clock w <= due a) \/ outset w \/ (m <> a /\ ((exists j, draining m j w) \/ claimed m w)) \/ (reigns w /\ t < f_clock w).

Lemma staged_ok w : staged w -> ok N w.
Proof.
  intros [[[C _] _]|[O|[[_ [[j (C & _)]|(C & _)]]|[(D & T & U & fly & j & s1 & h & g & ph & kills & R) _]]]].
  - apply C.
  - apply (h_ok _ _ _ (o_whole _ O)).
  - apply (h_ok _ _ _ (e_whole _ C)).
  - apply (h_ok _ _ _ (e_whole _ C)).
  - apply R.
Qed.

Lemma staged_step w w' : staged w -> f_clock w + 1 < 4294967296 - 70000 -> FakeTick s N (advanceMillis 1 w) = Ok w' ->
  (forall mine, ids_of name w' m = earlier m ++ mine -> unused N m earlier mine) -> f_clock w' = f_clock w + 1 /\ staged w'.
Proof.
  intros [[[C Nd] L]|[O|[[Ne Dr]|[(D & T & U & fly & j & s1 & h & g & ph & kills & R) Hc]]]] B E Sp.
  - assert (W : waiting (advanceMillis 1 w)) by (split; [apply (calm_advance name Old due N small w 1 ltac:(lia) C)|exact Nd]).
    destruct (Z.le_gt_cases (f_clock w + 1) (due a)) as [L'|L'].
    + destruct (waiting_tick _ w' W ltac:(cbn; lia) E) as [W' Ck]. split; [exact Ck|]. left. split; [exact W'|]. rewrite Ck. cbn. lia.
    + assert (O : outset w') by (apply (outset_first _ w' W); [unfold t; cbn; lia|exact E]).
      split; [rewrite (o_clock _ O); unfold t; lia|right; left; exact O].
  - pose proof (settled_first w w' O E) as (_ & Ct & _). split; [rewrite Ct, (o_clock _ O); reflexivity|]. right. right.
    destruct El as [[Ea NW]|(Hm & Wm & Fw & Nc)].
    + right. split; [|lia]. pose proof (lone_reign w w' O E NW) as R. unfold reigns, earlier. rewrite Ea, Nat.eqb_refl. do 10 eexists. exact R.
    + left. pose proof (m_after_a m Hm Wm Fw Nc). split; [lia|]. apply (drain_first m Hm Wm Fw Nc w w' O E).
  - destruct El as [[Ea _]|(Hm & Wm & Fw & Nc)]; [contradiction|]. destruct Dr as [[j Dr]|Cl].
    + destruct (drain_round m Hm Wm Fw Nc w w' j Dr E) as [Ck Dr']. split; [exact Ck|]. right. right. left. auto.
    + pose proof (claim_round m Hm Wm Fw Nc w w' Cl E) as [Ck R]. split; [exact Ck|]. right. right. right. destruct Cl as [S _]. split; [|pose proof (e_clock _ S); lia].
      unfold reigns, earlier. replace (Nat.eqb m a) with false by (symmetry; apply Nat.eqb_neq; exact Ne). do 10 eexists. exact R.
  - destruct (reign_step s name earlier N m small _ _ _ _ _ _ _ _ _ _ _ w' R B E Sp) as (Ck & R').
    split; [exact Ck|]. right. right. right. split; [exact R'|]. lia.
Qed.

Lemma staged_ticks k : forall w w', staged w -> f_clock w + Z.of_nat k < 4294967296 - 70000 -> fsteps s N (runTicks k) w = Ok w' ->
  (forall mine, ids_of name w' m = earlier m ++ mine -> unused N m earlier mine) -> staged w'.
Proof.
  induction k as [|k IH]; intros w w' H Hc E Sp.
  - cbn in E. injection E as <-. exact H.
  - cbn [runTicks fsteps fstep obind] in E. destruct (FakeTick s N (advanceMillis 1 w)) as [w1| |] eqn:E1; try discriminate. cbn [obind] in E.
    pose proof (staged_ok w H) as K.
    assert (K1 : ok N w1).
    { assert (K0 : ok N (advanceMillis 1 w)) by (destruct K as [[? ? ? ?] ? ?]; constructor; [constructor|..]; auto; cbn; lia).
      destruct (FakeTick_ok s N _ K0) as (evs & w2 & E2 & K2 & _). rewrite E1 in E2. injection E2 as <-. exact K2. }
    destruct (ticks_log s N k w1 w' K1 E) as (_ & _ & new & Lg).
    destruct (staged_step w w1 H ltac:(lia) E1) as [Ck H1].
    { intros mine Eo. unfold ids_of in *. rewrite Lg, calls_of_app, all_ids_app, Eo, <- app_assoc in Sp.
      exact (unused_prefix _ _ _ _ _ (Sp _ eq_refl)). }
    apply (IH w1 w' H1); [lia|exact E|exact Sp].
Qed.

Lemma staged_roles w : staged w ->
  (f_clock w <= due a -> forall i, (i < N)%nat -> state (f_node w i) = Slave) /\
  (due a < f_clock w -> state (f_node w m) = Master /\ forall i, (i < N)%nat -> tiedb i = false -> state (f_node w i) = Slave) /\
  (f_clock w = t -> forall i, (i < N)%nat -> tiedb i = true -> state (f_node w i) = Master) /\
  (t + 1 + (if Nat.eqb m a then 0 else Z.of_nat m) <= f_clock w -> forall i, (i < N)%nat -> i <> m -> state (f_node w i) = Slave).
Proof.
  assert (Tm : (m < N)%nat /\ tiedb m = true).
  { destruct El as [[Ea _]|(Hm & Wm & _)]; [rewrite Ea; split; [exact Ha|apply tied_a]|]. split; [exact Hm|].
    unfold winsb in Wm. apply andb_true_iff in Wm as [W _]. apply andb_true_iff in W as [W _]. exact W. }
  destruct Tm as [Hm Tm].
  assert (Se : m <> a -> settled w -> state (f_node w m) = Master /\ forall i, (i < N)%nat -> tiedb i = false -> state (f_node w i) = Slave).
  { intros Ne S. destruct El as [[X _]|(_ & Wm & _)]; [contradiction|]. split; [apply (e_boss _ S m Hm (or_intror Wm))|]. intros i Hi Ti.
    apply (e_slave _ S i Hi); [intros ->; rewrite tied_a in Ti; discriminate|]. unfold winsb. rewrite Ti. reflexivity. }
  intros [[[C _] L]|[O|[[Ne Dr]|[(D & T & U & fly & j & s1 & h & g & ph & kills & R) Hc]]]].
  - split; [intros _ i Hi; apply (c_nodes _ _ _ _ _ C i Hi)|]. split; [intros; lia|]. split; [unfold t; intros; lia|]. intros Q. unfold t in Q. destruct (Nat.eqb m a); lia.
  - pose proof (o_clock _ O) as Ck. unfold t in Ck. split; [intros; lia|]. split; [|split; [|unfold t; destruct (Nat.eqb m a); intros; lia]].
    + intros _. split; [apply (o_boss _ O m Hm Tm)|apply (o_slave _ O)].
    + intros _ i Hi Ti. apply (o_boss _ O i Hi Ti).
  - replace (Nat.eqb m a) with false by (symmetry; apply Nat.eqb_neq; exact Ne).
    destruct Dr as [(j & S & Jm & Tj & _)|(S & Ck & _)]; pose proof (e_clock _ S) as Ec.
    + split; [unfold t in *; intros; lia|]. split; [intros _; apply (Se Ne S)|]. split; [intros; lia|]. destruct (Nat.ltb_spec a j); intros; lia.
    + split; [unfold t in *; intros; lia|]. split; [intros _; apply (Se Ne S)|]. split; intros; lia.
  - split; [unfold t in *; intros; lia|].
    assert (Sl : forall i, (i < N)%nat -> i <> m -> state (f_node w i) = Slave) by (intros i Hi Ni; apply (r_slaves _ _ _ _ _ _ _ _ _ _ _ _ _ _ _ R i Hi Ni)).
    split; [intros _|split; [intros; lia|intros _; exact Sl]]. split; [apply (r_ms _ _ _ _ _ _ _ _ _ _ _ _ _ _ _ R)|].
    intros i Hi Ti. apply Sl; [exact Hi|]. intros ->. congruence.
Qed.
End Tie.
