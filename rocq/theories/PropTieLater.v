(** C139: in the simulated network of the integration tests, nodes whose waits
    end at the same time after the master has disappeared settle among themselves
    who takes its place.  Model: FakeNet.v. *)
From Coq Require Import ZArith NArith Lia List Bool.
From Coq Require Import ZifyBool.
From Verif Require Import CInt CIntFacts Packet SpecPacket PacketFacts NetMgr NetHist SpecNet NetFacts Rsm RsmStep RsmEval RsmRun RsmHist SpecRsm RsmFacts RsmTime RoleFacts.
From Verif Require Import Fastled Palette Device LedMgr Effects Show ShowFacts Bench FakeNet FakeNetFacts SimFacts PropFakeNet PropSim PropFailSim PaceRun PropComeGo TieFacts PropTie.
Import ListNotations.
Open Scope Z_scope.
Ltac Zify.zify_post_hook ::= Z.div_mod_to_equations.

(** ** The rule *)
(** The [k]-th number that node [i] draws from now on. *)
Definition next_draw (s : source) (w : fakenet) (i k : nat) : Z := Z.of_N (s_draw s (f_name w i) (rng (f_node w i) + k)%nat).
(** The first three are used for the id of its heartbeat when its wait ends, for
    the number it sets against the heartbeat of another, and for the id of its
    claim. *)
Definition next_heartbeat (s : source) (w : fakenet) (i : nat) : Z := (2 + next_draw s w i 0 mod 65535) mod 65536.
Definition next_strength (s : source) (w : fakenet) (i : nat) : Z := 1 + next_draw s w i 1 mod 65535.
Definition next_claim (s : source) (w : fakenet) (i : nat) : Z := (2 + next_draw s w i 2 mod 65535) mod 65536.

(** [moment i] is when the wait of node [i] ends.  Those that wait least, the
    first of them, those that set more against its heartbeat, and the one that
    stays, as in C138. *)
Definition foremost (N : nat) (moment : nat -> Z) (i : nat) : Prop := (i < N)%nat /\ forall j, (j < N)%nat -> moment i <= moment j.
Definition leads (N : nat) (moment : nat -> Z) (a : nat) : Prop := foremost N moment a /\ forall j, (j < a)%nat -> ~ foremost N moment j.
Definition objects (s : source) (N : nat) (moment : nat -> Z) (w : fakenet) (a i : nat) : Prop :=
  foremost N moment i /\ i <> a /\ next_heartbeat s w a < next_strength s w i.
Definition succeeds (s : source) (N : nat) (moment : nat -> Z) (w : fakenet) (a m : nat) : Prop :=
  leads N moment a /\
  ((m = a /\ forall i, ~ objects s N moment w a i) \/ (objects s N moment w a m /\ forall i, (i < m)%nat -> ~ objects s N moment w a i)).

(** The ids node [i] can mistake for one it has passed on already: the last five
    it has transmitted by now, its heartbeat, and its claim. *)
Definition taken (s : source) (N : nat) (moment : nat -> Z) (w : fakenet) (a i : nat) (x : Z) : Prop :=
  In x (skipn (length (ids_of_node w i) - 5) (ids_of_node w i)) \/
  (foremost N moment i /\ x = next_heartbeat s w i) \/ (objects s N moment w a i /\ x = next_claim s w i).
(** Nobody mistakes the heartbeat of [a], the claim of [m] or, but for the
    heartbeat of [a] it passes on, one of the first 26 packets of [m] from [w]
    on; and [m] numbers its packets as in C118. *)
Definition unmistaken (s : source) (N : nat) (moment : nat -> Z) (w w' : fakenet) (a m : nat) : Prop :=
  let ids := skipn (length (ids_of_node w m)) (all_ids (calls_of (f_name w m) (f_log w'))) in
  next_heartbeat s w a <> 0 /\ (forall i, (i < N)%nat -> i <> a -> ~ taken s N moment w a i (next_heartbeat s w a)) /\
  (m <> a -> next_claim s w m <> 0 /\ forall i, (i < N)%nat -> i <> m -> ~ taken s N moment w a i (next_claim s w m)) /\
  distinct_ids ids /\
  forall i x, (i < N)%nat -> i <> m -> In x (firstn 26 ids) -> x = next_heartbeat s w a \/ ~ taken s N moment w a i x.

(** Node [i], once it has become master at [t], has nothing to send for a second
    when it hears nothing: no change of the effect is due. *)
Definition unhurried (s : source) (w : fakenet) (i : nat) (t : Z) : Prop :=
  exists n out, step (env_of s (f_name w i)) t (OTick None) (f_node w i) = Ok (tt, n, out) /\
    forall u, t < u <= t + 1000 -> step (env_of s (f_name w i)) u (OTick None) n = Ok (tt, n, []).

Lemma foremost_dec N moment i : foremost N moment i \/ ~ foremost N moment i.
Proof.
  destruct (lt_dec i N) as [H|H]; [|right; intros [X _]; contradiction].
  destruct (all_upto (fun j => moment i <= moment j) ltac:(intros j; cbv beta; lia) N) as [Q|Q]; [left; split; assumption|right; intros [_ X]; contradiction].
Qed.
Lemma objects_dec s N moment w a i : objects s N moment w a i \/ ~ objects s N moment w a i.
Proof.
  unfold objects. destruct (foremost_dec N moment i) as [Y|Y]; [|right; intros [X _]; contradiction].
  destruct (Nat.eq_dec i a) as [Z|Z]; [right; intros (_ & X & _); contradiction|].
  destruct (Z.lt_ge_cases (next_heartbeat s w a) (next_strength s w i)) as [L|L]; [left; auto|right; intros (_ & _ & X); lia].
Qed.
Lemma foremost_exists N moment : (0 < N)%nat -> exists i, foremost N moment i.
Proof.
  intros HN. assert (G : forall n, (0 < n <= N)%nat -> exists i, (i < n)%nat /\ forall j, (j < n)%nat -> moment i <= moment j).
  { induction n as [|n IH]; [lia|]. intros Hn. destruct n as [|n]; [exists 0%nat; split; [lia|]; intros j Hj; assert (j = 0%nat) as -> by lia; lia|].
    destruct (IH ltac:(lia)) as (i & Hi & Q). destruct (Z.le_gt_cases (moment i) (moment (S n))) as [L|L].
    - exists i. split; [lia|]. intros j Hj. destruct (Nat.eq_dec j (S n)) as [->|]; [lia|apply Q; lia].
    - exists (S n). split; [lia|]. intros j Hj. destruct (Nat.eq_dec j (S n)) as [->|]; [lia|]. specialize (Q j ltac:(lia)). lia. }
  destruct (G N ltac:(lia)) as (i & Hi & Q). exists i. split; auto.
Qed.

(** Whatever is drawn and whenever the waits end, exactly one node succeeds. *)
Theorem C139_one_succeeds : forall s N moment w, (0 < N)%nat ->
  (exists a m, succeeds s N moment w a m) /\
  (forall a m a' m', succeeds s N moment w a m -> succeeds s N moment w a' m' -> a = a' /\ m = m') /\
  (forall a m, succeeds s N moment w a m -> foremost N moment m).
Proof.
  intros s N moment w HN. split; [|split].
  - destruct (foremost_exists N moment HN) as (i0 & F0).
    destruct (least_upto (foremost N moment) (foremost_dec N moment) N) as [(a & Ha & Fa & La)|H]; [|exfalso; exact (H i0 (proj1 F0) F0)].
    destruct (least_upto (objects s N moment w a) (objects_dec s N moment w a) N) as [(m & Hm & Cm & Lm)|H].
    + exists a, m. split; [split; assumption|right; auto].
    + exists a, a. split; [split; assumption|left]. split; [reflexivity|]. intros i C. apply (H i); [apply C|exact C].
  - intros a m a' m' [[Fa La] M] [[Fa' La'] M'].
    assert (a = a') as <-.
    { destruct (lt_eq_lt_dec a a') as [[L|L]|L]; [exfalso; exact (La' a L Fa)|exact L|exfalso; exact (La a' L Fa')]. }
    split; [reflexivity|]. destruct M as [[-> M]|[C M]], M' as [[-> M']|[C' M']]; try reflexivity.
    + exfalso. exact (M m' C').
    + exfalso. exact (M' m C).
    + destruct (lt_eq_lt_dec m m') as [[L|L]|L]; [exfalso; exact (M' m L C)|exact L|exfalso; exact (M m' L C')].
  - intros a m [[Fa _] [[-> _]|[[Fm _] _]]]; assumption.
Qed.
Print Assumptions C139_one_succeeds.

(** ** The run *)
Lemma lastn_app_in {A} k (a b : list A) x : In x (lastn k (a ++ b)) -> In x (lastn k a) \/ In x b.
Proof.
  unfold lastn. rewrite app_length, skipn_app. intros I. apply in_app_or in I as [I|I].
  - left. rewrite <- (firstn_skipn (length a + length b - k - (length a - k)) (skipn (length a - k) a)). apply in_or_app. right.
    rewrite skipn_more. replace (length a + length b - k - (length a - k) + (length a - k))%nat with (length a + length b - k)%nat by lia. exact I.
  - right. rewrite <- (firstn_skipn (length a + length b - k - length a) b). apply in_or_app. right. exact I.
Qed.
Lemma unhurried_timer s w i t : plat (env_of s (f_name w i)) = Host -> nodeok (f_node w i) -> state (f_node w i) = Slave -> t_hb (f_node w i) <> 0 -> t = t_hb (f_node w i) + 1 ->
  0 <= t < 4294967296 - 70000 -> unhurried s w i t -> ce_takeover t (f_node w i) = 0 \/ t + 1000 <= ce_takeover t (f_node w i).
Proof.
  intros Pl Nk St Nz Et Ht (n & out & E & Q). assert (I : inc_sound None) by (intros p [=]). set (e := env_of s (f_name w i)) in *. set (n0 := f_node w i) in *.
  destruct (nodeok_runs e t n0 None Pl Nk I ltac:(lia)) as (n1 & o1 & E1 & T1).
  unfold step in E. rewrite E1 in E. injection E as <- <-.
  assert (Due : timer_due t (t_hb n0) = true) by (apply timer_due_iff; pose proof (g_hb _ (proj1 Nk)); lia).
  assert (R : state n1 = Master /\ t_ce n1 = ce_takeover t n0 /\ t_hb n1 = t + 1000 /\ t_bc n1 = t + 2000).
  { inversion T1; subst; try congruence; try discriminate; [destruct H0; congruence|]. cbn. rewrite !u32_id by lia. auto. }
  destruct R as (S1 & Ce & Hb & Bc). destruct (Z.eq_dec (ce_takeover t n0) 0) as [Z|Z]; [left; exact Z|right].
  destruct (Z.le_gt_cases (t + 1000) (ce_takeover t n0)) as [L|L]; [exact L|exfalso].
  specialize (Q (t + 1000) ltac:(lia)). destruct (tick_nodeok e t n0 None _ _ Nk I ltac:(lia) T1) as [Nk1 _].
  destruct (nodeok_runs e (t + 1000) n1 None Pl Nk1 I ltac:(lia)) as (n2 & o2 & E2 & T2).
  unfold step in Q. rewrite E2 in Q. injection Q as -> ->.
  assert (D1 : timer_due (t + 1000) (t_hb n1) = false) by (apply timer_due_false; lia).
  assert (D2 : timer_due (t + 1000) (t_ce n1) = true) by (apply timer_due_iff; pose proof (ce_takeover_nonneg t n0); lia).
  inversion T2; subst; try congruence; try discriminate. destruct H0 as [_ [X|[X _]]]; congruence.
Qed.

Lemma patient_unique s w i t t' : patient_until s w i t -> patient_until s w i t' -> t = t'.
Proof.
  intros [R P] [R' P']. assert (X : forall u, 0 <= u < wrap -> (t < u <-> t' < u)).
  { intros u Hu. destruct (P u Hu) as (n & o & E & Q). destruct (P' u Hu) as (n' & o' & E' & Q'). rewrite E in E'. injection E' as <- <-. tauto. }
  unfold wrap in *. pose proof (X (t + 1) ltac:(lia)). pose proof (X (t' + 1) ltac:(lia)). lia.
Qed.

(** From a silence on, as in C120: until the first waits end everybody is a
    slave; then those whose waits ended are masters and nobody else; the one that
    succeeds is a master from then on, those that waited longer never are; and
    after as many rounds as its index, and two, it is the only one, however long
    the test runs. *)
Theorem C139_a_tie_after_a_silence : forall s N os w1 moment,
  simulated s N (os ++ [FTick]) w1 -> silent N w1 -> f_loss w1 = 0 -> (N <= 900)%nat -> f_clock w1 < wrap - 90000 ->
  (forall i, (i < N)%nat -> patient_until s w1 i (moment i)) ->
  forall a m os2 k w,
    fsteps s N (os2 ++ runTicks k) w1 = Ok w -> succeeds s N moment w1 a m ->
    Forall idle os2 -> f_clock w1 + passed os2 <= moment a ->
    let now := f_clock w1 + passed os2 + Z.of_nat k in
    now < wrap - 70000 ->
    (forall i, foremost N moment i -> unhurried s w1 i (moment a + 1)) ->
    unmistaken s N moment w1 w a m ->
    (now <= moment a -> forall i, (i < N)%nat -> GetCurrentState (f_node w i) = Slave) /\
    (now = moment a + 1 -> forall i, (i < N)%nat -> GetCurrentState (f_node w i) = Master <-> foremost N moment i) /\
    (moment a < now -> GetCurrentState (f_node w m) = Master /\
       forall i, (i < N)%nat -> ~ foremost N moment i -> GetCurrentState (f_node w i) = Slave) /\
    (moment a + 2 + (if Nat.eqb m a then 0 else Z.of_nat m) <= now ->
       GetCurrentState (f_node w m) = Master /\ forall i, (i < N)%nat -> i <> m -> GetCurrentState (f_node w i) = Slave).
Proof.
  intros s N os w1 due Sim (Air0 & Qt) Ls Sm Ck Mo. unfold wrap in Ck.
  destruct (simulated_ok _ _ _ _ Sim) as [K T].
  assert (Tk : forall i, (i < N)%nat -> f_ticked w1 i = true).
  { destruct Sim as (J & B & F & E). unfold frun in E. destruct (FakeNetwork s N) as [w0| |] eqn:E0; try discriminate. cbn [obind] in E.
    rewrite fsteps_app in E. destruct (fsteps s N os w0) as [wa| |] eqn:E1; try discriminate. cbn [obind fsteps fstep] in E.
    destruct (FakeTick s N wa) as [wb| |] eqn:E2; try discriminate. cbn [obind] in E. injection E as ->.
    destruct (frun_ok s N os J B (proj1 (proj1 (Forall_app _ _ _) F))) as (wa' & Ea & Ka & _).
    unfold frun in Ea. rewrite E0 in Ea. cbn [obind] in Ea. rewrite E1 in Ea. injection Ea as <-.
    destruct (FakeTick_ok s N wa Ka) as (evs & w' & E' & _ & Tm & _). rewrite E2 in E'. injection E' as <-. intros i Hi. apply (Tm i Hi). }
  pose proof (calm_silence s N w1 K T Ls Tk Air0 (fun i Hi => proj1 (Qt i Hi)) (fun i Hi => proj2 (Qt i Hi))) as C.
  assert (Tb : forall i, (i < N)%nat -> 5000 <= t_hb (f_node w1 i) <= f_clock w1 + 6999).
  { intros i Hi. destruct (t_hist _ _ _ T (f_name w1 i) (t_names _ _ _ T i Hi)) as (t0 & n & B0 & _ & H & U).
    rewrite (U i Hi eq_refl) in H.
    assert (AB : forall ev, In ev (calls_of (f_name w1 i) (f_log w1)) -> at_ ev <= f_clock w1).
    { intros ev I. apply calls_of_in in I. apply (t_late _ _ _ T _ I). }
    assert (AB' : all_before (wrap - 7000) t0 (calls_of (f_name w1 i) (f_log w1))).
    { unfold wrap. split; [lia|]. intros ev I. specialize (AB ev I). lia. }
    pose proof (timer_inv _ _ _ _ H AB') as TI. destruct (Qt i Hi) as [_ S]. unfold GetCurrentState in S. rewrite S in TI.
    destruct TI as (c & (A1 & A2 & _) & Bc).
    assert (c <= f_clock w1); [|lia]. destruct A1 as [->|(ev & I & <- & _)]; [lia|apply AB; exact I]. }
  assert (Due : forall i, (i < N)%nat -> t_hb (f_node w1 i) = due i).
  { intros i Hi. specialize (Tb i Hi). apply (patient_unique s w1 i); [|apply Mo; exact Hi]. split; [unfold wrap; lia|].
    apply (patience_is_timer (env_of s (f_name w1 i)) _ (t_hb (f_node w1 i)) eq_refl (k_nodes _ _ K i Hi)); try lia; [apply Qt; exact Hi|unfold wrap; lia]. }
  intros a m os2 k w E [[Fa La] Pm] Idle B1 now B2 Un (Hz & Hd & Hc & Di & Dm). pose proof Fa as [Ha Least]. unfold wrap in B2. rewrite fsteps_app in E.
  set (name := f_name w1). set (Old := fun i => all_ids (calls_of (f_name w1 i) (f_log w1))). set (n0 := f_node w1).
  assert (C' : calm name Old due N w1).
  { destruct C as [? ? ? ? ? ? ? ? Cn]. constructor; auto. intros i Hi. destruct (Cn i Hi) as (Q1 & Q2 & Q3). rewrite <- (Due i Hi). auto. }
  clear C. rename C' into C.
  assert (Wa : 5000 <= due a <= f_clock w1 + 6999) by (rewrite <- (Due a Ha); apply Tb; exact Ha).
  assert (Ef : forall i, (i < N)%nat -> foremost N due i <-> tiedb due a i = true).
  { intros i Hi. unfold tiedb. split.
    - intros [_ Q]. specialize (Q a Ha). specialize (Least i Hi). lia.
    - intros Q. split; [exact Hi|]. intros j Hj. specialize (Least j Hj). lia. }
  assert (Nef : forall i, (i < N)%nat -> ~ foremost N due i <-> tiedb due a i = false).
  { intros i Hi. rewrite (Ef i Hi). destruct (tiedb due a i); split; congruence. }
  assert (Lowest : forall i, (i < a)%nat -> due i <> due a).
  { intros i Hi Q. apply (La i Hi). apply Ef; [lia|]. unfold tiedb. lia. }
  assert (Hid : forall i, hid s name n0 i = next_heartbeat s w1 i).
  { intros i. unfold hid, RsmStep.fresh, next_heartbeat, next_draw, n0, id_of, random2. rewrite Nat.add_0_r. reflexivity. }
  assert (Cid : forall i, cid s name n0 i = next_claim s w1 i).
  { intros i. unfold cid, next_claim, next_draw, n0, id_of, random2. rewrite !Nat.add_succ_r, Nat.add_0_r. reflexivity. }
  assert (Num : forall i, number s name n0 i = next_strength s w1 i).
  { intros i. unfold number, next_strength, next_draw, n0, random2. rewrite Nat.add_succ_r, Nat.add_0_r. cbn [Z.eqb]. unfold name. apply u16_id. lia. }
  assert (Ch : forall i, (i < N)%nat -> objects s N due w1 a i <-> winsb s name due n0 a i = true).
  { intros i Hi. unfold objects, winsb. rewrite (Ef i Hi), (Hid a), (Num i). rewrite !andb_true_iff, negb_true_iff, Nat.eqb_neq, Z.ltb_lt. tauto. }
  assert (Nch : forall i, (i < N)%nat -> ~ objects s N due w1 a i <-> winsb s name due n0 a i = false).
  { intros i Hi. rewrite (Ch i Hi). destruct (winsb s name due n0 a i); split; congruence. }
  assert (Timer : forall i, (i < N)%nat -> tiedb due a i = true -> ce_takeover (due a + 1) (n0 i) = 0 \/ due a + 1 + 1000 <= ce_takeover (due a + 1) (n0 i)).
  { intros i Hi Ti. apply (unhurried_timer s w1 i (due a + 1) eq_refl (k_nodes _ _ K i Hi) (proj2 (Qt i Hi))).
    - pose proof (Tb i Hi). lia.
    - unfold tiedb in Ti. rewrite (Due i Hi). lia.
    - lia.
    - apply Un, Ef; assumption. }
  (* what node [i] knows when it has passed on the heartbeat of [a] *)
  assert (Kn : forall i x, (i < N)%nat -> In x (last5 (known s name Old due n0 a i)) -> x = 0 \/ (i <> a /\ x = next_heartbeat s w1 a) \/ taken s N due w1 a i x).
  { intros i x Hi I. apply last5_lastn in I as [I|I]; [left; exact I|right]. unfold known in I. apply (lastn_app_in 5) in I as [I|I].
    - right. left. exact I.
    - apply in_app_or in I as [I|I].
      + unfold own in I. destruct (tiedb due a i) eqn:Ti; [|destruct I]. rewrite (Hid i) in I. destruct I as [<-|[]]. right. right. left. split; [apply Ef; assumption|reflexivity].
      + destruct (Nat.eqb_spec i a) as [X|X]; [destruct I|]. rewrite (Hid a), (Cid i) in I. destruct I as [<-|I]; [left; auto|].
        destruct (winsb s name due n0 a i) eqn:Wi; [|destruct I]. destruct I as [<-|[]]. right. right. right. split; [apply Ch; assumption|reflexivity]. }
  assert (Kn0 : forall i x, (i < N)%nat -> In x (last5 (Old i ++ own s name due n0 a i)) -> x = 0 \/ taken s N due w1 a i x).
  { intros i x Hi I. apply last5_lastn in I as [I|I]; [left; exact I|right]. apply (lastn_app_in 5) in I as [I|I]; [left; exact I|].
    unfold own in I. destruct (tiedb due a i) eqn:Ti; [|destruct I]. rewrite (Hid i) in I. destruct I as [<-|[]]. right. left. split; [apply Ef; assumption|reflexivity]. }
  assert (NewH : forall i, (i < N)%nat -> i <> a -> ~ In (hid s name n0 a) (last5 (Old i ++ own s name due n0 a i))).
  { intros i Hi Ni I. rewrite (Hid a) in I. apply (Kn0 i _ Hi) in I as [I|I]; [contradiction|]. exact (Hd i Hi Ni I). }
  destruct (fsteps s N os2 w1) as [w2| |] eqn:E1; try discriminate. cbn [obind] in E.
  assert (Room : 0 <= due a < 4294967296 - 80000) by lia.
  destruct (waiting_idle s name Old due N Sm n0 a Ha ltac:(lia) Least Lowest Room Timer NewH os2 Idle w1 w2) as [W2 Ck2].
  { split; [exact C|]. reflexivity. } { lia. } { exact E1. }
  destruct (ticks_log s N k w2 w (c_ok _ _ _ _ _ (proj1 W2)) E) as (_ & Ckw & _).
  assert (Hm : (m < N)%nat) by (destruct Pm as [[-> _]|[[[? _] _] _]]; assumption).
  assert (El0 : (m = a /\ forall i, (i < N)%nat -> winsb s name due n0 a i = false) \/
     ((m < N)%nat /\ m <> a /\ winsb s name due n0 a m = true /\ forall i, (i < m)%nat -> winsb s name due n0 a i = false)).
  { destruct Pm as [[-> Q]|[Cm Q]].
    - left. split; [reflexivity|]. intros i Hi. apply (Nch i Hi), Q.
    - right. split; [exact Hm|]. split; [apply Cm|]. split; [apply (Ch m Hm), Cm|]. intros i Hi. apply (Nch i ltac:(lia)), Q, Hi. }
  assert (El : elected s name Old due N n0 a m).
  { destruct El0 as [Q|(_ & Ne & Wm & Fw)]; [left; exact Q|right]. split; [exact Hm|]. split; [exact Wm|]. split; [exact Fw|].
    intros i Hi Ni I. destruct (Hc Ne) as (Z0 & Zo). rewrite (Cid m) in I. apply (Kn i _ Hi) in I as [I|[[Nia I]|I]]; [contradiction| |exact (Zo i Hi Ni I)].
    apply (Zo a Ha ltac:(congruence)). right. left. auto. }
  (* the ids of the node that stays *)
  set (all := all_ids (calls_of (f_name w1 m) (f_log w))) in *.
  set (ids := skipn (length (ids_of_node w1 m)) all) in *.
  assert (Sp : forall mine, ids_of name w m = earlier s name Old due n0 a m m ++ mine -> unused N m (earlier s name Old due n0 a m) mine).
  { intros mine Em. change (ids_of name w m) with all in Em.
    assert (Pre : exists pre, earlier s name Old due n0 a m m = Old m ++ pre /\ (length pre <= 2)%nat /\ (m <> a -> exists x, pre = [x; next_heartbeat s w1 a]) /\ (m = a -> pre = [])).
    { unfold earlier, before. rewrite Nat.eqb_refl. destruct (Nat.eqb_spec m a) as [X|X].
      - exists []. rewrite app_nil_r, X. split; [reflexivity|]. split; [cbn; lia|]. split; [congruence|reflexivity].
      - assert (Tm : tiedb due a m = true).
        { destruct El0 as [[Q _]|(_ & _ & Wm & _)]; [contradiction|]. unfold winsb in Wm. apply andb_true_iff in Wm as [Wm _]. apply andb_true_iff in Wm as [Wm _]. exact Wm. }
        unfold own. rewrite Tm, (Hid a). eexists. split; [reflexivity|]. cbn. split; [lia|]. split; [|congruence]. intros _. eexists. reflexivity. }
    destruct Pre as (pre & Ep & Lp & Pa & Pn). rewrite Ep in Em. clear Ep.
    assert (Ei : ids = pre ++ mine).
    { unfold ids. rewrite Em, <- app_assoc. change (ids_of_node w1 m) with (Old m). rewrite skipn_app, skipn_all, Nat.sub_diag. reflexivity. }
    clear Em. rewrite Ei in Di.
    assert (Nz : forall x, In x mine -> x <> 0).
    { intros x I. apply in_split in I as (u & v & ->). apply (Di (pre ++ u) x v). rewrite <- app_assoc. reflexivity. }
    assert (Nh : m <> a -> ~ In (next_heartbeat s w1 a) (firstn 24 mine)).
    { intros Ne I. destruct (Pa Ne) as (y & Py). rewrite <- (firstn_skipn 24 mine) in Di. pose proof (firstn_le_length 24 mine) as Lf. apply in_split in I as (u & v & Eu).
      rewrite Eu, app_length in Lf. cbn [length] in Lf. rewrite Eu in Di.
      destruct (Di (pre ++ u) (next_heartbeat s w1 a) (v ++ skipn 24 mine)) as [_ Q]; [rewrite <- !app_assoc; reflexivity|]. apply Q.
      rewrite Py. destruct (le_lt_dec (length u) 22) as [L|L].
      - replace (length ([y; next_heartbeat s w1 a] ++ u) - 24)%nat with 0%nat by (rewrite app_length; cbn; lia). right. left. reflexivity.
      - replace (length ([y; next_heartbeat s w1 a] ++ u) - 24)%nat with 1%nat by (rewrite app_length; cbn [length] in *; lia). left. reflexivity. }
    split.
    - intros u x v ->. split; [apply Nz, in_or_app; right; left; reflexivity|]. unfold lastn. intros I.
      destruct (Di (pre ++ u) x v) as [_ Q]; [rewrite <- app_assoc; reflexivity|]. apply Q. rewrite app_length, skipn_app. apply in_or_app. right.
      replace (length pre + length u - 24 - length pre)%nat with (length u - 24)%nat by lia. exact I.
    - intros i x Hi Ni I Q. assert (I26 : In x (firstn 26 ids)).
      { rewrite Ei, firstn_app. apply in_or_app. right. rewrite <- (firstn_skipn 24 (firstn (26 - length pre) mine)). apply in_or_app. left. rewrite firstn_firstn. replace (Nat.min 24 (26 - length pre)) with 24%nat by lia. exact I. }
      assert (Im : In x mine) by (rewrite <- (firstn_skipn 24 mine); apply in_or_app; left; exact I).
      destruct (Nat.eq_dec m a) as [Ea|Ea].
      + assert (Tx : taken s N due w1 a i x).
        { unfold earlier in Q. rewrite Ea, Nat.eqb_refl in Q. replace (Nat.eqb i a) with false in Q by (symmetry; apply Nat.eqb_neq; congruence).
          apply (Kn0 i x Hi) in Q as [Q|Q]; [exfalso; exact (Nz x Im Q)|exact Q]. }
        destruct (Dm i x Hi Ni I26) as [Y|Y]; [|exact (Y Tx)]. apply (Hd i Hi ltac:(congruence)). rewrite <- Y. exact Tx.
      + assert (Nx : x <> next_heartbeat s w1 a) by (intros ->; exact (Nh Ea I)).
        unfold earlier in Q. replace (Nat.eqb m a) with false in Q by (symmetry; apply Nat.eqb_neq; exact Ea).
        unfold before in Q. replace (Nat.eqb i m) with false in Q by (symmetry; apply Nat.eqb_neq; exact Ni).
        apply (Kn i x Hi) in Q as [Q|[[_ Q]|Q]]; [exact (Nz x Im Q)|exact (Nx Q)|]. destruct (Dm i x Hi Ni I26) as [Y|Y]; [exact (Nx Y)|exact (Y Q)]. }
  assert (St : staged s name Old due N n0 a m w).
  { apply (staged_ticks s name Old due N Sm n0 a Ha ltac:(lia) Least Lowest Room Timer NewH m El k w2 w); [left; split; [exact W2|lia]|lia|exact E|exact Sp]. }
  destruct (staged_roles s name Old due N Sm n0 a Ha ltac:(lia) Least Lowest Room Timer NewH m El w St) as (R1 & R2 & R3 & R4).
  assert (Ckn : f_clock w = now) by (unfold now; lia). rewrite Ckn in *. unfold GetCurrentState.
  assert (R2' : due a < now -> state (f_node w m) = Master /\ forall i, (i < N)%nat -> ~ foremost N due i -> state (f_node w i) = Slave).
  { intros L. destruct (R2 L) as [M S]. split; [exact M|]. intros i Hi Q. apply (S i Hi). apply (Nef i Hi), Q. }
  split; [exact R1|]. split; [|split; [exact R2'|]].
  - intros L i Hi. split; [|intros Q; apply (R3 L i Hi); apply (Ef i Hi), Q].
    intros M. destruct (foremost_dec N due i) as [Y|Y]; [exact Y|]. destruct (R2' ltac:(lia)) as [_ S]. rewrite (S i Hi Y) in M. discriminate.
  - intros L. split; [apply R2'; destruct (Nat.eqb m a); lia|]. apply R4. lia.
Qed.
Print Assumptions C139_a_tie_after_a_silence.

(** When nobody waits exactly as long as node [m] it succeeds, as in C120. *)
Theorem C139_no_tie : forall s N moment w m, (m < N)%nat -> (forall i, (i < N)%nat -> i <> m -> moment m < moment i) -> succeeds s N moment w m m.
Proof.
  intros s N moment w m Hm First. assert (U : forall j, foremost N moment j -> j = m).
  { intros j [Hj Q]. destruct (Nat.eq_dec j m) as [X|X]; [exact X|]. specialize (Q m Hm). specialize (First j Hj X). lia. }
  split.
  - split; [split; [exact Hm|]|].
    + intros j Hj. destruct (Nat.eq_dec j m) as [->|X]; [lia|]. specialize (First j Hj X). lia.
    + intros j Hj Q. specialize (U j Q). lia.
  - left. split; [reflexivity|]. intros i (Q & Ne & _). exact (Ne (U i Q)).
Qed.
Print Assumptions C139_no_tie.

Lemma no_masters_counted N w : (forall i, (i < N)%nat -> GetCurrentState (f_node w i) = Slave) -> getNumMasters N w = 0%nat.
Proof.
  intros A. unfold getNumMasters.
  assert (Z0 : forall l, (forall i, In i l -> (i < N)%nat) -> length (filter (fun i => match GetCurrentState (f_node w i) with Master => true | Slave => false end) l) = 0%nat).
  { induction l as [|i l IH]; intros H; [reflexivity|]. cbn [filter]. rewrite (A i) by (apply H; left; reflexivity). apply IH. intros j Hj. apply H. right. exact Hj. }
  apply Z0. intros i I. apply in_seq in I. lia.
Qed.

(** A network that loses its master, as in C120, but without the condition that
    the next waits end at different times: nobody is master while the others
    wait, and then, a few rounds after the first waits end, exactly one node is. *)
Corollary C139_the_network_replaces_its_master : forall s N m os k w0 w1,
  simulated s N (os ++ runTicks k) w0 -> fsteps s N [FReinit m; FAdvance 1; FTick] w0 = Ok w1 ->
  (m < N)%nat -> (N <= 900)%nat ->
  (forall i, (i < N)%nat -> i <> m -> waits_until s m < waits_until s i) ->
  Forall idle os -> Z.of_nat N + passed os <= waits_until s m ->
  waits_until s m < Z.of_nat N + passed os + Z.of_nat k < wrap - 100000 ->
  distinct_ids (all_ids (calls_of m (f_log w0))) ->
  on_air w0 = None -> (forall i, (i < N)%nat -> PropFakeNet.waiting w0 i = None) ->
  exists moment : nat -> Z,
  (forall i, (i < N)%nat -> patient_until s w1 i (moment i) /\ f_clock w1 <= moment i <= f_clock w1 + 6999) /\
  exists a m2, succeeds s N moment w1 a m2 /\ forall k2 w,
    fsteps s N (runTicks k2) w1 = Ok w -> f_clock w1 + Z.of_nat k2 < wrap - 70000 ->
    (forall i, foremost N moment i -> unhurried s w1 i (moment a + 1)) -> unmistaken s N moment w1 w a m2 ->
    (f_clock w1 + Z.of_nat k2 <= moment a -> getNumMasters N w = 0%nat) /\
    (moment a + 2 + Z.of_nat N <= f_clock w1 + Z.of_nat k2 -> getNumMasters N w = 1%nat /\ GetCurrentState (f_node w m2) = Master).
Proof.
  intros s N m os k w0 w1 Sim E Hm Sm First Idle B1 B2 Di Air0 Qt.
  destruct (C120_a_replaced_master_leaves_silence s N m os k w0 w1 Sim E Hm Sm First Idle B1 ltac:(lia) Di Air0 Qt) as (Sim1 & Sil & Ls & Ck & Pt & _).
  destruct (C120_silence_ends_with_one_master s N _ w1 Sim1 Sil Ls Sm ltac:(unfold wrap in *; lia)) as (moment & Mo & _).
  exists moment. split.
  { intros i Hi. destruct (Mo i Hi) as [P U]. split; [exact P|]. split; [specialize (Pt i _ Hi P); lia|exact U]. }
  destruct (C139_one_succeeds s N moment w1 ltac:(lia)) as ((a & m2 & Su) & _ & Fo). exists a, m2. split; [exact Su|].
  intros k2 w E2 B3 Un New. assert (Ha : (a < N)%nat) by (apply Su). assert (Hm2 : (m2 < N)%nat) by (apply (Fo a m2 Su)).
  destruct (C139_a_tie_after_a_silence s N _ w1 moment Sim1 Sil Ls Sm ltac:(unfold wrap in *; lia) (fun i Hi => proj1 (Mo i Hi)) a m2 [] k2 w E2 Su ltac:(constructor)) as (A & _ & _ & B).
  - cbn [passed fold_right]. rewrite Z.add_0_r. destruct (Mo a Ha) as [P _]. specialize (Pt a _ Ha P). lia.
  - cbn [passed fold_right]. lia.
  - exact Un.
  - exact New.
  - cbn [passed fold_right] in A, B. rewrite Z.add_0_r in A, B. split.
    + intros L. specialize (A L). apply no_masters_counted. exact A.
    + intros L. destruct B as [M1 M2]; [destruct (Nat.eqb m2 a); lia|]. split; [apply (masters_counted N w m2 Hm2 M1 M2)|exact M1].
Qed.
Print Assumptions C139_the_network_replaces_its_master.

(** ** The hypotheses are met *)
(** As in the example of C120 node 3 of five becomes master and is replaced at
    5040.  Nodes 0 and 1 then wait until 10014 both; [b] is what each node draws
    against the heartbeat of another. *)
Definition pair_of (b : nat -> N) : source :=
  mkSource (fun k r => match r with
              | O => if Nat.eqb k 3 then 0%N else 1500%N
              | 1%nat => if (k <? 2)%nat then 8%N else N.of_nat (100 * k + 8)
              | 3%nat => b k
              | _ => N.of_nat (100 * k + r + 7) end) (fun r => N.of_nat r)
           (fun _ => mkOffsets 0 0 0) (fun _ => (0, 0, repeat 0 58, repeat 0 58)).

Lemma pair_junk b : junk_ok (pair_of b).
Proof. intros i. cbn -[wf_packet]. split; apply wf_packetb_ok; vm_compute; reflexivity. Qed.

Definition due_in (w : fakenet) (i : nat) : Z := t_hb (f_node w i).
Definition waits_b (w : fakenet) : bool :=
  forallb (fun i => due_in w i =? nth i [10014; 10014; 10214; 11540; 10414] 0) (seq 0 5).
Definition draws_b (h0 s1 : Z) (s : source) (w : fakenet) : bool :=
  (next_heartbeat s w 0 =? h0) && (next_heartbeat s w 1 =? h0 + 100) && (next_strength s w 1 =? s1) && (next_claim s w 1 =? h0 + 102).
Definition unhurried_b (w : fakenet) : bool := forallb (fun i => 12000 <=? ce_takeover 10015 (f_node w i)) [0%nat; 1%nat].
Definition unmistaken_b (m : nat) (s : source) (w w' : fakenet) : bool :=
  let ids := skipn (length (ids_of_node w m)) (all_ids (calls_of (f_name w m) (f_log w'))) in
  let other x i := negb (existsb (Z.eqb x) (ids_of_node w i)) in
  distinctb [] ids && forallb (fun x => (x =? next_heartbeat s w 0) ||
     (forallb (other x) (filter (fun i => negb (Nat.eqb i m)) (seq 0 5)) && (Nat.eqb m 0 || negb (x =? next_heartbeat s w 0)) && (Nat.eqb m 1 || (negb (x =? next_heartbeat s w 1) && negb (x =? next_claim s w 1))))) ids &&
  forallb (other (next_heartbeat s w 0)) [1%nat; 2%nat; 3%nat; 4%nat] && forallb (other (next_claim s w 1)) [0%nat; 2%nat; 3%nat; 4%nat].
Definition silent_b (w : fakenet) : bool := quiet 5 w && (getNumMasters 5 w =? 0)%nat && (f_loss w =? 0) && (f_clock w =? 5041).
Definition settles (m : nat) (s1 : Z) (s : source) (w w' : fakenet) : bool :=
  silent_b w && waits_b w && draws_b 11 s1 s w && unhurried_b w && unmistaken_b m s w w'.

Lemma timer_unhurried s w i t : nodeok (f_node w i) -> state (f_node w i) = Slave -> t_hb (f_node w i) <> 0 -> t = t_hb (f_node w i) + 1 ->
  0 <= t < 4294967296 - 70000 -> t + 1000 <= ce_takeover t (f_node w i) -> unhurried s w i t.
Proof.
  intros Nk St Nz Et Ht Ce. assert (I : inc_sound None) by (intros p [=]). set (e := env_of s (f_name w i)) in *. set (n0 := f_node w i) in *.
  assert (Pl : plat e = Host) by reflexivity.
  destruct (nodeok_runs e t n0 None Pl Nk I ltac:(lia)) as (n1 & o1 & E1 & T1). exists n1, o1. split; [exact E1|].
  assert (Due : timer_due t (t_hb n0) = true) by (apply timer_due_iff; pose proof (g_hb _ (proj1 Nk)); lia).
  assert (B : boss t n1).
  { inversion T1; subst; try congruence; try discriminate; [destruct H0; congruence|]. split; [reflexivity|]. cbn. rewrite !u32_id by lia. auto. }
  destruct (tick_nodeok e t n0 None _ _ Nk I ltac:(lia) T1) as [Nk1 _]. intros u Hu.
  destruct (nodeok_runs e u n1 None Pl Nk1 I ltac:(lia)) as (n2 & o2 & E2 & T2).
  destruct (boss_quiet e t u n1 None _ _ B ltac:(lia) ltac:(lia) eq_refl T2) as [-> ->]. exact E2.
Qed.

Lemma not_old x l : negb (existsb (Z.eqb x) l) = true -> ~ In x l.
Proof.
  intros H I. apply negb_true_iff in H. assert (X : existsb (Z.eqb x) l = true); [|congruence]. apply existsb_exists. exists x. split; [exact I|apply Z.eqb_refl].
Qed.
Lemma pair_settles s m s1 w1 w : (m = 0%nat /\ s1 = 6) \/ (m = 1%nat /\ s1 = 5001) -> settles m s1 s w1 w = true ->
  silent 5 w1 /\ f_loss w1 = 0 /\ f_clock w1 = 5041 /\ due_in w1 0 = 10014 /\ (forall i, foremost 5 (due_in w1) i <-> (i < 2)%nat) /\
  succeeds s 5 (due_in w1) w1 0 m /\ unmistaken s 5 (due_in w1) w1 w 0 m /\ forall i, (i < 2)%nat -> 11015 <= ce_takeover 10015 (f_node w1 i).
Proof.
  intros Hm H. unfold settles in H. rewrite !andb_true_iff in H. destruct H as ((((H1 & H2) & H3) & H4) & H5).
  unfold silent_b in H1. rewrite !andb_true_iff in H1. destruct H1 as (((Q1 & Q2) & Q3) & Q4).
  destruct (quiet_ok _ _ Q1) as [Air0 Qt].
  assert (Wt : forall i, (i < 5)%nat -> due_in w1 i = nth i [10014; 10014; 10214; 11540; 10414] 0).
  { intros i Hi. unfold waits_b in H2. rewrite forallb_forall in H2. specialize (H2 i ltac:(apply in_seq; lia)). lia. }
  assert (Fo : forall i, foremost 5 (due_in w1) i <-> (i < 2)%nat).
  { intros i. split.
    - intros [Hi Q]. specialize (Q 0%nat ltac:(lia)). rewrite !Wt in Q by lia. do 5 (destruct i as [|i]; [cbn in Q; lia|]). lia.
    - intros Hi. split; [lia|]. intros j Hj. rewrite !Wt by lia. do 2 (destruct i as [|i]; [do 5 (destruct j as [|j]; [cbn; lia|]); lia|]). lia. }
  unfold draws_b in H3. rewrite !andb_true_iff, !Z.eqb_eq in H3. destruct H3 as (((D1 & D2) & D3) & D4).
  assert (Ob : forall i, objects s 5 (due_in w1) w1 0 i <-> i = 1%nat /\ m = 1%nat).
  { intros i. unfold objects. rewrite Fo, D1. split.
    - intros (A & B & C). assert (i = 1%nat) as -> by lia. split; [reflexivity|]. rewrite D3 in C. lia.
    - intros [-> Em]. split; [lia|]. split; [lia|]. rewrite D3. lia. }
  unfold unmistaken_b in H5. set (ids := skipn _ _) in H5. cbv zeta in H5. rewrite !andb_true_iff in H5. destruct H5 as (((M1 & M2) & M3) & M4).
  assert (Tk : forall i x, taken s 5 (due_in w1) w1 0 i x -> In x (ids_of_node w1 i) \/ (i = 0%nat /\ x = 11) \/ (i = 1%nat /\ (x = 111 \/ x = 113))).
  { intros i x [T|[[T ->]|[T ->]]].
    - left. rewrite <- (firstn_skipn (length (ids_of_node w1 i) - 5) (ids_of_node w1 i)). apply in_or_app. right. exact T.
    - apply Fo in T. right. destruct i as [|[|i]]; [left; auto|right; auto|lia].
    - apply Ob in T as [-> _]. right. right. auto. }
  split; [split; [exact Air0|]|].
  { intros i Hi. split; [apply Qt; exact Hi|]. apply Nat.eqb_eq in Q2. unfold getNumMasters in Q2. apply length_zero_iff_nil in Q2.
    destruct (GetCurrentState (f_node w1 i)) eqn:St; [reflexivity|]. exfalso.
    assert (X : In i (filter (fun i => role_eqb (GetCurrentState (f_node w1 i)) Master) (seq 0 5))) by (apply filter_In; split; [apply in_seq; lia|rewrite St; reflexivity]).
    rewrite Q2 in X. destruct X. }
  split; [lia|]. split; [lia|]. split; [apply (Wt 0%nat); lia|]. split; [exact Fo|]. split; [|split].
  - split; [split; [apply Fo; lia|intros j Hj; lia]|]. destruct Hm as [[-> _]|[-> _]]; [left|right].
    + split; [reflexivity|]. intros i C. apply Ob in C. lia.
    + split; [apply Ob; auto|]. intros i Hi C. apply Ob in C. lia.
  - unfold unmistaken. cbv zeta. fold ids. rewrite D1. split; [lia|]. split; [|split; [|split; [apply distinctb_ok; exact M1|]]].
    + intros i Hi Ni T. apply Tk in T as [T|[T|T]]; [|lia|lia]. rewrite forallb_forall in M3. specialize (M3 i ltac:(cbn; lia)). rewrite D1 in M3. exact (not_old _ _ M3 T).
    + intros Ne. destruct Hm as [[-> _]|[-> _]]; [contradiction|]. rewrite D4. split; [lia|]. intros i Hi Ni T. apply Tk in T as [T|[T|T]]; [|lia|lia].
      rewrite forallb_forall in M4. specialize (M4 i ltac:(cbn; lia)). rewrite D4 in M4. exact (not_old _ _ M4 T).
    + intros i x Hi Ni I. rewrite forallb_forall in M2. specialize (M2 x ltac:(rewrite <- (firstn_skipn 26 ids); apply in_or_app; left; exact I)).
      rewrite D1, D2, D4 in M2. apply orb_true_iff in M2 as [M2|M2]; [left; lia|right]. rewrite !andb_true_iff in M2. destruct M2 as ((M2 & M5) & M6).
      intros T. apply Tk in T as [T|[[-> ->]|[-> T]]].
      * rewrite forallb_forall in M2. specialize (M2 i ltac:(apply filter_In; split; [apply in_seq; lia|apply negb_true_iff, Nat.eqb_neq; exact Ni])). exact (not_old _ _ M2 T).
      * destruct m; [contradiction|]. cbn in M5. discriminate.
      * destruct m as [|[|m]]; [|contradiction|lia]. cbn [Nat.eqb] in M6. lia.
  - intros i Hi. unfold unhurried_b in H4. rewrite forallb_forall in H4. specialize (H4 i ltac:(cbn; lia)). lia.
Qed.

Lemma pair_example s m s1 : junk_ok s -> (m = 0%nat /\ s1 = 6) \/ (m = 1%nat /\ s1 = 5001) ->
  ends s 5 reigning (fun w0 => reigned w0 && two_parts s 5 replacing recovering (settles m s1 s) w0) = true ->
  exists w0 w1 w,
  simulated s 5 reigning w0 /\ GetCurrentState (f_node w0 3) = Master /\ fsteps s 5 replacing w0 = Ok w1 /\ fsteps s 5 recovering w1 = Ok w /\
  patient_until s w1 0 10014 /\ patient_until s w1 1 10014 /\ succeeds s 5 (due_in w1) w1 0 m /\
  GetCurrentState (f_node w m) = Master /\ forall i, (i < 5)%nat -> i <> m -> GetCurrentState (f_node w i) = Slave.
Proof.
  intros J Hm C. destruct (simulated_exists s 5 reigning) as [w0 Sm].
  { exact J. } { lia. }
  { apply Forall_app. split; [repeat constructor; cbn; lia|apply runTicks_ok]. }
  apply (ends_true _ _ _ (fun w0 => reigned w0 && two_parts s 5 replacing recovering (settles m s1 s) w0) _ Sm) in C.
  apply andb_true_iff in C as [L1 L2]. apply two_parts_ok in L2 as (w1 & w & E1 & E2 & L2).
  destruct (pair_settles s m s1 w1 w Hm L2) as (Sil & Ls & Ck & D0 & Fo & Su & Un & Ce).
  unfold reigned in L1. apply andb_true_iff in L1 as [L1 _]. apply andb_true_iff in L1 as [L1 _]. apply is_master in L1.
  assert (Sim1 : simulated s 5 ((reigning ++ [FReinit 3; FAdvance 1]) ++ [FTick]) w1).
  { rewrite <- app_assoc. apply (simulated_app s 5 reigning replacing w0 w1 Sm); [|exact E1].
    apply Forall_cons; [cbn; lia|]. apply Forall_cons; [cbn; lia|]. apply Forall_cons; [exact I|apply Forall_nil]. }
  destruct (simulated_ok _ _ _ _ Sim1) as [K _].
  assert (W : forall i, (i < 5)%nat -> t_hb (f_node w1 i) = nth i [10014; 10014; 10214; 11540; 10414] 0).
  { intros i Hi. unfold settles, waits_b in L2. rewrite !andb_true_iff in L2. destruct L2 as ((((_ & L) & _) & _) & _). rewrite forallb_forall in L. specialize (L i ltac:(apply in_seq; lia)). unfold due_in in L. lia. }
  assert (Wr : forall i, (i < 5)%nat -> 10014 <= t_hb (f_node w1 i) <= 11540) by (intros i Hi; rewrite (W i Hi); do 5 (destruct i as [|i]; [cbn; lia|]); lia).
  assert (Pt : forall i, (i < 5)%nat -> patient_until s w1 i (due_in w1 i)).
  { intros i Hi. specialize (Wr i Hi). split; [unfold due_in, wrap; lia|].
    apply (patience_is_timer (env_of s (f_name w1 i)) _ (t_hb (f_node w1 i)) eq_refl (k_nodes _ _ K i Hi)); try lia; [apply Sil; exact Hi|unfold wrap; lia]. }
  exists w0, w1, w. split; [exact Sm|]. split; [exact L1|]. unfold replacing, recovering in *. split; [exact E1|]. split; [exact E2|].
  assert (D1 : due_in w1 1 = 10014) by (apply (W 1%nat); lia).
  split; [rewrite <- D0; apply Pt; lia|]. split; [rewrite <- D1; apply Pt; lia|]. split; [exact Su|].
  destruct (C139_a_tie_after_a_silence s 5 _ w1 (due_in w1) Sim1 Sil Ls ltac:(lia) ltac:(unfold wrap; lia) Pt 0%nat m [FAdvance 4960; FTick] 40%nat w E2 Su) as (_ & _ & _ & R).
  - repeat constructor; cbn; lia.
  - rewrite Ck, D0. cbn. lia.
  - rewrite Ck. unfold wrap. cbn. lia.
  - intros i Fi. apply Fo in Fi. pose proof (W i ltac:(lia)) as Wi. rewrite D0.
    assert (Wi' : t_hb (f_node w1 i) = 10014) by (rewrite Wi; do 2 (destruct i as [|i]; [reflexivity|]); lia).
    apply timer_unhurried; [apply (k_nodes _ _ K); lia|apply Sil; lia|lia|lia|lia|]. specialize (Ce i Fi). change (10014 + 1) with 10015. lia.
  - exact Un.
  - destruct R as [R1 R2]; [rewrite Ck, D0; destruct Hm as [[-> _]|[-> _]]; cbn; lia|]. auto.
Qed.

(** Node 1 draws less than 11, the id of the heartbeat of node 0: node 0 stays. *)
Example C139_ex_first_stays : exists w0 w1 w,
  simulated (pair_of (fun _ => 5%N)) 5 reigning w0 /\ GetCurrentState (f_node w0 3) = Master /\
  fsteps (pair_of (fun _ => 5%N)) 5 replacing w0 = Ok w1 /\ fsteps (pair_of (fun _ => 5%N)) 5 recovering w1 = Ok w /\
  patient_until (pair_of (fun _ => 5%N)) w1 0 10014 /\ patient_until (pair_of (fun _ => 5%N)) w1 1 10014 /\
  succeeds (pair_of (fun _ => 5%N)) 5 (due_in w1) w1 0 0 /\
  GetCurrentState (f_node w 0) = Master /\ forall i, (i < 5)%nat -> i <> 0%nat -> GetCurrentState (f_node w i) = Slave.
Proof. apply (pair_example (pair_of (fun _ => 5%N)) 0 6); [apply pair_junk|auto|vm_compute; reflexivity]. Qed.
(** It draws more: node 1 does. *)
Example C139_ex_second_objects : exists w0 w1 w,
  simulated (pair_of (fun _ => 5000%N)) 5 reigning w0 /\ GetCurrentState (f_node w0 3) = Master /\
  fsteps (pair_of (fun _ => 5000%N)) 5 replacing w0 = Ok w1 /\ fsteps (pair_of (fun _ => 5000%N)) 5 recovering w1 = Ok w /\
  patient_until (pair_of (fun _ => 5000%N)) w1 0 10014 /\ patient_until (pair_of (fun _ => 5000%N)) w1 1 10014 /\
  succeeds (pair_of (fun _ => 5000%N)) 5 (due_in w1) w1 0 1 /\
  GetCurrentState (f_node w 1) = Master /\ forall i, (i < 5)%nat -> i <> 1%nat -> GetCurrentState (f_node w i) = Slave.
Proof. apply (pair_example (pair_of (fun _ => 5000%N)) 1 5001); [apply pair_junk|auto|vm_compute; reflexivity]. Qed.
