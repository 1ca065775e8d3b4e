(** C138: in the simulated network of the integration tests, nodes whose waits
    end at the same time settle among themselves who stays the master.  Model:
    FakeNet.v. *)
From Coq Require Import ZArith NArith Lia List Bool.
From Coq Require Import ZifyBool.
From Verif Require Import CInt CIntFacts Packet SpecPacket PacketFacts NetMgr NetHist SpecNet NetFacts Rsm RsmStep RsmEval RsmRun RsmHist SpecRsm RsmFacts RoleFacts.
From Verif Require Import Fastled Palette Device LedMgr Effects Show ShowFacts Bench FakeNet FakeNetFacts SimFacts PropFakeNet PropSim PropFailSim TieFacts.
Import ListNotations.
Open Scope Z_scope.
Ltac Zify.zify_post_hook ::= Z.div_mod_to_equations.

(** ** The rule *)
(** The numbers a node draws after its wait (its first draw): the id of its
    first heartbeat, the number it sets against the heartbeat of another, the
    id of its claim. *)
Definition heartbeat_id (s : source) (i : nat) : Z := (2 + Z.of_N (s_draw s i 1%nat) mod 65535) mod 65536.
Definition strength (s : source) (i : nat) : Z := 1 + Z.of_N (s_draw s i 2%nat) mod 65535.
Definition claim_id (s : source) (i : nat) : Z := (2 + Z.of_N (s_draw s i 3%nat) mod 65535) mod 65536.

(** Nobody waits for less time than node [i]. *)
Definition ends_first (s : source) (N i : nat) : Prop := (i < N)%nat /\ forall j, (j < N)%nat -> waits_until s i <= waits_until s j.
(** Node [a] has the lowest index of those. *)
Definition opens (s : source) (N a : nat) : Prop := ends_first s N a /\ forall j, (j < a)%nat -> ~ ends_first s N j.
(** Node [i] is another of them and draws more than the id of the heartbeat of [a]. *)
Definition challenges (s : source) (N a i : nat) : Prop := ends_first s N i /\ i <> a /\ heartbeat_id s a < strength s i.
(** Without a challenger [a] stays, else the challenger with the lowest index. *)
Definition prevails (s : source) (N a m : nat) : Prop :=
  opens s N a /\
  ((m = a /\ forall i, ~ challenges s N a i) \/ (challenges s N a m /\ forall i, (i < m)%nat -> ~ challenges s N a i)).

(** The ids are told apart.  First the heartbeat of [a] and the claim of [m]:
    neither has the id 0 or one that another of the nodes has used by then.  Then
    all packets of [m], [ids]: no id is 0 or among the 24 before, and the first
    26, but for the heartbeat of [a] it passes on, are new to the others. *)
Definition told_apart (s : source) (N a m : nat) (ids : list Z) : Prop :=
  heartbeat_id s a <> 0 /\ (forall i, ends_first s N i -> i <> a -> heartbeat_id s i <> heartbeat_id s a) /\
  (m <> a -> claim_id s m <> 0 /\ claim_id s m <> heartbeat_id s a /\
     forall i, ends_first s N i -> i <> m -> claim_id s m <> heartbeat_id s i /\ (challenges s N a i -> claim_id s m <> claim_id s i)) /\
  distinct_ids ids /\
  forall i x, ends_first s N i -> i <> m -> In x (firstn 26 ids) -> x = heartbeat_id s a \/ (x <> heartbeat_id s i /\ (challenges s N a i -> x <> claim_id s i)).

(** ** There is always exactly one *)
Lemma least_upto (P : nat -> Prop) (Dec : forall i, P i \/ ~ P i) n : (exists i, (i < n)%nat /\ P i /\ forall j, (j < i)%nat -> ~ P j) \/ forall i, (i < n)%nat -> ~ P i.
Proof.
  induction n as [|n IH]; [right; intros; lia|]. destruct IH as [(i & Hi & P1 & P2)|H]; [left; exists i; split; [lia|auto]|].
  destruct (Dec n) as [Y|Y]; [left; exists n; auto|]. right. intros i Hi. destruct (Nat.eq_dec i n) as [->|]; [exact Y|apply H; lia].
Qed.
Lemma all_upto (P : nat -> Prop) (Dec : forall i, P i \/ ~ P i) n : (forall i, (i < n)%nat -> P i) \/ ~ forall i, (i < n)%nat -> P i.
Proof.
  destruct (least_upto (fun i => ~ P i) ltac:(intros i; destruct (Dec i); tauto) n) as [(i & Hi & Q & _)|H]; [right; intros X; apply Q, X, Hi|].
  left. intros i Hi. destruct (Dec i) as [Y|Y]; [exact Y|]. exfalso. exact (H i Hi Y).
Qed.
Lemma ends_first_dec s N i : ends_first s N i \/ ~ ends_first s N i.
Proof.
  unfold ends_first. destruct (le_lt_dec N i); [right; intros [L _]; lia|].
  destruct (all_upto (fun j => waits_until s i <= waits_until s j) ltac:(intros j; cbv beta; lia) N) as [H|H]; [left; auto|right; intros [_ X]; exact (H X)].
Qed.
Lemma challenges_dec s N a i : challenges s N a i \/ ~ challenges s N a i.
Proof. unfold challenges. destruct (ends_first_dec s N i); [|tauto]. destruct (Nat.eq_dec i a); [tauto|]. destruct (Z.lt_ge_cases (heartbeat_id s a) (strength s i)); [tauto|]. right. intros (_ & _ & L). lia. Qed.
Lemma someone_first s N : (0 < N)%nat -> exists i, ends_first s N i.
Proof.
  intros H. assert (G : forall n, (0 < n <= N)%nat -> exists i, (i < n)%nat /\ forall j, (j < n)%nat -> waits_until s i <= waits_until s j).
  { induction n as [|n IH]; [lia|]. intros L. destruct n as [|n]; [exists 0%nat; split; [lia|]; intros j Hj; replace j with 0%nat by lia; lia|].
    destruct (IH ltac:(lia)) as (i & Hi & Q). destruct (Z.le_gt_cases (waits_until s i) (waits_until s (S n))) as [C|C].
    - exists i. split; [lia|]. intros j Hj. destruct (Nat.eq_dec j (S n)) as [->|]; [exact C|apply Q; lia].
    - exists (S n). split; [lia|]. intros j Hj. destruct (Nat.eq_dec j (S n)) as [->|]; [lia|]. specialize (Q j ltac:(lia)). lia. }
  destruct (G N ltac:(lia)) as (i & Hi & Q). exists i. split; auto.
Qed.

(** Whatever is drawn, exactly one node prevails. *)
Theorem C138_one_prevails : forall s N, (0 < N)%nat ->
  (exists a m, prevails s N a m) /\ (forall a m a' m', prevails s N a m -> prevails s N a' m' -> a = a' /\ m = m') /\
  (forall a m, prevails s N a m -> ends_first s N m).
Proof.
  intros s N HN. split; [|split].
  - destruct (someone_first s N HN) as (i0 & F0).
    destruct (least_upto (ends_first s N) (ends_first_dec s N) N) as [(a & Ha & Fa & La)|H]; [|exfalso; exact (H i0 (proj1 F0) F0)].
    destruct (least_upto (challenges s N a) (challenges_dec s N a) N) as [(m & Hm & Cm & Lm)|H].
    + exists a, m. split; [split; assumption|right; auto].
    + exists a, a. split; [split; assumption|left]. split; [reflexivity|]. intros i C. apply (H i); [apply C|exact C].
  - intros a m a' m' [[Fa La] M] [[Fa' La'] M'].
    assert (a = a') as <-.
    { destruct (lt_eq_lt_dec a a') as [[L|L]|L]; [exfalso; exact (La' a L Fa)|exact L|exfalso; exact (La a' L Fa')]. }
    split; [reflexivity|]. destruct M as [[-> M]|[C M]], M' as [[-> M']|[C' M']]; try reflexivity.
    + exfalso. exact (M m' C').
    + exfalso. exact (M' m C).
    + destruct (lt_eq_lt_dec m m') as [[L|L]|L]; [exfalso; exact (M' m L C)|exact L|exfalso; exact (M m' L C')].
  - intros a m [[Fa _] [[-> _]|[[Fm _] _]]]; assumption.
Qed.
Print Assumptions C138_one_prevails.

(** ** The run *)
Lemma in_last5_short (l : list Z) x : In x (last5 l) -> x = 0 \/ In x l.
Proof. intros I. apply last5_lastn in I as [->|I]; [left; reflexivity|right]. unfold lastn in I. rewrite <- (firstn_skipn (length l - 5) l). apply in_or_app. right. exact I. Qed.

(** Until the first waits end everybody is a slave; then those whose waits ended
    are masters and nobody else; the one that prevails is a master from then on,
    those that waited longer never are; and after as many rounds as its index,
    and two, it is the only one, however long the test runs. *)
Theorem C138_a_tie_leaves_one_master : forall s N a m os k w,
  simulated s N (os ++ runTicks k) w -> (N <= 900)%nat ->
  prevails s N a m ->
  Forall idle os -> Z.of_nat N + passed os <= waits_until s a ->
  let now := Z.of_nat N + passed os + Z.of_nat k in
  now < 4294967296 - 70000 ->
  told_apart s N a m (all_ids (calls_of m (f_log w))) ->
  (now <= waits_until s a -> forall i, (i < N)%nat -> GetCurrentState (f_node w i) = Slave) /\
  (now = waits_until s a + 1 -> forall i, (i < N)%nat -> GetCurrentState (f_node w i) = Master <-> ends_first s N i) /\
  (waits_until s a < now -> GetCurrentState (f_node w m) = Master /\
     forall i, (i < N)%nat -> ~ ends_first s N i -> GetCurrentState (f_node w i) = Slave) /\
  (waits_until s a + 2 + (if Nat.eqb m a then 0 else Z.of_nat m) <= now ->
     GetCurrentState (f_node w m) = Master /\ forall i, (i < N)%nat -> i <> m -> GetCurrentState (f_node w i) = Slave).
Proof.
  intros s N a m os k w (J & B & _ & E) Sm [[Fa La] Pm] Idle B1 now B2 (Hz & Hd & Hc & Di & Dm). pose proof Fa as [Ha Le].
  rewrite waits_wait in *. unfold frun in E. destruct (FakeNetwork s N) as [w0| |] eqn:E0; try discriminate. cbn [obind] in E.
  destruct (calm_start s N w0 J B E0) as [C0 Ck0]. rewrite fsteps_app in E.
  destruct (FakeNetwork_ok s N J B) as (w' & E' & _ & _ & _ & _ & _ & _ & _ & Nd & _). rewrite E0 in E'. injection E' as <-.
  assert (Pw : forall i, (i < N)%nat -> f_node w0 i = powered s i (Z.of_nat i + 1)) by (intros i Hi; apply (Nd i Hi)).
  assert (Rg : forall i, (i < N)%nat -> rng (f_node w0 i) = 1%nat /\ seen_at (f_node w0 i) = 0).
  { intros i Hi. rewrite Pw by exact Hi. unfold powered, bare. destruct (s_junk s i) as [[[ty1 ty2] d1] d2]. split; reflexivity. }
  set (name := fun i : nat => i). set (Old := fun _ : nat => @nil Z). set (n0 := f_node w0).
  assert (Wa : 5001 <= wait s a <= Z.of_nat a + 7000) by (unfold wait; lia).
  assert (Least : forall i, (i < N)%nat -> wait s a <= wait s i) by (intros i Hi; specialize (Le i Hi); rewrite !waits_wait in Le; exact Le).
  assert (Ef : forall i, (i < N)%nat -> ends_first s N i <-> tiedb (wait s) a i = true).
  { intros i Hi. unfold tiedb. split.
    - intros [_ Q]. specialize (Q a Ha). specialize (Least i Hi). rewrite !waits_wait in Q. lia.
    - intros Q. split; [exact Hi|]. intros j Hj. specialize (Least j Hj). rewrite !waits_wait. lia. }
  assert (Nef : forall i, (i < N)%nat -> ~ ends_first s N i <-> tiedb (wait s) a i = false).
  { intros i Hi. rewrite (Ef i Hi). destruct (tiedb (wait s) a i); split; congruence. }
  assert (Lowest : forall i, (i < a)%nat -> wait s i <> wait s a).
  { intros i Hi Q. apply (La i Hi). apply Ef; [lia|]. unfold tiedb. lia. }
  assert (Hid : forall i, (i < N)%nat -> hid s name n0 i = heartbeat_id s i).
  { intros i Hi. unfold hid, RsmStep.fresh, heartbeat_id, n0, id_of, random2. rewrite (proj1 (Rg i Hi)). reflexivity. }
  assert (Cid : forall i, (i < N)%nat -> cid s name n0 i = claim_id s i).
  { intros i Hi. unfold cid, claim_id, n0, id_of, random2. rewrite (proj1 (Rg i Hi)). reflexivity. }
  assert (Num : forall i, (i < N)%nat -> number s name n0 i = strength s i).
  { intros i Hi. unfold number, strength, n0, random2. rewrite (proj1 (Rg i Hi)). cbn [Z.eqb]. unfold name. apply u16_id. lia. }
  assert (Ch : forall i, (i < N)%nat -> challenges s N a i <-> winsb s name (wait s) n0 a i = true).
  { intros i Hi. unfold challenges, winsb. rewrite (Ef i Hi), (Hid a Ha), (Num i Hi). rewrite !andb_true_iff, negb_true_iff, Nat.eqb_neq, Z.ltb_lt. tauto. }
  assert (Nch : forall i, (i < N)%nat -> ~ challenges s N a i <-> winsb s name (wait s) n0 a i = false).
  { intros i Hi. rewrite (Ch i Hi). destruct (winsb s name (wait s) n0 a i); split; congruence. }
  assert (Timer : forall i, (i < N)%nat -> tiedb (wait s) a i = true -> ce_takeover (wait s a + 1) (n0 i) = 0 \/ wait s a + 1 + 1000 <= ce_takeover (wait s a + 1) (n0 i)).
  { intros i Hi _. right. unfold ce_takeover, n0. rewrite (proj2 (Rg i Hi)), (u32_id (wait s a + 1 - 0)) by lia.
    replace (60000 <? wait s a + 1 - 0) with false by lia. replace (wait s a + 1 - 0 =? 60000) with false by lia. rewrite u32_id; lia. }
  assert (NewH : forall i, (i < N)%nat -> i <> a -> ~ In (hid s name n0 a) (last5 (Old i ++ own s name (wait s) n0 a i))).
  { intros i Hi Ni I. apply in_last5_short in I. rewrite (Hid a Ha) in I. unfold own, Old in I. destruct (tiedb (wait s) a i) eqn:Ti; cbn [app In] in I; [|tauto].
    rewrite (Hid i Hi) in I. destruct I as [I|[I|[]]]; [contradiction|]. apply (Hd i); [apply Ef; assumption|exact Ni|exact I]. }
  destruct (fsteps s N os w0) as [w1| |] eqn:E1; try discriminate. cbn [obind] in E.
  assert (Room : 0 <= wait s a < 4294967296 - 80000) by lia.
  destruct (waiting_idle s name Old (wait s) N Sm n0 a Ha ltac:(lia) Least Lowest Room Timer NewH os Idle w0 w1) as [W1 Ck1].
  { split; [exact C0|]. reflexivity. } { lia. } { exact E1. }
  destruct (ticks_log s N k w1 w (c_ok _ _ _ _ _ (proj1 W1)) E) as (_ & Ck & _).
  set (ids := all_ids (calls_of m (f_log w))) in *.
  assert (Hm : (m < N)%nat) by (destruct Pm as [[-> _]|[[[? _] _] _]]; assumption).
  (* the ids of the node that stays *)
  assert (El0 : (m = a /\ forall i, (i < N)%nat -> winsb s name (wait s) n0 a i = false) \/
     ((m < N)%nat /\ m <> a /\ winsb s name (wait s) n0 a m = true /\ forall i, (i < m)%nat -> winsb s name (wait s) n0 a i = false)).
  { destruct Pm as [[-> Q]|[Cm Q]].
    - left. split; [reflexivity|]. intros i Hi. apply (Nch i Hi), Q.
    - right. split; [exact Hm|]. split; [apply Cm|]. split; [apply (Ch m Hm), Cm|]. intros i Hi. apply (Nch i ltac:(lia)), Q, Hi. }
  assert (El : elected s name Old (wait s) N n0 a m).
  { destruct El0 as [Q|(_ & Ne & Wm & Fw)]; [left; exact Q|right]. split; [exact Hm|]. split; [exact Wm|]. split; [exact Fw|].
    intros i Hi Ni I. destruct (Hc Ne) as (Z0 & Za & Zo). rewrite (Cid m Hm) in I. apply in_last5_short in I as [I|I]; [contradiction|].
    unfold known in I. unfold Old in I; cbn [app] in I. apply in_app_or in I as [I|I].
    - unfold own in I. destruct (tiedb (wait s) a i) eqn:Ti; [|destruct I]. rewrite (Hid i Hi) in I. destruct I as [I|[]].
      destruct (Zo i ltac:(apply Ef; assumption) Ni) as [Q _]. congruence.
    - destruct (Nat.eqb i a); [destruct I|]. rewrite (Hid a Ha) in I. destruct I as [I|I]; [congruence|].
      destruct (winsb s name (wait s) n0 a i) eqn:Wi; [|destruct I]. rewrite (Cid i Hi) in I. destruct I as [I|[]].
      assert (Ci : challenges s N a i) by (apply (Ch i Hi); exact Wi). destruct (Zo i (proj1 Ci) Ni) as [_ Q]. apply (Q Ci). congruence. }
  assert (Sp : forall mine, ids_of name w m = earlier s name Old (wait s) n0 a m m ++ mine -> unused N m (earlier s name Old (wait s) n0 a m) mine).
  { intros mine Em. change (ids_of name w m) with ids in Em.
    assert (Pre : exists pre, earlier s name Old (wait s) n0 a m m = pre /\ (length pre <= 2)%nat /\ (m <> a -> exists x, pre = [x; heartbeat_id s a]) /\ (m = a -> pre = [])).
    { eexists. split; [reflexivity|]. unfold earlier, before. rewrite Nat.eqb_refl. destruct (Nat.eqb_spec m a) as [X|X].
      - split; [cbn; lia|]. split; [congruence|reflexivity].
      - assert (Tm : tiedb (wait s) a m = true).
        { destruct El0 as [[Q _]|(_ & _ & Wm & _)]; [contradiction|]. unfold winsb in Wm. apply andb_true_iff in Wm as [Wm _]. apply andb_true_iff in Wm as [Wm _]. exact Wm. }
        unfold own. rewrite Tm, (Hid a Ha). cbn. split; [lia|]. split; [|congruence]. intros _. eexists. reflexivity. }
    destruct Pre as (pre & Ep & Lp & Pa & Pn). rewrite Ep in Em. clear Ep.
    assert (Nz : forall x, In x mine -> x <> 0).
    { intros x I. apply in_split in I as (u & v & ->). apply (Di (pre ++ u) x v). rewrite Em, <- app_assoc. reflexivity. }
    assert (Nh : m <> a -> ~ In (heartbeat_id s a) (firstn 24 mine)).
    { intros Ne I. destruct (Pa Ne) as (y & Py). rewrite <- (firstn_skipn 24 mine) in Em. pose proof (firstn_le_length 24 mine) as Lf. apply in_split in I as (u & v & Eu).
      rewrite Eu, app_length in Lf. cbn [length] in Lf. rewrite Eu in Em.
      destruct (Di (pre ++ u) (heartbeat_id s a) (v ++ skipn 24 mine)) as [_ Q]; [rewrite Em, <- !app_assoc; reflexivity|]. apply Q.
      rewrite Py. destruct (le_lt_dec (length u) 22) as [L|L].
      - replace (length ([y; heartbeat_id s a] ++ u) - 24)%nat with 0%nat by (rewrite app_length; cbn; lia). right. left. reflexivity.
      - replace (length ([y; heartbeat_id s a] ++ u) - 24)%nat with 1%nat by (rewrite app_length; cbn [length] in *; lia). left. reflexivity. }
    split.
    - intros u x v ->. split; [apply Nz, in_or_app; right; left; reflexivity|]. unfold lastn. intros I.
      destruct (Di (pre ++ u) x v) as [_ Q]; [rewrite Em, <- app_assoc; reflexivity|]. apply Q. rewrite app_length, skipn_app. apply in_or_app. right.
      replace (length pre + length u - 24 - length pre)%nat with (length u - 24)%nat by lia. exact I.
    - intros i x Hi Ni I C. assert (I26 : In x (firstn 26 ids)).
      { rewrite Em, firstn_app. apply in_or_app. right. rewrite <- (firstn_skipn 24 (firstn (26 - length pre) mine)). apply in_or_app. left. rewrite firstn_firstn. replace (Nat.min 24 (26 - length pre)) with 24%nat by lia. exact I. }
      assert (Im : In x mine) by (rewrite <- (firstn_skipn 24 mine); apply in_or_app; left; exact I).
      apply in_last5_short in C as [C|C]; [exact (Nz x Im C)|].
      assert (Known : In x (own s name (wait s) n0 a i ++ (if Nat.eqb m a then [] else heartbeat_id s a :: (if winsb s name (wait s) n0 a i then [claim_id s i] else [])))).
      { unfold earlier in C. destruct (Nat.eqb_spec m a) as [Q|Q].
        - rewrite app_nil_r. replace (Nat.eqb i a) with false in C by (symmetry; apply Nat.eqb_neq; congruence). exact C.
        - unfold before in C. replace (Nat.eqb i m) with false in C by (symmetry; apply Nat.eqb_neq; congruence). unfold known in C. unfold Old in C; cbn [app] in C.
          apply in_or_app. apply in_app_or in C as [C|C]; [left; exact C|right]. destruct (Nat.eqb i a); [destruct C|]. rewrite (Hid a Ha), (Cid i Hi) in C. exact C. }
      clear C. assert (Nxa : x <> heartbeat_id s a \/ m = a).
      { destruct (Nat.eq_dec m a) as [Q|Q]; [right; exact Q|left]. intros ->. exact (Nh Q I). }
      apply in_app_or in Known as [C|C].
      + unfold own in C. destruct (tiedb (wait s) a i) eqn:Ti; [|destruct C]. rewrite (Hid i Hi) in C. destruct C as [C|[]].
        assert (Fi : ends_first s N i) by (apply Ef; assumption). destruct (Dm i x Fi Ni I26) as [Q|[Q _]]; [|congruence].
        destruct Nxa as [Nxa|Ea]; [contradiction|]. apply (Hd i Fi ltac:(congruence)). congruence.
      + destruct (Nat.eqb_spec m a) as [Q|Q]; [destruct C|]. destruct Nxa as [Nxa|]; [|contradiction]. destruct C as [C|C]; [congruence|].
        destruct (winsb s name (wait s) n0 a i) eqn:Wi; [|destruct C]. destruct C as [C|[]]. assert (Ci : challenges s N a i) by (apply (Ch i Hi); exact Wi).
        destruct (Dm i x (proj1 Ci) Ni I26) as [R|[_ R]]; [contradiction|]. apply (R Ci). congruence. }
  assert (St : staged s name Old (wait s) N n0 a m w).
  { apply (staged_ticks s name Old (wait s) N Sm n0 a Ha ltac:(lia) Least Lowest Room Timer NewH m El k w1 w); [left; split; [exact W1|lia]|lia|exact E|exact Sp]. }
  destruct (staged_roles s name Old (wait s) N Sm n0 a Ha ltac:(lia) Least Lowest Room Timer NewH m El w St) as (R1 & R2 & R3 & R4).
  assert (Ckn : f_clock w = now) by (unfold now; lia). rewrite Ckn in *. unfold GetCurrentState.
  assert (R2' : wait s a < now -> state (f_node w m) = Master /\ forall i, (i < N)%nat -> ~ ends_first s N i -> state (f_node w i) = Slave).
  { intros L. destruct (R2 L) as [M S]. split; [exact M|]. intros i Hi Q. apply (S i Hi). apply (Nef i Hi), Q. }
  split; [exact R1|]. split; [|split; [exact R2'|]].
  - intros L i Hi. split; [|intros Q; apply (R3 L i Hi); apply (Ef i Hi), Q].
    intros M. destruct (ends_first_dec s N i) as [Y|Y]; [exact Y|]. destruct (R2' ltac:(lia)) as [_ S]. rewrite (S i Hi Y) in M. discriminate.
  - intros L. split; [apply R2'; destruct (Nat.eqb m a); lia|]. apply R4. lia.
Qed.
Print Assumptions C138_a_tie_leaves_one_master.

(** Without a tie this is C118. *)
Theorem C138_no_tie : forall s N m, (m < N)%nat ->
  (forall i, (i < N)%nat -> i <> m -> waits_until s m < waits_until s i) -> prevails s N m m.
Proof.
  intros s N m Hm First. assert (U : forall j, ends_first s N j -> j = m).
  { intros j [Hj Q]. destruct (Nat.eq_dec j m) as [X|X]; [exact X|]. specialize (Q m Hm). specialize (First j Hj X). lia. }
  split.
  - split; [split; [exact Hm|]|].
    + intros j Hj. destruct (Nat.eq_dec j m) as [->|X]; [lia|]. specialize (First j Hj X). lia.
    + intros j Hj Q. specialize (U j Q). lia.
  - left. split; [reflexivity|]. intros i (Q & Ne & _). exact (Ne (U i Q)).
Qed.
Print Assumptions C138_no_tie.

Lemma opener_below s N a m : prevails s N a m -> m <> a -> (a < m < N)%nat.
Proof.
  intros [[Fa La] M] Ne. destruct M as [[-> _]|[(Fm & _) _]]; [contradiction|]. split; [|apply Fm].
  destruct (lt_eq_lt_dec a m) as [[L|L]|L]; [exact L|congruence|]. exfalso. exact (La m L Fm).
Qed.
Lemma opener_waits s N a m : prevails s N a m -> (a < N)%nat /\ 5001 <= waits_until s a <= Z.of_nat a + 7000.
Proof. intros [[[Ha _] _] _]. split; [exact Ha|]. unfold waits_until. lia. Qed.

(** The test electsOneMaster passes whether or not waits end at the same time. *)
Corollary C138_electsOneMaster : forall s N a m w,
  simulated s N ([FTick; FAdvance (kSlaveNoPacketTimeout - 5); FTick] ++ runTicks (Z.to_nat (kSlaveNoPacketRandom + 10))) w ->
  (N <= 6)%nat -> prevails s N a m -> told_apart s N a m (all_ids (calls_of m (f_log w))) ->
  getNumMasters N w = 1%nat.
Proof.
  intros s N a m w Sm Hn P Di. destruct (opener_waits s N a m P) as [Ha Wa]. pose proof (opener_below s N a m P) as Ob.
  assert (Hm : (m < N)%nat) by (destruct (Nat.eq_dec m a) as [->|Ne]; [exact Ha|apply Ob; exact Ne]).
  assert (Ev : passed [FTick; FAdvance (kSlaveNoPacketTimeout - 5); FTick] = 4995) by reflexivity.
  assert (Er : Z.of_nat (Z.to_nat (kSlaveNoPacketRandom + 10)) = 2010) by (rewrite Z2Nat.id; unfold kSlaveNoPacketRandom; lia).
  destruct (C138_a_tie_leaves_one_master s N a m _ _ w Sm ltac:(lia) P) as (_ & _ & _ & M).
  - apply Forall_cons; [exact I|]. apply Forall_cons; [unfold idle, kSlaveNoPacketTimeout; lia|]. apply Forall_cons; [exact I|apply Forall_nil].
  - rewrite Ev. lia.
  - rewrite Ev, Er. lia.
  - exact Di.
  - destruct M as [M1 M2]; [|apply (masters_counted N w m Hm M1 M2)].
    rewrite Ev, Er. destruct (Nat.eqb_spec m a) as [X|X]; [lia|]. specialize (Ob X). lia.
Qed.
Print Assumptions C138_electsOneMaster.

(** So does stableOverTime. *)
Corollary C138_stableOverTime : forall s N a m k w,
  simulated s N (runTicks k) w -> (N <= 900)%nat -> prevails s N a m -> told_apart s N a m (all_ids (calls_of m (f_log w))) ->
  kSlaveNoPacketTimeout * 2 <= Z.of_nat k < 4294967296 - 80000 ->
  getNumMasters N w = 1%nat.
Proof.
  intros s N a m k w Sm Hn P Di Hk. unfold kSlaveNoPacketTimeout in Hk. destruct (opener_waits s N a m P) as [Ha Wa]. pose proof (opener_below s N a m P) as Ob.
  assert (Hm : (m < N)%nat) by (destruct (Nat.eq_dec m a) as [->|Ne]; [exact Ha|apply Ob; exact Ne]).
  destruct (C138_a_tie_leaves_one_master s N a m [] k w Sm Hn P (Forall_nil _)) as (_ & _ & _ & M); try (cbn [passed fold_right]; lia); [exact Di|].
  destruct M as [M1 M2]; [|apply (masters_counted N w m Hm M1 M2)].
  cbn [passed fold_right]. destruct (Nat.eqb_spec m a) as [X|X]; lia.
Qed.
Print Assumptions C138_stableOverTime.

(** ** Concrete ties *)
(** Nodes 0, 1 and 2 of five wait until 5003; [b] is what each node draws against
    the heartbeat of another. *)
Definition three (b : nat -> N) : source :=
  mkSource (fun k r => match r with
              | O => match k with O => 2%N | 1%nat => 1%N | 2%nat => 0%N | _ => 1500%N end
              | 2%nat => b k
              | _ => N.of_nat (100 * k + r + 7) end) (fun r => N.of_nat r)
           (fun _ => mkOffsets 0 0 0) (fun _ => (0, 0, repeat 0 58, repeat 0 58)).
Definition thrice : list fop := [FAdvance 4995].

Lemma three_waits b i : (i < 5)%nat -> waits_until (three b) i = if (i <? 3)%nat then 5003 else Z.of_nat i + 6501.
Proof. intros H. do 5 (destruct i as [|i]; [reflexivity|]). lia. Qed.
Lemma three_first b i : ends_first (three b) 5 i <-> (i < 3)%nat.
Proof.
  split.
  - intros [H Q]. specialize (Q 0%nat ltac:(lia)). rewrite !three_waits in Q by lia. destruct (Nat.ltb_spec i 3); [assumption|]. cbn in Q. lia.
  - intros H. split; [lia|]. intros j Hj. rewrite !three_waits by lia. replace (i <? 3)%nat with true by (symmetry; apply Nat.ltb_lt; exact H). destruct (Nat.ltb_spec j 3); lia.
Qed.
Lemma three_opens b : opens (three b) 5 0.
Proof. split; [apply three_first; lia|intros j Hj; lia]. Qed.
Lemma three_challenges b i : challenges (three b) 5 0 i <-> (0 < i < 3)%nat /\ 10 < strength (three b) i.
Proof.
  unfold challenges. rewrite three_first. change (heartbeat_id (three b) 0) with 10. split; [intros (A & B & C); split; [lia|exact C]|intros [A B]; split; [lia|split; [lia|exact B]]].
Qed.

Definition apart_b (m : nat) (w : fakenet) : bool :=
  let ids := all_ids (calls_of m (f_log w)) in
  distinctb [] ids && forallb (fun i => (i =? m)%nat || forallb (fun x => (x =? 10) || (negb (x =? 100 * Z.of_nat i + 10) && negb (x =? 100 * Z.of_nat i + 12))) (firstn 26 ids)) [0%nat; 1%nat; 2%nat].
Lemma three_apart b m k w : (m < 3)%nat -> simulated (three b) 5 (thrice ++ runTicks k) w -> ends (three b) 5 (thrice ++ runTicks k) (apart_b m) = true ->
  told_apart (three b) 5 0 m (all_ids (calls_of m (f_log w))).
Proof.
  intros Hm Sm E. apply (ends_true _ _ _ _ _ Sm) in E. unfold apart_b in E. cbv zeta in E. apply andb_true_iff in E as [E1 E2].
  assert (Hh : forall i, (i < 3)%nat -> heartbeat_id (three b) i = 100 * Z.of_nat i + 10) by (intros i Hi; do 3 (destruct i as [|i]; [reflexivity|]); lia).
  assert (Hc : forall i, (i < 3)%nat -> claim_id (three b) i = 100 * Z.of_nat i + 12) by (intros i Hi; do 3 (destruct i as [|i]; [reflexivity|]); lia).
  split; [rewrite Hh; lia|]. split; [intros i Fi Ni; apply three_first in Fi; rewrite !Hh; lia|]. split.
  { intros Ne. rewrite Hc, Hh by lia. split; [lia|]. split; [lia|]. intros i Fi Ni. apply three_first in Fi. rewrite Hh, Hc by lia. split; [lia|]. intros _. lia. }
  split; [apply distinctb_ok; exact E1|]. intros i x Fi Ni I. apply three_first in Fi. rewrite forallb_forall in E2.
  assert (In i [0%nat; 1%nat; 2%nat]) as Ii by (cbn; lia). specialize (E2 i Ii). apply orb_true_iff in E2 as [E2|E2]; [apply Nat.eqb_eq in E2; contradiction|].
  rewrite forallb_forall in E2. specialize (E2 x I). rewrite !Hh, Hc by lia. lia.
Qed.
Lemma three_run b k : exists w, simulated (three b) 5 (thrice ++ runTicks k) w.
Proof.
  apply simulated_exists; [|lia|].
  - intros i. cbn -[wf_packet]. split; apply wf_packetb_ok; vm_compute; reflexivity.
  - apply Forall_app. split; [repeat constructor; cbn; lia|apply runTicks_ok].
Qed.
Lemma three_idle : Forall idle thrice. Proof. repeat constructor; cbn; lia. Qed.

Ltac by_numbers := first [vm_compute; reflexivity|vm_compute; discriminate].

(** Nobody draws more than 10, the id of the heartbeat of node 0: it stays. *)
Example C138_ex_heartbeat : exists w, simulated (three (fun _ => 0%N)) 5 (thrice ++ runTicks 10) w /\
  prevails (three (fun _ => 0%N)) 5 0 0 /\
  (GetCurrentState (f_node w 0%nat) = Master /\ forall i, (i < 5)%nat -> i <> 0%nat -> GetCurrentState (f_node w i) = Slave).
Proof.
  destruct (three_run (fun _ => 0%N) 10) as [w Sm]. exists w. split; [exact Sm|].
  assert (P : prevails (three (fun _ => 0%N)) 5 0 0).
  { split; [apply three_opens|left]. split; [reflexivity|]. intros i C. apply three_challenges in C as [_ C]. change (strength (three (fun _ => 0%N)) i) with 1 in C. lia. }
  split; [exact P|].
  apply (C138_a_tie_leaves_one_master _ 5 0 0 thrice 10 w Sm ltac:(lia) P three_idle); [by_numbers|by_numbers|apply (three_apart _ 0 10 w ltac:(lia) Sm); vm_compute; reflexivity|by_numbers].
Qed.

(** Nodes 1 and 2 both do: node 1 stays. *)
Example C138_ex_two_challengers : exists w, simulated (three (fun _ => 5000%N)) 5 (thrice ++ runTicks 10) w /\
  prevails (three (fun _ => 5000%N)) 5 0 1 /\
  (GetCurrentState (f_node w 1%nat) = Master /\ forall i, (i < 5)%nat -> i <> 1%nat -> GetCurrentState (f_node w i) = Slave).
Proof.
  destruct (three_run (fun _ => 5000%N) 10) as [w Sm]. exists w. split; [exact Sm|].
  assert (P : prevails (three (fun _ => 5000%N)) 5 0 1).
  { split; [apply three_opens|right]. split; [apply three_challenges; change (strength (three (fun _ => 5000%N)) 1) with 5001; lia|]. intros i Hi C. apply three_challenges in C as [C _]. lia. }
  split; [exact P|].
  apply (C138_a_tie_leaves_one_master _ 5 0 1 thrice 10 w Sm ltac:(lia) P three_idle); [by_numbers|by_numbers|apply (three_apart _ 1 10 w ltac:(lia) Sm); vm_compute; reflexivity|by_numbers].
Qed.

(** Only node 2 does: the three are masters at 5004, and node 2 alone at 5010. *)
Definition late (k : nat) : N := if (k =? 2)%nat then 5000%N else 0%N.
Example C138_ex_one_challenger : exists w w', simulated (three late) 5 (thrice ++ runTicks 4) w /\ simulated (three late) 5 (thrice ++ runTicks 10) w' /\
  prevails (three late) 5 0 2 /\
  (forall i, (i < 5)%nat -> GetCurrentState (f_node w i) = Master <-> (i < 3)%nat) /\
  (GetCurrentState (f_node w' 2%nat) = Master /\ forall i, (i < 5)%nat -> i <> 2%nat -> GetCurrentState (f_node w' i) = Slave).
Proof.
  destruct (three_run late 4) as [w Sm]. destruct (three_run late 10) as [w' Sm']. exists w, w'. split; [exact Sm|]. split; [exact Sm'|].
  assert (P : prevails (three late) 5 0 2).
  { split; [apply three_opens|right]. split; [apply three_challenges; change (strength (three late) 2) with 5001; lia|]. intros i Hi C. apply three_challenges in C as [C D]. assert (i = 1%nat) as -> by lia. change (strength (three late) 1) with 1 in D. lia. }
  split; [exact P|]. split.
  - intros i Hi. rewrite <- (three_first late i). revert i Hi.
    apply (C138_a_tie_leaves_one_master _ 5 0 2 thrice 4 w Sm ltac:(lia) P three_idle); [by_numbers|by_numbers|apply (three_apart _ 2 4 w ltac:(lia) Sm); vm_compute; reflexivity|by_numbers].
  - apply (C138_a_tie_leaves_one_master _ 5 0 2 thrice 10 w' Sm' ltac:(lia) P three_idle); [by_numbers|by_numbers|apply (three_apart _ 2 10 w' ltac:(lia) Sm'); vm_compute; reflexivity|by_numbers].
Qed.

(** ** Heartbeats with the same id *)
(** Every second draw is 7: the heartbeats of the three have the id 9, and none
    of them hears the others. *)
Definition echo : source :=
  mkSource (fun k r => match r with
              | O => match k with O => 2%N | 1%nat => 1%N | 2%nat => 0%N | _ => 1500%N end
              | 1%nat => 7%N
              | _ => N.of_nat (100 * k + r + 7) end) (fun r => N.of_nat r)
           (fun _ => mkOffsets 0 0 0) (fun _ => (0, 0, repeat 0 58, repeat 0 58)).

(** Then they stay masters: the theorem needs its condition on the ids of the
    first heartbeats. *)
Theorem C138_one_master_with_equal_ids_refuted : ~ (forall s N a m os k w,
  simulated s N (os ++ runTicks k) w -> (N <= 900)%nat -> prevails s N a m -> Forall idle os ->
  Z.of_nat N + passed os <= waits_until s a -> Z.of_nat N + passed os + Z.of_nat k < 4294967296 - 70000 ->
  (forall i, (i < N)%nat -> distinct_ids (all_ids (calls_of i (f_log w)))) ->
  waits_until s a + 2 + Z.of_nat m <= Z.of_nat N + passed os + Z.of_nat k ->
  getNumMasters N w = 1%nat).
Proof.
  intros H. destruct (simulated_exists echo 5 (thrice ++ runTicks 10)) as [w Sm].
  { intros k. cbn -[wf_packet]. split; apply wf_packetb_ok; vm_compute; reflexivity. } { lia. }
  { apply Forall_app. split; [repeat constructor; cbn; lia|apply runTicks_ok]. }
  destruct (C138_one_prevails echo 5 ltac:(lia)) as ((a & m & P) & _ & F).
  assert (Wt : forall i, (i < 5)%nat -> waits_until echo i = if (i <? 3)%nat then 5003 else Z.of_nat i + 6501) by (intros i Hi; do 5 (destruct i as [|i]; [reflexivity|]); lia).
  assert (L3 : forall i, ends_first echo 5 i -> (i < 3)%nat).
  { intros i [Hi Q]. specialize (Q 0%nat ltac:(lia)). rewrite !Wt in Q by lia. destruct (Nat.ltb_spec i 3); [assumption|]. cbn in Q. lia. }
  pose proof (L3 m (F a m P)) as Hm. pose proof (L3 a (proj1 (proj1 P))) as Ha.
  assert (Wa : waits_until echo a = 5003) by (rewrite Wt by lia; replace (a <? 3)%nat with true by (symmetry; apply Nat.ltb_lt; exact Ha); reflexivity).
  assert (G : getNumMasters 5 w = 1%nat).
  { apply (H echo 5%nat a m thrice 10%nat w Sm ltac:(lia) P three_idle); rewrite ?Wa; try (cbn [passed fold_right thrice]; lia).
    intros i Hi. apply distinctb_ok. apply (ends_true _ _ _ (fun w => distinctb [] (all_ids (calls_of i (f_log w)))) _ Sm).
    do 5 (destruct i as [|i]; [vm_compute; reflexivity|]). lia. }
  assert (X : (getNumMasters 5 w =? 3)%nat = true).
  { apply (ends_true _ _ _ (fun w => getNumMasters 5 w =? 3)%nat _ Sm). vm_compute. reflexivity. }
  rewrite G in X. discriminate.
Qed.
Print Assumptions C138_one_master_with_equal_ids_refuted.
