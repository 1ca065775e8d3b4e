(** Proof support for C127: slaves of the simulated network are replaced, and the
    ids of the master follow its random numbers. *)
From Coq Require Import ZArith NArith Lia List Bool.
From Coq Require Import ZifyBool.
From Verif Require Import CInt CIntFacts Packet SpecPacket PacketFacts NetMgr NetHist SpecNet NetFacts Rsm RsmStep RsmEval RsmRun RsmHist SpecRsm RsmFacts RsmTime RoleFacts.
From Verif Require Import Fastled Palette Device LedMgr Effects Show ShowFacts Bench FakeNet FakeNetFacts SimFacts PropFakeNet PropSim PropFailSim AgreeFacts AgreeRun Lull.
Import ListNotations.
Open Scope Z_scope.
Ltac Zify.zify_post_hook ::= Z.div_mod_to_equations.

(** ** The ids of the master *)
Definition log_ids (k : nat) (w : fakenet) : list Z := all_ids (calls_of k (f_log w)).

Lemma drawn_led s name Old N m w w' r0 : (N <= 900)%nat -> led name Old N m w -> f_clock w + 1 < 4294967296 - 70000 ->
  FakeTick s N (advanceMillis 1 w) = Ok w' -> drawn (env_of s (name m)) r0 (log_ids (name m) w) (rng (f_node w m)) ->
  drawn (env_of s (name m)) r0 (log_ids (name m) w') (rng (f_node w' m)).
Proof.
  intros Sm (D & T & U & fly & j & s1 & h & g & a & kills & R) Hc Et Dr. destruct R as [K Hm Nm Inj Tk Ls Ids Len Ms Hb Wt Sl Air_].
  set (w0 := advanceMillis 1 w) in *.
  assert (K0 : ok N w0) by (destruct K as [[? ? ? ?] ? ?]; constructor; [constructor|..]; auto; cbn; lia).
  destruct (FakeTick_ok s N w0 K0) as (evs & w1 & E1 & K1 & Tm & Lg & Nm1 & _).
  rewrite Et in E1. injection E1 as <-.
  change (f_name w0) with (f_name w) in *. change (f_ticked w0) with (f_ticked w) in *. change (f_node w0) with (f_node w) in *.
  change (f_log w0) with (f_log w) in *. change (f_clock w0) with (f_clock w + 1) in *.
  set (t := f_clock w + 1) in *.
  assert (Ht : 0 <= t < 4294967296 - 70000) by (pose proof (k_clock _ _ K); subst t; lia).
  assert (Rc : receives s w0 m = option_map zero_tail (cell w Air)).
  { unfold receives, keeps. change (f_loss w0) with (f_loss w). rewrite Ls. reflexivity. }
  assert (Mine : calls_of (name m) (f_log w') = calls_of (name m) (f_log w) ++ evs m).
  { rewrite Lg, calls_of_app. f_equal. destruct (calls_of_round (f_name w) evs N (name m)) as [Q _].
    - intros i i' Hi Hi'. rewrite !Nm by assumption. apply Inj; assumption.
    - apply Q; [exact Hm|apply Nm; exact Hm]. }
  assert (M0 : ms t (f_node w m) (cell w (Radio m)) T U s1 h g a kills).
  { apply ms_next; [exact Ms|exact Hb|]. intros NU. destruct (Wt NU) as (_ & B & _ & C). lia. }
  assert (So : inc_sound (option_map zero_tail (cell w Air))).
  { intros p. destruct (cell w Air) as [c|] eqn:C; [|discriminate]. cbn. intros [= <-]. apply zero_tail_sound. exact (cell_air_sound _ _ _ (k_mem _ _ K) C). }
  assert (M1 : exists g1 a1 kills1, ms t (f_node w m) (cell w (Radio m)) T U s1 h g1 a1 kills1 /\ a1 <> OnAir).
  { destruct a; try (exists g; eexists _, kills; split; [exact M0|discriminate]). exists t, Got, []. split; [exact (ms_got _ _ _ _ _ _ _ _ _ M0)|discriminate]. }
  destruct M1 as (g1 & a1 & kills1 & M1 & Na1).
  assert (AirT : forall p, option_map zero_tail (cell w Air) = Some p -> pid p = last T 0).
  { intros p. destruct (cell w Air) as [c|] eqn:C; [|discriminate]. cbn. intros [= <-]. cbn [zero_tail pid].
    destruct fly; [destruct Air_ as (X & CA & PX & _); congruence|]. destruct Air_ as (_ & Lst & _ & _ & AA). rewrite <- Lst. exact (AA c eq_refl). }
  destruct (Tm m Hm) as [Em _]. rewrite Nm, Tk, Rc in Em by exact Hm.
  replace (log_ids (name m) w') with (log_ids (name m) w ++ all_ids (evs m)).
  - exact (drawn_machine (env_of s (name m)) t _ _ T U s1 h g1 a1 kills1 _ _ _ r0 _ eq_refl M1 Na1 Ht So AirT Em Dr).
  - unfold log_ids. rewrite Mine. unfold all_ids. rewrite !map_app, concat_app, map_app. reflexivity.
Qed.

Lemma drawn_lull s name Old N m w w' r0 : (N <= 900)%nat -> lull name Old N m w -> f_clock w + 1 < 4294967296 - 70000 ->
  FakeTick s N (advanceMillis 1 w) = Ok w' -> drawn (env_of s (name m)) r0 (log_ids (name m) w) (rng (f_node w m)) ->
  drawn (env_of s (name m)) r0 (log_ids (name m) w') (rng (f_node w' m)).
Proof.
  intros Sm L Hc Et Dr. destruct L as [(T & s1 & h & g & a & kills & P) Nm Inj Ids Kn]. destruct P as [K Hm Tk Ls Air0 Sl0 Ms Na Hb Sl].
  set (w0 := advanceMillis 1 w) in *.
  assert (K0 : ok N w0) by (destruct K as [[? ? ? ?] ? ?]; constructor; [constructor|..]; auto; cbn; lia).
  assert (Ce : forall o, cell w0 o = cell w o) by (intros []; reflexivity).
  destruct (FakeTick_ok s N w0 K0) as (evs & w1 & E1 & K1 & Tm & Lg & Nm1 & _).
  rewrite Et in E1. injection E1 as <-.
  change (f_name w0) with (f_name w) in *. change (f_ticked w0) with (f_ticked w) in *. change (f_node w0) with (f_node w) in *.
  change (f_log w0) with (f_log w) in *. change (f_clock w0) with (f_clock w + 1) in *.
  set (t := f_clock w + 1) in *.
  assert (Ht : 0 <= t < 4294967296 - 70000) by (pose proof (k_clock _ _ K); subst t; lia).
  assert (Rc : receives s w0 m = None) by (unfold receives; rewrite Ce, Air0; destruct (keeps _ _ _ _); reflexivity).
  assert (Mine : calls_of (name m) (f_log w') = calls_of (name m) (f_log w) ++ evs m).
  { rewrite Lg, calls_of_app. f_equal. destruct (calls_of_round (f_name w) evs N (name m)) as [Q _].
    - intros i i' Hi Hi'. rewrite !Nm by assumption. apply Inj; assumption.
    - apply Q; [exact Hm|apply Nm; exact Hm]. }
  assert (M0 : ms t (f_node w m) None T [] s1 h g a kills) by (apply ms_next; [exact Ms|exact Hb|congruence]).
  destruct (Tm m Hm) as [Em _]. rewrite Nm, Tk, Rc in Em by exact Hm.
  replace (log_ids (name m) w') with (log_ids (name m) w ++ all_ids (evs m)).
  - apply (drawn_machine (env_of s (name m)) t _ _ T [] s1 h g a kills None _ _ r0 _ eq_refl M0 Na Ht); [intros p [=]|intros p [=]|exact Em|exact Dr].
  - unfold log_ids. rewrite Mine. unfold all_ids. rewrite !map_app, concat_app, map_app. reflexivity.
Qed.

(** Of 136 successive random numbers no two give the same id. *)
Definition far_apart (e : env) (r0 : nat) : Prop :=
  (forall j k, (r0 <= j < k)%nat -> (k <= j + 135)%nat -> drawn_id e j <> drawn_id e k) /\ forall j, (r0 <= j)%nat -> drawn_id e j <> 0.

Lemma drawn_apart e r0 ids r : far_apart e r0 -> drawn e r0 ids r ->
  forall a x b, ids = a ++ x :: b -> x <> 0 /\ ~ In x (lastn 44 a).
Proof.
  intros [V V1] H. induction H as [|ids r j H IH Hj].
  - intros a x b E. destruct a; discriminate.
  - intros a x b E. destruct (drawn_recent _ _ _ _ H) as [L Rc].
    destruct b as [|z b _] using rev_ind.
    + apply app_inj_tail in E as [<- <-]. split; [apply V1; lia|]. intros I. destruct (Rc _ _ I) as (i & B1 & B2 & Eq).
      apply (V i j); [lia|lia|]. congruence.
    + change (x :: b ++ [z]) with ((x :: b) ++ [z]) in E. rewrite app_assoc in E. apply app_inj_tail in E as [-> _]. apply (IH a x b). reflexivity.
Qed.

(** ** What the slaves remember *)
(** The last k ids a slave remembers are among the last 4k of the master. *)
Definition recent (c : list Z) (M : list Z) : Prop :=
  forall k x, (k <= 5)%nat -> In x (lastn k c) -> x = 0 \/ In x (lastn (4 * k) M).

Lemma lastn_twice {A} j k (l : list A) : (j <= k)%nat -> lastn j (lastn k l) = lastn j l.
Proof.
  intros H. unfold lastn at 1 2. rewrite skipn_length, skipn_more. unfold lastn.
  destruct (le_lt_dec (length l) k) as [L|L].
  - replace (length l - k)%nat with 0%nat by lia. f_equal. lia.
  - f_equal. lia.
Qed.
Lemma lastn_last5 k ids : (k <= 5)%nat -> lastn k (last5 ids) = lastn k ([0;0;0;0;0] ++ ids).
Proof. intros H. rewrite last5_padded. apply lastn_twice. exact H. Qed.
Lemma lastn_all {A} k (l : list A) : (length l <= k)%nat -> lastn k l = l.
Proof. intros H. unfold lastn. replace (length l - k)%nat with 0%nat by lia. reflexivity. Qed.
Lemma lastn_app_gt {A} k (a b : list A) : (k <= length b)%nat -> lastn k (a ++ b) = lastn k b.
Proof.
  intros H. unfold lastn. rewrite app_length, skipn_app. rewrite skipn_all2 by lia. cbn [app]. f_equal. lia.
Qed.

Lemma recent_grows C D M T : recent (last5 C) M -> near D T -> (length T <= 4 * length D)%nat -> recent (last5 (C ++ D)) (M ++ T).
Proof.
  intros R Nr L k x Hk I. rewrite lastn_last5 in I by exact Hk. rewrite app_assoc in I.
  destruct (le_lt_dec k (length D)) as [Le|Lt].
  - rewrite lastn_app_gt in I by exact Le. apply Nr in I. right.
    destruct (le_lt_dec (4 * k) (length T)) as [Q|Q]; [rewrite lastn_app_gt by exact Q; exact I|].
    rewrite lastn_app_le by lia. apply in_or_app. right. rewrite lastn_all in I by lia. exact I.
  - rewrite lastn_app_le in I by lia. apply in_app_or in I as [I|I].
    + destruct (R (k - length D)%nat x ltac:(lia)) as [->|J]; [rewrite lastn_last5 by lia; exact I|left; reflexivity|right].
      rewrite lastn_app_le by lia. apply in_or_app. left. eapply lastn_incl; [|exact J]. lia.
    + right. assert (J : In x (lastn (4 * length D) T)) by (apply Nr; rewrite lastn_all by lia; exact I).
      rewrite lastn_all in J by lia. rewrite lastn_app_le by lia. apply in_or_app. right. exact J.
Qed.

Lemma recent_new M : recent (last5 []) M.
Proof. intros k x Hk I. left. unfold lastn in I. rewrite <- (firstn_skipn (length (last5 []) - k) (last5 [])) in *. assert (J : In x (last5 [])) by (rewrite <- (firstn_skipn (length (last5 []) - k) (last5 [])); apply in_or_app; right; rewrite firstn_skipn in I; exact I). cbn in J. intuition lia. Qed.

(** Apart ids are new to slaves that remember recent ones. *)
Lemma apart_unused N m Old own : (forall a x b, Old m ++ own = a ++ x :: b -> x <> 0 /\ ~ In x (lastn 44 a)) ->
  (forall i, (i < N)%nat -> i <> m -> recent (last5 (Old i)) (Old m)) -> unused N m Old own.
Proof.
  intros Ap Rc. split.
  - intros a x b E. destruct (Ap (Old m ++ a) x b) as [H0 H1]; [rewrite E, <- app_assoc; reflexivity|]. split; [exact H0|].
    intros I. apply H1. apply (lastn_incl 24 44); [lia|]. destruct (le_lt_dec 24 (length a)) as [L|L]; [rewrite lastn_app_gt by exact L; exact I|].
    rewrite lastn_app_le by lia. apply in_or_app. right. rewrite lastn_all in I by lia. exact I.
  - intros i x Hi Ne I J.
    apply in_split in I as (a & b & E). 
    assert (La : (length a < 24)%nat) by (assert (Q : length (firstn 24 own) = length (a ++ x :: b)) by congruence; rewrite app_length in Q; cbn [length] in Q; pose proof (firstn_le_length 24 own); lia).
    destruct (Ap (Old m ++ a) x (b ++ skipn 24 own)) as [H0 H1].
    { rewrite <- (firstn_skipn 24 own) at 1. rewrite E, <- !app_assoc. reflexivity. }
    destruct (Rc i Hi Ne 5%nat x ltac:(lia)) as [Z0|K]; [|congruence|].
    + rewrite lastn_last5 by lia. rewrite <- last5_padded. exact J.
    + apply H1. rewrite lastn_app_le by lia. apply in_or_app. left. eapply lastn_incl; [|exact K]. lia.
Qed.

(** ** The run *)
Section Run.
Variable s : source.
Variables N m : nat.
Hypothesis small : (N <= 900)%nat.
Hypothesis apart : far_apart (env_of s m) 1.

Record governed (w : fakenet) : Prop := mkGov {
  v_traced : traced s N w;
  v_name : f_name w m = m;
  v_drawn : drawn (env_of s m) 1 (log_ids m w) (rng (f_node w m));
  v_in : exists name Old, (lull name Old N m w \/ led name Old N m w) /\
     forall i, (i < N)%nat -> i <> m -> recent (last5 (Old i)) (Old m)
}.

Lemma governed_ok w : governed w -> ok N w.
Proof. intros [_ _ _ (name & Old & H & _)]. exact (lull_ok _ _ _ _ _ H). Qed.

Lemma governed_round w w' : governed w -> f_clock w + 1 < 4294967296 - 70000 -> traced s N w' -> FakeTick s N (advanceMillis 1 w) = Ok w' ->
  governed w' /\ f_clock w' = f_clock w + 1.
Proof.
  intros G Hc T' E. pose proof (governed_ok w G) as K. destruct G as [Tr Nm Dr (name & Old & H & Rc)].
  assert (Em : name m = m /\ (m < N)%nat).
  { destruct H as [L|(D & T & U & fly & j & s1 & h & g & a & kills & R)].
    - pose proof (u_pause _ _ _ _ _ L) as (T & s1 & h & g & a & kills & P). pose proof (p_m _ _ _ _ _ _ _ _ _ P) as Hm.
      rewrite <- (u_names _ _ _ _ _ L m Hm). auto.
    - pose proof (r_m _ _ _ _ _ _ _ _ _ _ _ _ _ _ _ R) as Hm. rewrite <- (r_names _ _ _ _ _ _ _ _ _ _ _ _ _ _ _ R m Hm). auto. }
  destruct Em as [Em Hm].
  assert (Dr' : drawn (env_of s m) 1 (log_ids m w') (rng (f_node w' m))).
  { destruct H as [L|L].
    - pose proof (drawn_lull s name Old N m w w' 1 small L Hc E) as X. rewrite Em in X. exact (X Dr).
    - pose proof (drawn_led s name Old N m w w' 1 small L Hc E) as X. rewrite Em in X. exact (X Dr). }
  assert (Un : forall own, all_ids (calls_of (name m) (f_log w')) = Old m ++ own -> unused N m Old own).
  { intros own Eo. rewrite Em in Eo. apply apart_unused; [|exact Rc]. rewrite <- Eo. exact (drawn_apart _ _ _ _ apart Dr'). }
  assert (St : f_clock w' = f_clock w + 1 /\ (lull name Old N m w' \/ led name Old N m w')).
  { destruct H as [L|(D & T & U & fly & j & s1 & h & g & a & kills & R)].
    - apply (lull_round s name Old N m w w' small L ltac:(lia) E Un).
    - destruct (reign_step s name Old N m small _ _ _ _ _ _ _ _ _ _ _ w' R Hc E Un) as (Ck & R'). split; [exact Ck|]. right. exact R'. }
  destruct St as [Ck H']. split; [|exact Ck]. constructor; auto.
  - assert (K0 : ok N (advanceMillis 1 w)) by (destruct K as [[? ? ? ?] ? ?]; constructor; [constructor|..]; auto; cbn; lia).
    destruct (FakeTick_ok s N _ K0) as (evs & w2 & E2 & _ & _ & _ & Nm2 & _). rewrite E in E2. injection E2 as <-. rewrite Nm2. exact Nm.
  - exists name, Old. auto.
Qed.

Lemma governed_swap w r w' : junk_ok s -> governed w -> nothing_in_the_air N w -> (r < N)%nat -> r <> m -> f_clock w < 4294967296 - 70000 ->
  reinitNode s r w = Ok w' -> governed w' /\ f_clock w' = f_clock w.
Proof.
  intros J G Q Hr Ne Hc E. pose proof (governed_ok w G) as K. destruct G as [Tr Nm Dr (name & Old & H & Rc)].
  assert (P : pauses N m w) by (destruct H as [[P _ _ _ _]|L]; [exact P|exact (led_pauses name Old N m w L Q)]).
  assert (Hm : (m < N)%nat) by (destruct P as (? & ? & ? & ? & ? & ? & P); apply P).
  (* what the slaves remember *)
  assert (Rw : forall i, (i < N)%nat -> i <> m -> recent (last5 (all_ids (calls_of (f_name w i) (f_log w)))) (log_ids m w)).
  { intros i Hi Ni. destruct (traced_knows s N w i Tr Hi) as [_ W1].
    destruct H as [L|(D & T & U & fly & j & s1 & h & g & a & kills & R)].
    - destruct (u_knows _ _ _ _ _ L i Hi Ni) as [_ W2]. rewrite <- W1, W2.
      replace (log_ids m w) with (Old m); [apply Rc; assumption|]. rewrite <- (u_ids _ _ _ _ _ L), <- (u_names _ _ _ _ _ L m Hm), Nm. reflexivity.
    - destruct (r_slaves _ _ _ _ _ _ _ _ _ _ _ _ _ _ _ R i Hi Ni) as (_ & [_ W2] & _). rewrite <- W1, W2.
      destruct Q as [Air0 Qt]. pose proof (r_air _ _ _ _ _ _ _ _ _ _ _ _ _ _ _ R) as Ra.
      destruct fly; [destruct Ra as (X & CA & _); unfold on_air in Air0; congruence|]. destruct Ra as (_ & _ & Nr & _).
      pose proof (r_len _ _ _ _ _ _ _ _ _ _ _ _ _ _ _ R) as Le.
      pose proof (r_ms _ _ _ _ _ _ _ _ _ _ _ _ _ _ _ R) as M. pose proof (Qt m Hm) as Qm. unfold waiting in Qm. rewrite Qm in M.
      destruct (m_slot _ _ _ _ _ _ _ _ _ _ M) as [EU _].
      replace (log_ids m w) with (Old m ++ T).
      + apply recent_grows; [apply Rc; assumption|exact Nr|cbn [Nat.add] in Le; rewrite Nat.add_0_r in Le; exact Le].
      + pose proof (r_ids _ _ _ _ _ _ _ _ _ _ _ _ _ _ _ R) as Ri. rewrite EU, app_nil_r in Ri.
        rewrite <- (r_names _ _ _ _ _ _ _ _ _ _ _ _ _ _ _ R m Hm), Nm in Ri. symmetry. exact Ri. }
  destruct (pause_reinit s N m w r w' J Tr P Hr Ne Hc E) as (P' & T' & Ck). split; [|exact Ck].
  destruct (reinit_ok s N w r J K Tr Hr) as (w2 & Er & K2 & T2 & Nd & Tk2 & Nm2 & _ & Ls2 & _ & Ck2 & Ce2). rewrite E in Er. injection Er as <-.
  destruct (new_node_ok s N w r J (k_mem _ _ K) Hr (fun j Hj _ => k_nodes _ _ K j Hj) (k_clock _ _ K)) as (w3 & E3 & _ & _ & _ & _ & _ & Lg & _).
  unfold reinitNode in E. rewrite E in E3. injection E3 as <-.
  assert (Bm : (m < f_born w)%nat) by (rewrite <- Nm at 1; apply (t_names _ _ _ Tr); exact Hm).
  assert (Old' : forall k, (k < f_born w)%nat -> calls_of k (f_log w') = calls_of k (f_log w)).
  { intros k Hk. rewrite Lg, calls_of_app, calls_of_pair. destruct (Nat.eqb_spec (f_born w) k); [lia|]. apply app_nil_r. }
  assert (New' : all_ids (calls_of (f_born w) (f_log w')) = []).
  { rewrite Lg, calls_of_app, calls_of_pair, Nat.eqb_refl. rewrite (t_new _ _ _ Tr) by lia. reflexivity. }
  assert (Lm : log_ids m w' = log_ids m w) by (unfold log_ids; rewrite Old' by exact Bm; reflexivity).
  assert (Nr : f_name w' m = m) by (rewrite Nm2; unfold upd; destruct (Nat.eqb_spec m r); [congruence|exact Nm]).
  constructor; [exact T'|exact Nr| |].
  - rewrite Lm. replace (f_node w' m) with (f_node w m); [exact Dr|]. rewrite Nd. unfold upd. destruct (Nat.eqb_spec m r); [congruence|reflexivity].
  - destruct P' as (T & s1 & h & g & a & kills & P'). exists (f_name w'), (fun i => all_ids (calls_of (f_name w' i) (f_log w'))).
    split; [left; exact (pause_lulls s N m w' T s1 h g a kills P' T')|].
    intros i Hi Ni. rewrite Nr. change (all_ids (calls_of m (f_log w'))) with (log_ids m w'). rewrite Lm.
    rewrite Nm2. unfold upd. destruct (Nat.eqb_spec i r) as [->|Nir].
    + rewrite New'. apply recent_new.
    + rewrite Old' by (apply (t_names _ _ _ Tr); exact Hi). apply Rw; assumption.
Qed.
End Run.
