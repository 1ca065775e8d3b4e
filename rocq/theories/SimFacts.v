(** Proof support for C118: the simulated network after one node took over. *)
From Coq Require Import ZArith NArith Lia List Bool.
From Coq Require Import ZifyBool.
From Verif Require Import CInt CIntFacts Packet SpecPacket PacketFacts NetMgr NetHist SpecNet NetFacts Rsm RsmStep RsmEval RsmHist SpecRsm RsmFacts RoleFacts.
From Verif Require Import Fastled Palette Device LedMgr Effects Show Bench FakeNet FakeNetFacts.
Import ListNotations.
Open Scope Z_scope.
Ltac Zify.zify_post_hook ::= Z.div_mod_to_equations.

(** ** Caches *)
Definition knows (m : netmgr) (ids : list Z) : Prop := nm_wf m /\ window m = last5 ids.

Lemma knows_init : knows nm_init [].
Proof. split; [apply nm_init_wf|reflexivity]. Qed.

Lemma knows_push m ids x : knows m ids -> knows (nm_push m x) (ids ++ [x]).
Proof.
  intros [W V]. destruct (nm_add_ok m x W) as (m' & E & W' & V'). rewrite (nm_add_push m x W) in E. injection E as <-.
  split; [exact W'|]. rewrite V', V, last5_snoc. reflexivity.
Qed.

Lemma knows_heard n ids p : knows (nm n) ids ->
  heard n (Some p) = None <-> In (pid p) (last5 ids).
Proof.
  intros [W V]. unfold heard. rewrite <- V. rewrite <- (existsb_window (nm n) (pid p) W).
  destruct (existsb _ _); split; intros; congruence.
Qed.

Lemma knows_new n ids p : knows (nm n) ids -> ~ In (pid p) (last5 ids) -> heard n (Some p) = Some p.
Proof.
  intros K I. destruct (heard n (Some p)) as [q|] eqn:E.
  - rewrite (heard_some _ _ _ E) in *. injection (heard_some _ _ _ E) as ->. reflexivity.
  - apply (knows_heard n ids) in E; [contradiction|exact K].
Qed.

(** ** Lists *)
Definition lastn {A} (k : nat) (l : list A) : list A := skipn (length l - k) l.

Lemma lastn_app_le {A} k (a b : list A) : (length b <= k)%nat -> lastn k (a ++ b) = lastn (k - length b) a ++ b.
Proof.
  intros H. unfold lastn. rewrite app_length, skipn_app.
  replace (length a + length b - k - length a)%nat with 0%nat by lia.
  replace (length a + length b - k)%nat with (length a - (k - length b))%nat by lia. reflexivity.
Qed.

Lemma skipn_more {A} i j (l : list A) : skipn i (skipn j l) = skipn (i + j) l.
Proof. revert l. induction j as [|j IH]; intros l; [rewrite Nat.add_0_r; reflexivity|]. destruct l; [rewrite !skipn_nil; reflexivity|]. cbn [skipn]. rewrite IH, Nat.add_succ_r. reflexivity. Qed.

Lemma lastn_incl {A} j k (l : list A) : (j <= k)%nat -> incl (lastn j l) (lastn k l).
Proof.
  intros H x I. unfold lastn in *. rewrite <- (firstn_skipn (length l - j - (length l - k)) (skipn (length l - k) l)).
  apply in_or_app. right. rewrite skipn_more. replace (length l - j - (length l - k) + (length l - k))%nat with (length l - j)%nat by lia. exact I.
Qed.

Lemma last5_lastn ids x : In x (last5 ids) -> x = 0 \/ In x (lastn 5 ids).
Proof.
  unfold last5. intros I. change ([0;0;0;0;0] ++ ids) with ([0;0;0;0;0] ++ ids) in I. rewrite skipn_app in I.
  apply in_app_or in I as [I|I].
  - left. rewrite <- (firstn_skipn (length ids) [0;0;0;0;0]) in *.
    assert (J : In x [0;0;0;0;0]) by (rewrite <- (firstn_skipn (length ids) [0;0;0;0;0]); apply in_or_app; right; rewrite (firstn_skipn (length ids)) in I; exact I).
    cbn in J. intuition lia.
  - right. unfold lastn. exact I.
Qed.

Lemma last_in_last5 (T U : list Z) : T <> [] -> (length U <= 4)%nat -> In (last T 0) (last5 (T ++ U)).
Proof.
  intros NT LU. destruct (exists_last NT) as (T' & x & ->). rewrite last_last, <- app_assoc.
  rewrite last5_app by (cbn [length app]; lia). apply in_or_app. right. left. reflexivity.
Qed.

(** Each id is not 0 and differs from the 24 before it. *)
Definition spread (ids : list Z) : Prop := forall a x b, ids = a ++ x :: b -> x <> 0 /\ ~ In x (lastn 24 a).
Lemma spread_prefix a b : spread (a ++ b) -> spread a.
Proof. intros H c x d ->. apply (H c x (d ++ b)). rewrite <- app_assoc. reflexivity. Qed.

(** Delivered ids are not far back among the transmitted ones. *)
Definition near (D T : list Z) : Prop := forall k, incl (lastn k D) (lastn (4 * k) T).
Lemma near_nil T : near [] T.
Proof. intros k x I. unfold lastn in I. rewrite skipn_nil in I. destruct I. Qed.

Lemma near_snoc D T U x : near D T -> (length U <= 3)%nat -> near (D ++ [x]) (T ++ U ++ [x]).
Proof.
  intros H LU k y I. destruct k as [|k].
  - unfold lastn in I. rewrite Nat.sub_0_r, skipn_all in I. destruct I.
  - rewrite lastn_app_le in I by (cbn [length app]; lia). apply in_app_or in I as [I|[<-|[]]].
    + rewrite lastn_app_le by (rewrite app_length; cbn [length app]; lia). apply in_or_app. left.
      cbn [length] in I. replace (S k - 1)%nat with k in I by lia. apply H in I.
      eapply lastn_incl; [|exact I]. rewrite app_length. cbn [length]. lia.
    + rewrite app_assoc, lastn_app_le by (cbn [length app]; lia). apply in_or_app. right. left. reflexivity.
Qed.

Lemma near_fresh D T U x : near D T -> (length U <= 3)%nat -> spread (T ++ U ++ [x]) -> ~ In x (last5 D).
Proof.
  intros H LU Sp I. rewrite app_assoc in Sp. destruct (Sp (T ++ U) x [] eq_refl) as [N0 NI].
  apply last5_lastn in I as [->|I]; [contradiction|]. apply NI. rewrite lastn_app_le by lia. apply in_or_app. left.
  apply H in I. eapply lastn_incl; [|exact I]. lia.
Qed.

Lemma last_prefixed (P T : list Z) : T <> [] -> last (P ++ T) 0 = last T 0.
Proof. intros H. destruct (exists_last H) as (T0 & x & ->). rewrite app_assoc, !last_last. reflexivity. Qed.

Lemma last_known (P D : list Z) : D <> [] -> In (last D 0) (last5 (P ++ D)).
Proof.
  intros H. rewrite <- (last_prefixed P D H), <- (app_nil_r (P ++ D)) at 1. rewrite (app_nil_r (P ++ D)).
  rewrite <- (app_nil_r (P ++ D)) at 2. apply last_in_last5; [|cbn; lia]. intros Q. apply app_eq_nil in Q as [_ Q]. exact (H Q).
Qed.

Lemma last5_padded ids : last5 ids = lastn 5 ([0;0;0;0;0] ++ ids).
Proof. unfold last5, lastn. f_equal. rewrite app_length. cbn [length]. lia. Qed.

Lemma last5_prefixed (P D : list Z) x : In x (last5 (P ++ D)) -> In x (lastn 5 D) \/ (length D <= 4)%nat /\ In x (last5 P).
Proof.
  rewrite !last5_padded, app_assoc. intros I. destruct (le_lt_dec (length D) 4) as [L|L].
  - rewrite lastn_app_le in I by lia. apply in_app_or in I as [I|I].
    + right. split; [exact L|]. exact (lastn_incl (5 - length D) 5 _ ltac:(lia) x I).
    + left. unfold lastn. replace (length D - 5)%nat with 0%nat by lia. exact I.
  - left. unfold lastn in *. rewrite app_length, skipn_app in I. rewrite skipn_all2 in I by lia. cbn [app] in I.
    match type of I with In x (skipn ?k D) => replace k with (length D - 5)%nat in I by lia end. exact I.
Qed.

(** Ids that are new to everybody: not 0, not among the 24 before, and the
    first 24 not among the last five ids of anybody else. *)
Definition unused (N m : nat) (C : nat -> list Z) (ids : list Z) : Prop :=
  spread ids /\ forall i x, (i < N)%nat -> i <> m -> In x (firstn 24 ids) -> ~ In x (last5 (C i)).
Lemma unused_prefix N m C a b : unused N m C (a ++ b) -> unused N m C a.
Proof.
  intros [S F]. split; [exact (spread_prefix _ _ S)|]. intros i x Hi Ne I. apply (F i x Hi Ne). rewrite firstn_app. apply in_or_app. left. exact I.
Qed.
Lemma unused_fresh N m C D T U x i : (i < N)%nat -> i <> m -> near D T -> (length U <= 3)%nat -> (length T <= 4 * length D)%nat ->
  unused N m C (T ++ U ++ [x]) -> ~ In x (last5 (C i ++ D)).
Proof.
  intros Hi Ne Nr LU LT [S F] I. apply last5_prefixed in I as [I|[L I]].
  - apply (near_fresh D T U x Nr LU S). unfold last5. rewrite skipn_app. apply in_or_app. right. cbn [length]. exact I.
  - apply (F i x Hi Ne); [|exact I]. rewrite firstn_all2; [apply in_or_app; right; apply in_or_app; right; left; reflexivity|].
    rewrite !app_length. cbn [length]. lia.
Qed.

Lemma last5_incl_snoc ids x : In x (last5 (ids ++ [x])).
Proof. rewrite last5_snoc. apply in_or_app. right. left. reflexivity. Qed.

(** ** A slave *)
Lemma not_due_slave e now n inc : state n = Slave -> 0 <= t_hb n -> now <= t_hb n -> heard n inc = None ->
  forall out n', tick e now n inc out n' -> out = [] /\ n' = n.
Proof.
  intros St P0 B H out n' T.
  assert (D : timer_due now (t_hb n) = false) by (apply timer_due_false; lia).
  inversion T; subst; try congruence. auto.
Qed.

Lemma slave_ignores e t n D inc : plat e = Host -> nodeok n -> state n = Slave -> knows (nm n) D -> inc_sound inc ->
  0 <= t < 4294967296 -> t <= t_hb n -> (forall p, inc = Some p -> In (pid p) (last5 D)) ->
  machine e t true inc n = Ok (n, [mkEv t (OTick inc) n n []; mkEv t (OTick inc) n n []]).
Proof.
  intros Pl Nk St Kn I Ht B Old. unfold machine. rewrite u32_id by lia.
  destruct (nodeok_runs e t n inc Pl Nk I Ht) as (n1 & o1 & E1 & T1).
  assert (H : heard n inc = None) by (destruct inc as [p|]; [|reflexivity]; apply (knows_heard n D p Kn); apply Old; reflexivity).
  destruct (not_due_slave e t n inc St ltac:(lia) B H _ _ T1) as [-> ->]. rewrite E1, E1. reflexivity.
Qed.

Lemma slave_takes e t n D p : plat e = Host -> nodeok n -> state n = Slave -> knows (nm n) D -> sound p ->
  0 <= t < 4294967296 - 70000 -> ~ In (pid p) (last5 D) -> (ptype p = 0 \/ (ptype p = 2 /\ t <= t_hb n)) ->
  exists n' evs, machine e t true (Some p) n = Ok (n', evs) /\ outs evs = [Forwarded p] /\
    state n' = Slave /\ knows (nm n') (D ++ [pid p]) /\
    (ptype p = 0 -> t + 5000 <= t_hb n' <= t + 7000) /\ (ptype p = 2 -> t_hb n' = t_hb n).
Proof.
  intros Pl Nk St Kn So Ht New Ty. unfold machine. rewrite u32_id by lia.
  assert (I : inc_sound (Some p)) by (intros q [= <-]; exact So).
  destruct (nodeok_runs e t n (Some p) Pl Nk I ltac:(lia)) as (n1 & o1 & E1 & T1). rewrite E1.
  pose proof (knows_new n D p Kn New) as Hd.
  assert (R : o1 = [Forwarded p] /\ state n1 = Slave /\ knows (nm n1) (D ++ [pid p]) /\
     (ptype p = 0 -> t + 5000 <= t_hb n1 <= t + 7000) /\ (ptype p = 2 -> t_hb n1 = t_hb n)).
  { unfold HEARTBEAT, CLAIM_MASTER, SET_EFFECT, SET_CONTROL in *.
    inversion T1; subst; try congruence;
      match goal with H : heard n (Some p) = Some ?q |- _ => rewrite Hd in H; injection H as <- end;
      unfold HEARTBEAT, CLAIM_MASTER, SET_EFFECT, SET_CONTROL in *; try lia;
      (split; [reflexivity|]); (split; [exact St|]); (split; [apply knows_push; exact Kn|]); cbn; split; intros; try lia; try reflexivity.
    pose proof (silence_range e n). rewrite u32_id by lia. lia. }
  destruct R as (-> & S1 & K1 & T0 & T2).
  destruct (tick_nodeok e t n (Some p) _ _ Nk I ltac:(lia) T1) as [Nk1 _].
  destruct (nodeok_runs e t n1 (Some p) Pl Nk1 I ltac:(lia)) as (n2 & o2 & E2 & T2'). rewrite E2.
  assert (Hd1 : heard n1 (Some p) = None) by (apply (knows_heard n1 _ p K1), last5_incl_snoc).
  assert (B1 : t <= t_hb n1) by (destruct Ty as [Ty|[Ty Tb]]; [specialize (T0 Ty); lia|rewrite (T2 Ty); exact Tb]).
  destruct (not_due_slave e t n1 (Some p) S1 ltac:(lia) B1 Hd1 _ _ T2') as [-> ->].
  eexists _, _. split; [reflexivity|]. split; [reflexivity|]. auto.
Qed.

(** ** The master *)
(** Where the last heartbeat of the master is: waiting in its radio, on the
    air, with everybody, or overwritten while it waited. *)
Inductive phase := InSlot | OnAir | Got | Killed.
Definition pend (a : phase) : Z := match a with InSlot | OnAir => 1 | _ => 0 end.
Definition bit (b : bool) : nat := if b then 1 else 0.

(** The heartbeats overwritten since the last one everybody got, the latest
    first: true when an effect change overwrote it, false when a rebroadcast
    did.  [bc] and [ce] are the two timers, [h] the time of the last
    heartbeat, [g] the time everybody got one. *)
Record ledger (bc ce h g : Z) (a : phase) (kills : list bool) : Prop := mkLedger {
  l_adj : forall l1 l2, kills <> l1 ++ false :: false :: l2;
  l_one : (count_occ bool_dec kills true <= 1)%nat;
  l_bc : hd true kills = false -> h - 1001 * pend a + 2000 <= bc;
  l_ce : In true kills -> h - 1001 * (Z.of_nat (length kills) - 1 + pend a) + 60000 <= ce;
  l_g : h - 1001 * (Z.of_nat (length kills) + pend a) <= g;
  l_got : a = Got -> kills = []
}.

Lemma ledger_short bc ce h g a kills : ledger bc ce h g a kills -> (length kills <= 3)%nat.
Proof.
  intros [Adj One _ _ _ _].
  destruct kills as [|[|] [|[|] [|[|] [|[|] r]]]]; cbn [length count_occ] in *; try lia;
    repeat match goal with H : context [bool_dec ?a ?b] |- _ => destruct (bool_dec a b); try congruence end; try lia;
    exfalso; try (apply (Adj [] _ eq_refl)); try (eapply (Adj [_]); reflexivity); try (eapply (Adj [_;_]); reflexivity).
Qed.

Record ms (t : Z) (n : node) (slot : option packet) (T U : list Z) (s1 h g : Z) (a : phase) (kills : list bool) : Prop := mkMs {
  m_ok : nodeok n;
  m_state : state n = Master;
  m_knows : exists P, knows (nm n) (P ++ T ++ U);
  m_T : T <> [];
  m_slot : match slot with
           | None => U = [] /\ a <> InSlot
           | Some p => U <> [] /\ pid p = last U 0 /\ (ptype p = 0 /\ a = InSlot \/ ptype p = 2 /\ a <> InSlot)
           end;
  m_time : U <> [] -> s1 <= t <= s1 + 901 /\ (a = InSlot -> s1 <= h);
  m_count : U <> [] -> (length U <= bit (Z.leb (s1 + 1000) (t_hb n)) + bit (Z.leb (s1 + 2000) (t_bc n)) + bit (Z.leb (s1 + 60000) (t_ce n)))%nat;
  m_hb : t_hb n = h + 1000 /\ 0 <= h <= t /\ t <= h + 1001;
  m_bc : 0 < t_bc n;
  m_led : ledger (t_bc n) (t_ce n) h g a kills
}.

Lemma ms_short t n slot T U s1 h g a kills : ms t n slot T U s1 h g a kills -> (length U <= 3)%nat.
Proof.
  intros M. destruct U as [|x U]; [cbn; lia|]. pose proof (m_count _ _ _ _ _ _ _ _ _ _ M ltac:(discriminate)).
  unfold bit in *. repeat match goal with H : context [if ?b then _ else _] |- _ => destruct b end; lia.
Qed.

Lemma last_snoc_nonnil (U : list Z) x : U ++ [x] <> [] /\ last (U ++ [x]) 0 = x.
Proof. split; [destruct U; discriminate|apply last_last]. Qed.

Lemma ledger_hb bc ce h g a kills : ledger bc ce h g a kills -> pend a = 0 -> ledger bc ce (h + 1001) g InSlot kills.
Proof.
  intros [L1 L2 L3 L4 L5 L6] P. rewrite P in *. cbn [pend]. constructor; auto; cbn [pend]; try discriminate; intros; try lia.
Qed.

Lemma ledger_later bc bc' ce ce' h g a kills : ledger bc ce h g a kills -> bc <= bc' -> ce <= ce' -> ledger bc' ce' h g a kills.
Proof.
  intros [L1 L2 L3 L4 L5 L6] H1 H2. constructor; auto; intros H; [specialize (L3 H)|specialize (L4 H)]; lia.
Qed.

Lemma ledger_killed_by_change t bc ce h g kills : ledger bc ce h g InSlot kills -> h <= t -> ce < t -> t <= h + 901 ->
  ledger bc (t + 60000) h g Killed (true :: kills).
Proof.
  intros L H1 H2 H3. pose proof (ledger_short _ _ _ _ _ _ L) as Sh. destruct L as [L1 L2 L3 L4 L5 L6]. cbn [pend] in *.
  assert (NI : ~ In true kills) by (intros I; specialize (L4 I); lia).
  constructor; cbn [pend length hd]; try discriminate; try lia.
  - intros [|b l1] l2 E; [discriminate|]. injection E as _ E. exact (L1 _ _ E).
  - cbn. apply (count_occ_not_In bool_dec) in NI. lia.
Qed.

Lemma ledger_killed_by_rebroadcast t bc ce h g kills : ledger bc ce h g InSlot kills -> h <= t -> bc < t -> t <= h + 901 ->
  ledger (t + 2000) ce h g Killed (false :: kills).
Proof.
  intros L H1 H2 H3. destruct L as [L1 L2 L3 L4 L5 L6]. cbn [pend] in *.
  constructor; cbn [pend length hd]; try discriminate; try lia.
  - intros [|b l1] l2 E; [|injection E as _ E; exact (L1 _ _ E)]. injection E as E. destruct kills as [|b r]; [discriminate|].
    injection E as -> ->. specialize (L3 eq_refl). lia.
  - cbn. destruct (bool_dec false true); [discriminate|exact L2].
  - intros [E|I]; [discriminate|]. specialize (L4 I). lia.
Qed.

(** The start of what is waiting. *)
Definition since (t : Z) (U : list Z) (s1 : Z) : Z := match U with [] => t | _ => s1 end.

Lemma ms_tick e t n slot T U s1 h g a kills inc out n' :
  ms t n slot T U s1 h g a kills -> a <> OnAir -> 0 <= t < 4294967296 - 70000 -> inc_sound inc ->
  (forall p, inc = Some p -> pid p = last T 0) ->
  tick e t n inc out n' ->
  exists U' s1' h' a' kills',
    ms t n' (after_out slot out) T U' s1' h' g a' kills' /\ a' <> OnAir /\ t <= h' + 1000 /\
    U' = U ++ map (fun x => pid (rtx_packet x)) out /\
    (U <> [] -> s1' = s1) /\ (U = [] -> U' <> [] -> s1' = t).
Proof.
  intros M Na0 Ht I Own T1. pose proof (ms_short _ _ _ _ _ _ _ _ _ _ M) as Sh.
  destruct M as [Nk St [P Kn] NT Sl Ti Co (Hb & Hh & Ht') Bc Le].
  assert (Hd : heard n inc = None).
  { destruct inc as [p|]; [|reflexivity]. apply (knows_heard n _ p Kn). rewrite (Own p eq_refl), <- (last_prefixed P T NT), app_assoc. apply last_in_last5; [|lia]. intros Q. apply app_eq_nil in Q as [_ Q]. exact (NT Q). }
  destruct (tick_nodeok e t n inc _ _ Nk I ltac:(lia) T1) as [Nk' _].
  pose proof (proj1 Nk) as Gd. pose proof (g_ce _ Gd) as Rce. pose proof (g_bc _ Gd) as Rbc. pose proof (g_hb _ Gd) as Rhb.
  pose proof (ledger_short _ _ _ _ _ _ Le) as Lk.
  inversion T1; subst; try congruence.
  - (* quiet *)
    destruct H0 as [D1 [D|[D2 D3]]]; [congruence|]. apply timer_due_false in D1; [|lia]. 
    exists U, s1, h, a, kills. cbn [map after_out fold_left]. rewrite app_nil_r.
    split; [constructor; eauto|]. split; [exact Na0|]. split; [lia|]. split; [reflexivity|]. split; [auto|]. congruence.
  - (* heartbeat *)
    apply timer_due_iff in H1; [|lia]. assert (Et : t = h + 1001) by lia.
    assert (Na : a <> InSlot).
    { intros ->. destruct U as [|x U]; [destruct slot; destruct Sl as [? ?]; congruence|]. destruct (Ti ltac:(discriminate)) as [A B]. specialize (B eq_refl). lia. }
    exists (U ++ [RsmStep.fresh e n]), (since t U s1), t, InSlot, kills.
    destruct (last_snoc_nonnil U (RsmStep.fresh e n)) as [Nn Ls].
    split; [|split; [try discriminate; destruct a; congruence|split; [lia|split; [reflexivity|split; [destruct U; cbn; congruence|intros ->; reflexivity]]]]].
    constructor; auto; cbn [with_t_hb with_packet_ with_nm with_rng nm t_hb t_bc t_ce state after_out fold_left rtx_packet].
    + exists P. rewrite !app_assoc. apply knows_push. rewrite <- app_assoc. exact Kn.
    + split; [exact Nn|]. split; [symmetry; exact Ls|]. left. split; reflexivity.
    + intros _. destruct U as [|y U]; cbn [since]; [lia|]. destruct (Ti ltac:(discriminate)). lia.
    + intros _. rewrite u32_id by lia. rewrite app_length. cbn [length]. destruct U as [|y U].
      * cbn [since length]. destruct (Z.leb_spec (t + 1000) (t + 1000)); [cbn [bit]; lia|lia].
      * cbn [since]. destruct (Ti ltac:(discriminate)) as [A B]. specialize (Co ltac:(discriminate)). rewrite Hb in Co.
        destruct (Z.leb_spec (s1 + 1000) (t + 1000)); [|lia]. destruct (Z.leb_spec (s1 + 1000) (h + 1000)); [lia|].
        cbn [bit] in *. lia.
    + rewrite u32_id by lia. lia.
    + rewrite Et. apply (ledger_hb _ _ _ _ a); [exact Le|]. destruct a; try reflexivity; congruence.
  - (* change *)
    apply timer_due_false in H1; [|lia]. apply timer_due_iff in H2; [|lia].
    exists (U ++ [pick_id e n]), (since t U s1), h, (match a with InSlot => Killed | b => b end), (match a with InSlot => true :: kills | _ => kills end).
    destruct (last_snoc_nonnil U (pick_id e n)) as [Nn Ls].
    split; [|split; [try discriminate; destruct a; congruence|split; [lia|split; [reflexivity|split; [destruct U; cbn; congruence|intros ->; reflexivity]]]]].
    constructor; auto; cbn [with_t_ce with_effect_index with_set_effect_packet with_packet_ with_nm with_rng nm t_hb t_bc t_ce state after_out fold_left rtx_packet].
    + exists P. rewrite !app_assoc. apply knows_push. rewrite <- app_assoc. exact Kn.
    + split; [exact Nn|]. split; [symmetry; exact Ls|]. right. split; [reflexivity|]. destruct a; congruence.
    + intros _. destruct U as [|y U]; cbn [since]; [split; [lia|destruct a; discriminate]|]. destruct (Ti ltac:(discriminate)). split; [lia|]. destruct a; discriminate.
    + intros _. rewrite u32_id by lia. rewrite app_length. cbn [length]. destruct U as [|y U].
      * cbn [since length]. destruct (Z.leb_spec (t + 60000) (t + 60000)); [cbn [bit]; lia|lia].
      * cbn [since]. destruct (Ti ltac:(discriminate)) as [A B]. specialize (Co ltac:(discriminate)).
        destruct (Z.leb_spec (s1 + 60000) (t + 60000)); [|lia]. destruct (Z.leb_spec (s1 + 60000) (t_ce n)); [lia|].
        cbn [bit] in *. lia.
    + rewrite u32_id by lia. destruct a; try congruence.
      * apply (ledger_killed_by_change t _ (t_ce n)); [exact Le|lia|lia|].
        destruct U as [|x U]; [destruct slot; destruct Sl as [? ?]; congruence|]. destruct (Ti ltac:(discriminate)) as [A B]. specialize (B eq_refl). lia.
      * apply (ledger_later (t_bc n) _ (t_ce n)); [exact Le|lia|lia].
      * apply (ledger_later (t_bc n) _ (t_ce n)); [exact Le|lia|lia].
  - (* rebroadcast *)
    apply timer_due_false in H1; [|lia]. apply timer_due_iff in H3; [|lia].
    exists (U ++ [RsmStep.fresh e n]), (since t U s1), h, (match a with InSlot => Killed | b => b end), (match a with InSlot => false :: kills | _ => kills end).
    destruct (last_snoc_nonnil U (RsmStep.fresh e n)) as [Nn Ls].
    split; [|split; [try discriminate; destruct a; congruence|split; [lia|split; [reflexivity|split; [destruct U; cbn; congruence|intros ->; reflexivity]]]]].
    constructor; auto; cbn [with_t_bc with_set_effect_packet with_nm with_rng nm t_hb t_bc t_ce state after_out fold_left rtx_packet].
    + exists P. rewrite !app_assoc. apply knows_push. rewrite <- app_assoc. exact Kn.
    + split; [exact Nn|]. split; [symmetry; exact Ls|]. right. split; [apply Nk|]. destruct a; congruence.
    + intros _. destruct U as [|y U]; cbn [since]; [split; [lia|destruct a; discriminate]|]. destruct (Ti ltac:(discriminate)). split; [lia|]. destruct a; discriminate.
    + intros _. rewrite u32_id by lia. rewrite app_length. cbn [length]. destruct U as [|y U].
      * cbn [since length]. destruct (Z.leb_spec (t + 2000) (t + 2000)); [cbn [bit]; lia|lia].
      * cbn [since]. destruct (Ti ltac:(discriminate)) as [A B]. specialize (Co ltac:(discriminate)).
        destruct (Z.leb_spec (s1 + 2000) (t + 2000)); [|lia]. destruct (Z.leb_spec (s1 + 2000) (t_bc n)); [lia|].
        cbn [bit] in *. lia.
    + rewrite u32_id by lia. lia.
    + rewrite u32_id by lia. destruct a; try congruence.
      * apply (ledger_killed_by_rebroadcast t (t_bc n)); [exact Le|lia|lia|].
        destruct U as [|x U]; [destruct slot; destruct Sl as [? ?]; congruence|]. destruct (Ti ltac:(discriminate)) as [A B]. specialize (B eq_refl). lia.
      * apply (ledger_later (t_bc n) _ (t_ce n)); [exact Le|lia|lia].
      * apply (ledger_later (t_bc n) _ (t_ce n)); [exact Le|lia|lia].
Qed.

Lemma ms_machine e t n slot T U s1 h g a kills inc n' evs : plat e = Host ->
  ms t n slot T U s1 h g a kills -> a <> OnAir -> 0 <= t < 4294967296 - 70000 -> inc_sound inc ->
  (forall p, inc = Some p -> pid p = last T 0) ->
  machine e t true inc n = Ok (n', evs) ->
  exists U' s1' h' a' kills',
    ms t n' (after_out slot (outs evs)) T U' s1' h' g a' kills' /\ a' <> OnAir /\ t <= h' + 1000 /\
    U' = U ++ all_ids evs /\
    (U <> [] -> s1' = s1) /\ (U = [] -> U' <> [] -> s1' = t).
Proof.
  intros Pl M Na Ht I Own Em. unfold machine in Em. rewrite u32_id in Em by lia.
  destruct (nodeok_runs e t n inc Pl (m_ok _ _ _ _ _ _ _ _ _ _ M) I ltac:(lia)) as (n1 & o1 & E1 & T1). rewrite E1 in Em.
  destruct (ms_tick e t n slot T U s1 h g a kills inc o1 n1 M Na Ht I Own T1) as (U1 & s2 & h1 & a1 & k1 & M1 & Na1 & Hh1 & -> & P1 & Q1).
  destruct (nodeok_runs e t n1 inc Pl (m_ok _ _ _ _ _ _ _ _ _ _ M1) I ltac:(lia)) as (n2 & o2 & E2 & T2). rewrite E2 in Em.
  destruct (ms_tick e t n1 _ T _ s2 h1 g a1 k1 inc o2 n2 M1 Na1 Ht I Own T2) as (U2 & s3 & h2 & a2 & k2 & M2 & Na2 & Hh2 & -> & P2 & Q2).
  injection Em as <- <-. unfold outs, all_ids. cbn [map concat sent]. rewrite app_nil_r, after_out_app, map_app, app_assoc.
  exists ((U ++ map (fun x => pid (rtx_packet x)) o1) ++ map (fun x => pid (rtx_packet x)) o2), s3, h2, a2, k2.
  split; [exact M2|]. split; [exact Na2|]. split; [exact Hh2|]. split; [reflexivity|]. split.
  - intros NU. rewrite P2; [apply P1; exact NU|]. destruct U; [congruence|discriminate].
  - intros NU N2. subst U. cbn [app] in *. destruct o1 as [|x o1]; [apply Q2; [reflexivity|exact N2]|].
    cbn [map app] in *. rewrite P2; [|discriminate]. apply Q1; [reflexivity|discriminate].
Qed.

(** ** The whole network *)
Lemma first_some (f : nat -> bool) N :
  match find f (seq 0 N) with
  | Some k => (k < N)%nat /\ f k = true /\ forall i, (i < k)%nat -> f i = false
  | None => forall i, (i < N)%nat -> f i = false
  end.
Proof.
  induction N as [|N IH]; [intros i Hi; lia|].
  assert (A : forall a b, find f (a ++ b) = match find f a with Some x => Some x | None => find f b end).
  { induction a as [|y a IHa]; intros b; [reflexivity|]. cbn. destruct (f y); [reflexivity|apply IHa]. }
  rewrite seq_S, A. destruct (find f (seq 0 N)) as [k|].
  - destruct IH as (Lk & Fk & B). split; [lia|]. auto.
  - cbn [find]. rewrite Nat.add_0_l. destruct (f N) eqn:EN.
    + split; [lia|]. split; [exact EN|exact IH].
    + intros i Hi. destruct (Nat.eq_dec i N) as [->|]; [exact EN|apply IH; lia].
Qed.

Lemma not_some {A} (x : option A) : is_some x = false -> x = None.
Proof. destruct x; [discriminate|reflexivity]. Qed.

(** Node [m] leads.  [D]: the ids everybody else has taken.  [T]: the ids [m]
    transmitted up to the last one that got on the air.  [U]: those it
    transmitted since, the last of which waits in its radio.  [fly]: a packet
    of [m] is on the air that nobody has got.  [j]: the relays that were
    waiting below index [j] are gone. *)
Record reign (name : nat -> nat) (Old : nat -> list Z) (N m : nat) (w : fakenet) (D T U : list Z) (fly : bool) (j : nat) (s1 h g : Z) (a : phase) (kills : list bool) : Prop := mkReign {
  r_ok : ok N w;
  r_m : (m < N)%nat;
  r_names : forall i, (i < N)%nat -> f_name w i = name i;
  r_inj : forall i j, (i < N)%nat -> (j < N)%nat -> name i = name j -> i = j;
  r_ticked : forall i, (i < N)%nat -> f_ticked w i = true;
  r_loss : f_loss w = 0;
  r_ids : all_ids (calls_of (name m) (f_log w)) = Old m ++ T ++ U;
  r_len : (length T <= 4 * length D + (if fly then 4 else 0))%nat;
  r_ms : ms (f_clock w) (f_node w m) (cell w (Radio m)) T U s1 h g a kills;
  r_hb : f_clock w <= h + 1000;
  r_wait : U <> [] -> fly = false /\ (j <= m)%nat /\ (forall i, (i < j)%nat -> cell w (Radio i) = None) /\
           f_clock w + Z.of_nat m - Z.of_nat j <= s1 + Z.of_nat N;
  r_slaves : forall i, (i < N)%nat -> i <> m ->
    state (f_node w i) = Slave /\ knows (nm (f_node w i)) (Old i ++ D) /\
    (forall p, cell w (Radio i) = Some p -> D <> [] /\ pid p = last D 0) /\
    (a = OnAir \/ g + 5000 <= t_hb (f_node w i));
  r_air : if fly then
      exists X, cell w Air = Some X /\ pid X = last T 0 /\ (forall i, (i < N)%nat -> i <> m -> ~ In (pid X) (last5 (Old i ++ D))) /\ near (D ++ [pid X]) T /\
        (ptype X = 0 /\ a = OnAir \/ ptype X = 2 /\ a <> OnAir)
    else D <> [] /\ last D 0 = last T 0 /\ near D T /\ a <> OnAir /\ forall p, cell w Air = Some p -> pid p = last D 0
}.

Lemma ms_next t n slot T U s1 h g a kills : ms t n slot T U s1 h g a kills -> t <= h + 1000 -> (U <> [] -> t + 1 <= s1 + 901) ->
  ms (t + 1) n slot T U s1 h g a kills.
Proof.
  intros [M1 M2 M3 M4 M5 M6 M7 (M8 & M9 & M10) M11 M12] H1 H2. constructor; auto; [|lia].
  intros NU. destruct (M6 NU). specialize (H2 NU). split; [lia|assumption].
Qed.

Lemma ms_got t n slot T U s1 h g kills : ms t n slot T U s1 h g OnAir kills -> ms t n slot T U s1 h t Got [].
Proof.
  intros [M1 M2 M3 M4 M5 M6 M7 (M8 & M9 & M10) M11 M12]. constructor; auto.
  - destruct slot; [|split; [apply M5|discriminate]]. destruct M5 as (P & Q & [[_ R]|[R _]]); [discriminate|].
    split; [exact P|]. split; [exact Q|]. right. split; [exact R|discriminate].
  - intros NU. destruct (M6 NU). split; [assumption|discriminate].
  - constructor; cbn; try lia; try discriminate; auto. intros [|? [|? ?]] ?; discriminate.
Qed.

Lemma ms_patience t n slot T U s1 h g a kills : ms t n slot T U s1 h g a kills -> a <> OnAir -> t <= g + 5000.
Proof.
  intros M Na. pose proof (ms_short _ _ _ _ _ _ _ _ _ _ M). destruct M as [M1 M2 M3 M4 M5 M6 M7 (M8 & M9 & M10) M11 M12].
  pose proof (ledger_short _ _ _ _ _ _ M12). pose proof (l_g _ _ _ _ _ _ M12) as G. destruct a; cbn [pend] in G; try lia; try congruence.
  destruct U as [|x U]; [destruct slot; destruct M5; congruence|]. destruct (M6 ltac:(discriminate)) as [A B]. specialize (B eq_refl). lia.
Qed.

Section Step.
Variable s : source.
Variable name : nat -> nat.
Variable Old : nat -> list Z.
Variables N m : nat.
Hypothesis small : (N <= 900)%nat.

(** What happens to the packets in a round: [evs] are the calls of the nodes. *)
Definition moved (w w' : fakenet) (evs : nat -> list event) (fly' : bool) : Prop :=
  let full i := after_out (cell w (Radio i)) (outs (evs i)) in
  if fly' then exists p, full m = Some p /\ cell w' Air = Some p /\ cell w' (Radio m) = None
  else cell w' (Radio m) = full m /\
    (cell w' Air = None /\ (forall i, (i < N)%nat -> cell w' (Radio i) = None) \/
     exists k, (k < N)%nat /\ k <> m /\ full k <> None /\ forall i, (i < N)%nat -> cell w' (Radio i) <> None -> (k < i)%nat).

Lemma reign_round w D T U fly j s1 h g a kills w' :
  reign name Old N m w D T U fly j s1 h g a kills -> f_clock w + 1 < 4294967296 - 70000 ->
  FakeTick s N (advanceMillis 1 w) = Ok w' -> (forall own, all_ids (calls_of (name m) (f_log w')) = Old m ++ own -> unused N m Old own) ->
  f_clock w' = f_clock w + 1 /\
  exists evs, (forall i, (i < N)%nat -> machine (env_of s (name i)) (f_clock w + 1) true (option_map zero_tail (cell w Air)) (f_node w i) = Ok (f_node w' i, evs i)) /\
  calls_of (name m) (f_log w') = calls_of (name m) (f_log w) ++ evs m /\
  exists D' T' U' fly' j' s1' h' g' a' kills', reign name Old N m w' D' T' U' fly' j' s1' h' g' a' kills' /\ moved w w' evs fly' /\
    (fly = false -> forall i, (i < N)%nat -> i <> m -> outs (evs i) = []) /\
    (U' <> [] -> U <> [] /\ s1' = s1 \/ s1' = f_clock w + 1 /\ outs (evs m) <> []) /\
    (fly = false -> fly' = false -> U' = [] -> U = []) /\
    g' = match a with OnAir => f_clock w + 1 | _ => g end.
Proof.
  intros R Hc Et Sp. destruct R as [K Hm Nm Inj Tk Ls Ids Len Ms Hb Wt Sl Air_].
  set (w0 := advanceMillis 1 w) in *.
  assert (K0 : ok N w0) by (destruct K as [[? ? ? ?] ? ?]; constructor; [constructor|..]; auto; cbn; lia).
  assert (Ce : forall o, cell w0 o = cell w o) by (intros []; reflexivity).
  destruct (FakeTick_ok s N w0 K0) as (evs & w1 & E1 & K1 & Tm & Lg & Nm1 & _ & Ls1 & _ & Ck & Res).
  rewrite Et in E1. injection E1 as <-.
  change (f_name w0) with (f_name w) in *. change (f_ticked w0) with (f_ticked w) in *. change (f_node w0) with (f_node w) in *.
  change (f_loss w0) with (f_loss w) in *. change (f_log w0) with (f_log w) in *. change (f_clock w0) with (f_clock w + 1) in *.
  set (t := f_clock w + 1) in *.
  assert (Ht : 0 <= t < 4294967296 - 70000) by (pose proof (k_clock _ _ K); subst t; lia).
  assert (Rc : forall i, receives s w0 i = option_map zero_tail (cell w Air)).
  { intros i. unfold receives, keeps. change (f_loss w0) with (f_loss w). rewrite Ls. cbn [Z.eqb orb]. rewrite Ce. reflexivity. }
  assert (Mine : calls_of (name m) (f_log w') = calls_of (name m) (f_log w) ++ evs m).
  { rewrite Lg, calls_of_app. f_equal. destruct (calls_of_round (f_name w) evs N (name m)) as [Q _].
    - intros i i' Hi Hi'. rewrite !Nm by assumption. apply Inj; assumption.
    - apply Q; [exact Hm|apply Nm; exact Hm]. }
  assert (M0 : ms t (f_node w m) (cell w (Radio m)) T U s1 h g a kills).
  { apply ms_next; [exact Ms|exact Hb|]. intros NU. destruct (Wt NU) as (_ & B & _ & C). lia. }
  assert (So : inc_sound (option_map zero_tail (cell w Air))).
  { intros p. destruct (cell w Air) as [c|] eqn:C; [|discriminate]. cbn. intros [= <-]. apply zero_tail_sound. exact (cell_air_sound _ _ _ (k_mem _ _ K) C). }
  split; [exact Ck|]. exists evs.
  split; [intros i Hi; destruct (Tm i Hi) as [Em _]; rewrite Nm, Tk, Rc in Em by exact Hi; exact Em|]. split; [exact Mine|].
  (* the others *)
  assert (Del : exists D1 g1 a1 kills1, ms t (f_node w m) (cell w (Radio m)) T U s1 h g1 a1 kills1 /\ a1 <> OnAir /\
     (forall p, cell w Air = Some p -> pid p = last T 0) /\
     D1 <> [] /\ last D1 0 = last T 0 /\ near D1 T /\ (length T <= 4 * length D1)%nat /\
     g1 = match a with OnAir => t | _ => g end /\
     forall i, (i < N)%nat -> i <> m ->
       state (f_node w' i) = Slave /\ knows (nm (f_node w' i)) (Old i ++ D1) /\ g1 + 5000 <= t_hb (f_node w' i) /\
       (forall p, after_out (cell w (Radio i)) (outs (evs i)) = Some p -> pid p = last D1 0) /\
       (fly = false -> outs (evs i) = [])).
  { destruct fly.
    - destruct Air_ as (X & CA & PX & New & Nr & Ty).
      exists (D ++ [pid X]), (match a with OnAir => t | _ => g end), (match a with OnAir => Got | b => b end), (match a with OnAir => [] | _ => kills end).
      destruct (last_snoc_nonnil D (pid X)) as [Nn Lst].
      split; [destruct a; try exact M0; exact (ms_got _ _ _ _ _ _ _ _ _ M0)|].
      split; [destruct a; discriminate|]. split; [intros p Cp; congruence|]. split; [exact Nn|]. split; [congruence|]. split; [exact Nr|].
      split; [rewrite app_length; cbn [length]; lia|]. split; [reflexivity|].
      intros i Hi Ni. destruct (Sl i Hi Ni) as (St & Kn & Ws & Pt). destruct (Tm i Hi) as [Em _].
      rewrite Nm, Tk, Rc, CA in Em by assumption. cbn [option_map] in Em.
      assert (Sx : sound (zero_tail X)) by (apply So; rewrite CA; reflexivity).
      destruct (slave_takes (env_of s (name i)) t (f_node w i) (Old i ++ D) (zero_tail X) eq_refl (k_nodes _ _ K i Hi) St Kn Sx ltac:(lia) (New i Hi Ni))
        as (n' & ev & E & O & St' & Kn' & H0 & H2).
      { destruct Ty as [[Ty _]|[Ty Na]]; [left; exact Ty|right; split; [exact Ty|]]. destruct Pt as [Pt|Pt]; [contradiction|].
        pose proof (ms_patience _ _ _ _ _ _ _ _ _ _ M0 Na). lia. }
      rewrite E in Em. injection Em as <- <-. split; [exact St'|]. split; [rewrite app_assoc; exact Kn'|]. split; [|split; [|discriminate]].
      + destruct Ty as [[Ty ->]|[Ty Na]]; [specialize (H0 Ty); lia|]. rewrite (H2 Ty). destruct Pt as [Pt|Pt]; [contradiction|]. destruct a; try exact Pt. congruence.
      + intros p. rewrite O. cbn. intros [= <-]. symmetry. exact Lst.
    - destruct Air_ as (ND & Lst & Nr & Na & AA).
      exists D, g, a, kills. split; [exact M0|]. split; [exact Na|]. split; [intros p Cp; rewrite <- Lst; exact (AA p Cp)|].
      split; [exact ND|]. split; [exact Lst|]. split; [exact Nr|]. split; [lia|]. split; [destruct a; congruence|].
      intros i Hi Ni. destruct (Sl i Hi Ni) as (St & Kn & Ws & Pt). destruct (Tm i Hi) as [Em _].
      rewrite Nm, Tk, Rc in Em by assumption. destruct Pt as [Pt|Pt]; [contradiction|].
      pose proof (ms_patience _ _ _ _ _ _ _ _ _ _ M0 Na) as Pa.
      rewrite (slave_ignores (env_of s (name i)) t (f_node w i) (Old i ++ D) _ eq_refl (k_nodes _ _ K i Hi) St Kn So ltac:(lia) ltac:(lia)) in Em.
      + injection Em as <- <-. split; [exact St|]. split; [exact Kn|]. split; [exact Pt|]. unfold outs. cbn [map concat sent app after_out fold_left].
        split; [|reflexivity]. intros p Cp. apply (Ws p Cp).
      + intros p. destruct (cell w Air) as [c|] eqn:C; [|discriminate]. cbn. intros [= <-]. cbn [zero_tail pid]. rewrite (AA c eq_refl).
        apply last_known. exact ND. }
  destruct Del as (D1 & g1 & a1 & kills1 & M1 & Na1 & AirT & ND1 & Lst1 & Nr1 & Len1 & Eg1 & Oth).
  (* the master *)
  destruct (Tm m Hm) as [Em _]. rewrite Nm, Tk, Rc in Em by assumption.
  destruct (ms_machine (env_of s (name m)) t (f_node w m) _ T U s1 h g1 a1 kills1 _ (f_node w' m) (evs m) eq_refl M1 Na1 ltac:(lia) So)
    as (U' & s1' & h' & a' & kills' & M2 & Na2 & Hb2 & EU & S1 & S2).
  { intros p. destruct (cell w Air) as [c|] eqn:C; [|discriminate]. cbn. intros [= <-]. exact (AirT c eq_refl). }
  { exact Em. }
  assert (Still : fly = false -> forall i, (i < N)%nat -> i <> m -> outs (evs i) = []) by (intros Fl i Hi Ni; apply (Oth i Hi Ni); exact Fl).
  assert (Begun : U' <> [] -> U <> [] /\ s1' = s1 \/ s1' = t /\ outs (evs m) <> []).
  { intros NU'. destruct (list_eq_dec Z.eq_dec U []) as [EU0|NU]; [right|left; auto]. split; [exact (S2 EU0 NU')|].
    intros Q. apply NU'. rewrite EU, EU0. unfold all_ids. unfold outs in Q. rewrite Q. reflexivity. }
  assert (Ids' : all_ids (calls_of (name m) (f_log w')) = Old m ++ T ++ U').
  { rewrite Mine, EU, !app_assoc. rewrite <- (app_assoc (Old m)), <- Ids. unfold all_ids. rewrite !map_app, concat_app, map_app. reflexivity. }
  apply Sp in Ids' as Sp'. cbv zeta in Res.
  pose proof (ms_short _ _ _ _ _ _ _ _ _ _ M2) as Sh2. pose proof (m_slot _ _ _ _ _ _ _ _ _ _ M2) as Slot2.
  pose proof (first_some (fun i => is_some (after_out (cell w0 (Radio i)) (outs (evs i)))) N) as FS.
  assert (Names' : forall i, (i < N)%nat -> f_name w' i = name i) by (intros i Hi; rewrite Nm1; apply Nm; exact Hi).
  assert (Tick' : forall i, (i < N)%nat -> f_ticked w' i = true) by (intros i Hi; apply (Tm i Hi)).
  destruct (find _ (seq 0 N)) as [k|]; destruct Res as [RA RR].
  - destruct FS as (Lk & Fk & Below). cbn beta in Fk, Below. destruct (Nat.eq_dec k m) as [->|Nk].
    + (* the master's packet goes on the air *)
      rewrite Ce in Fk, RA. destruct (after_out (cell w (Radio m)) (outs (evs m))) as [p|] eqn:Ep; [|discriminate].
      destruct Slot2 as (NU' & Pp & Typ). destruct (exists_last NU') as (U0 & x & EU0). rewrite EU0 in *. rewrite last_last in Pp. rewrite app_length in Sh2. cbn [length] in Sh2.
      exists D1, (T ++ U0 ++ [x]), [], true, 0%nat, s1', h', g1, (match a' with InSlot => OnAir | b => b end), kills'.
      split; [|split; [exists p; split; [exact Ep|]; split; [exact RA|]; rewrite RR, Nat.eqb_refl by exact Hm; reflexivity|
        split; [exact Still|]; split; [congruence|]; split; [discriminate|exact Eg1]]].
      constructor; auto; try congruence.
      * rewrite app_nil_r. exact Ids'.
      * rewrite !app_length. cbn [length]. lia.
      * rewrite Ck, RR, Nat.eqb_refl by exact Hm. destruct M2 as [Q1 Q2 Q3 Q4 Q5 Q6 Q7 Q8 Q9 Q10]. constructor; auto; try congruence.
        -- destruct Q3 as [P Q3]. exists P. rewrite app_nil_r. exact Q3.
        -- intros Q. apply app_eq_nil in Q as [Q _]. exact (Q4 Q).
        -- split; [reflexivity|]. destruct a'; discriminate.
        -- destruct Q10 as [L1 L2 L3 L4 L5 L6]. destruct a'; cbn [pend] in *; constructor; auto; discriminate.
      * intros i Hi Ni. destruct (Oth i Hi Ni) as (O1 & O2 & O3 & O4 & _). split; [exact O1|]. split; [exact O2|]. split; [|right; exact O3].
        intros q. rewrite RR by exact Hi. destruct (Nat.eqb_spec i m); [contradiction|]. rewrite Ce. intros Q. split; [exact ND1|exact (O4 q Q)].
      * exists p. split; [exact RA|]. split; [rewrite Pp, app_assoc; symmetry; apply last_last|]. rewrite Pp.
        split; [intros i Hi Ni; apply (unused_fresh N m Old D1 T U0 x i Hi Ni Nr1); [lia|exact Len1|exact Sp']|]. split; [apply near_snoc; [exact Nr1|lia]|].
        destruct Typ as [[Ty Ea]|[Ty Ea]]; [left|right]; (split; [exact Ty|]); [rewrite Ea; reflexivity|destruct a'; congruence].
    + (* a relay *)
      exists D1, T, U', false, (S k), s1', h', g1, a', kills'.
      assert (Rm : cell w' (Radio m) = after_out (cell w (Radio m)) (outs (evs m))).
      { rewrite RR by exact Hm. destruct (Nat.eqb_spec m k); [congruence|]. rewrite Ce. reflexivity. }
      assert (Km : U' <> [] -> (k < m)%nat).
      { intros NU'. destruct (lt_eq_lt_dec k m) as [[L|L]|L]; [exact L|contradiction|]. specialize (Below m L). rewrite Ce in Below.
        apply not_some in Below. rewrite Below in Slot2. destruct Slot2. contradiction. }
      split; [|split; [|split; [exact Still|]; split; [exact Begun|]; split; [intros _ _ Q; rewrite Q in EU; symmetry in EU; apply app_eq_nil in EU as [EU _]; exact EU|exact Eg1]]].
      2: { split; [exact Rm|]; right; exists k; split; [exact Lk|]; split; [exact Nk|]; split; [rewrite Ce in Fk; intros Q; rewrite Q in Fk; discriminate|];
        intros i Hi; rewrite RR by exact Hi; destruct (Nat.eqb_spec i k); [congruence|]; intros Q;
        destruct (lt_eq_lt_dec k i) as [[L|L]|L]; [exact L|congruence|]; specialize (Below i L); apply not_some in Below; congruence. }
      constructor; auto; try congruence; try lia.
      * intros NU'. specialize (Km NU'). split; [reflexivity|]. split; [lia|]. split.
        -- intros i Hi. rewrite RR by lia. destruct (Nat.eqb_spec i k); [reflexivity|]. apply not_some. apply Below. lia.
        -- rewrite Ck. destruct (list_eq_dec Z.eq_dec U []) as [EU0|NU].
           ++ rewrite (S2 EU0 NU'). lia.
           ++ rewrite (S1 NU). destruct (Wt NU) as (Fl & Jm & JN & Jt). 
              assert (j <= k)%nat; [|lia]. destruct (le_lt_dec j k) as [L|L]; [exact L|exfalso].
              destruct (Oth k Lk Nk) as (_ & _ & _ & _ & O5). rewrite Ce, (O5 Fl), (JN k L : cell w (Radio k) = None) in Fk. discriminate.
      * intros i Hi Ni. destruct (Oth i Hi Ni) as (O1 & O2 & O3 & O4 & _). split; [exact O1|]. split; [exact O2|]. split; [|right; exact O3].
        intros q. rewrite RR by exact Hi. destruct (Nat.eqb_spec i k); [discriminate|]. rewrite Ce. intros Q. split; [exact ND1|exact (O4 q Q)].
      * split; [exact ND1|]. split; [exact Lst1|]. split; [exact Nr1|]. split; [exact Na2|]. rewrite RA, Ce. intros q Q.
        destruct (Oth k Lk Nk) as (_ & _ & _ & O4 & _). exact (O4 q Q).
  - (* nobody has anything *)
    assert (E0 : after_out (cell w (Radio m)) (outs (evs m)) = None) by (apply not_some; specialize (FS m Hm); cbn beta in FS; rewrite Ce in FS; exact FS).
    rewrite E0 in Slot2, M2. destruct Slot2 as [-> Ns].
    exists D1, T, [], false, 0%nat, s1', h', g1, a', kills'.
    split; [|split; [split; [rewrite RR by exact Hm; symmetry; exact E0|left; split; [exact RA|exact RR]]|
      split; [exact Still|]; split; [congruence|]; split; [intros _ _ _; symmetry in EU; apply app_eq_nil in EU as [EU _]; exact EU|exact Eg1]]].
    constructor; auto; try congruence; try lia.
    + rewrite Ck, RR by exact Hm. exact M2.
    + intros i Hi Ni. destruct (Oth i Hi Ni) as (O1 & O2 & O3 & O4 & _). split; [exact O1|]. split; [exact O2|]. split; [|right; exact O3].
      rewrite RR by exact Hi. discriminate.
    + split; [exact ND1|]. split; [exact Lst1|]. split; [exact Nr1|]. split; [exact Na2|]. rewrite RA. discriminate.
Qed.

Lemma reign_step w D T U fly j s1 h g a kills w' :
  reign name Old N m w D T U fly j s1 h g a kills -> f_clock w + 1 < 4294967296 - 70000 ->
  FakeTick s N (advanceMillis 1 w) = Ok w' -> (forall own, all_ids (calls_of (name m) (f_log w')) = Old m ++ own -> unused N m Old own) ->
  f_clock w' = f_clock w + 1 /\
  exists D' T' U' fly' j' s1' h' g' a' kills', reign name Old N m w' D' T' U' fly' j' s1' h' g' a' kills'.
Proof.
  intros R Hc E Sp. destruct (reign_round w D T U fly j s1 h g a kills w' R Hc E Sp) as (Ck & evs & _ & _ & D' & T' & U' & fly' & j' & s1' & h' & g' & a' & k' & R' & _).
  split; [exact Ck|]. exists D', T', U', fly', j', s1', h', g', a', k'. exact R'.
Qed.
End Step.

(** ** Silence *)
Lemma ticks_log s N k : forall w w', ok N w -> fsteps s N (runTicks k) w = Ok w' ->
  ok N w' /\ f_clock w' = f_clock w + Z.of_nat k /\ exists new, f_log w' = f_log w ++ new.
Proof.
  induction k as [|k IH]; intros w w' K E.
  - cbn in E. injection E as <-. split; [exact K|]. split; [lia|]. exists []. rewrite app_nil_r. reflexivity.
  - cbn [runTicks fsteps fstep obind] in E.
    assert (K0 : ok N (advanceMillis 1 w)) by (destruct K as [[? ? ? ?] ? ?]; constructor; [constructor|..]; auto; cbn; lia).
    destruct (FakeTick_ok s N _ K0) as (evs & w1 & E1 & K1 & _ & Lg & _ & _ & _ & _ & Ck & _). rewrite E1 in E. cbn [obind] in E.
    destruct (IH w1 w' K1 E) as (K' & Ck' & new & Lg'). split; [exact K'|]. split; [rewrite Ck', Ck; cbn [advanceMillis set_clock f_clock]; lia|].
    eexists. rewrite Lg', Lg, <- app_assoc. reflexivity.
Qed.

(** Everybody is a slave, and nothing is on the air or waiting to be sent.
    [name] are the names of the nodes, [Old] is what each of them has
    transmitted, and [due] until when it waits. *)
Record calm (name : nat -> nat) (Old : nat -> list Z) (due : nat -> Z) (N : nat) (w : fakenet) : Prop := mkCalm {
  c_ok : ok N w;
  c_names : forall i, (i < N)%nat -> f_name w i = name i;
  c_inj : forall i j, (i < N)%nat -> (j < N)%nat -> name i = name j -> i = j;
  c_ticked : forall i, (i < N)%nat -> f_ticked w i = true;
  c_loss : f_loss w = 0;
  c_ids : forall i, (i < N)%nat -> all_ids (calls_of (name i) (f_log w)) = Old i;
  c_air : cell w Air = None;
  c_slots : forall i, (i < N)%nat -> cell w (Radio i) = None;
  c_nodes : forall i, (i < N)%nat -> state (f_node w i) = Slave /\ knows (nm (f_node w i)) (Old i) /\ t_hb (f_node w i) = due i
}.

Section Early.
Variable s : source.
Variable name : nat -> nat.
Variable Old : nat -> list Z.
Variable due : nat -> Z.
Variable N : nat.
Hypothesis small : (N <= 900)%nat.

Lemma calm_advance w d : 0 <= d -> calm name Old due N w -> calm name Old due N (advanceMillis d w).
Proof.
  intros Hd [K C1 C2 C3 C4 C5 C6 C7 C8]. constructor; auto.
  destruct K as [[? ? ? ?] ? ?]; constructor; [constructor|..]; auto; cbn; lia.
Qed.

Lemma calm_due w i : calm name Old due N w -> (i < N)%nat -> 0 <= due i < 4294967296.
Proof. intros C Hi. destruct (c_nodes _ _ _ _ _ C i Hi) as (_ & _ & <-). apply (g_hb _ (proj1 (k_nodes _ _ (c_ok _ _ _ _ _ C) i Hi))). Qed.

Lemma calm_node w i : calm name Old due N w -> (i < N)%nat -> f_clock w <= due i ->
  machine (env_of s (f_name w i)) (f_clock w) (f_ticked w i) (receives s w i) (f_node w i) =
  Ok (f_node w i, [mkEv (f_clock w) (OTick None) (f_node w i) (f_node w i) []; mkEv (f_clock w) (OTick None) (f_node w i) (f_node w i) []]).
Proof.
  intros C Hi Hw. pose proof (calm_due w i C Hi) as Du. destruct C as [K C1 CI C2 C3 C4 C5 C6 C7]. rewrite C1, C2 by exact Hi. unfold receives. rewrite C5.
  replace (if keeps s (f_loss w) (f_lost w) i then option_map zero_tail None else None) with (@None packet) by (destruct (keeps _ _ _ _); reflexivity).
  pose proof (k_clock _ _ K). destruct (C7 i Hi) as (P1 & P2 & P3).
  apply (slave_ignores (env_of s (name i)) (f_clock w) (f_node w i) (Old i)); auto; try lia; try (intros p [=]); try (apply (k_nodes _ _ K i Hi)).
Qed.

Lemma calm_tick w w' : calm name Old due N w -> (forall i, (i < N)%nat -> f_clock w <= due i) -> FakeTick s N w = Ok w' ->
  calm name Old due N w' /\ f_clock w' = f_clock w.
Proof.
  intros C Hw E. pose proof C as [K C1 CI C2 C3 C4 C5 C6 C7].
  destruct (FakeTick_ok s N w K) as (evs & w1 & E1 & K1 & Tm & Lg & Nm & _ & Ls & _ & Ck & Res).
  rewrite E in E1. injection E1 as <-.
  assert (Q : forall i, (i < N)%nat -> f_node w' i = f_node w i /\ outs (evs i) = []).
  { intros i Hi. destruct (Tm i Hi) as [Em _]. rewrite (calm_node w i C Hi (Hw i Hi)) in Em. injection Em as <- <-. auto. }
  split; [|exact Ck].
  pose proof (first_some (fun i => is_some (after_out (cell w (Radio i)) (outs (evs i)))) N) as FS. cbv zeta in Res.
  destruct (find _ (seq 0 N)) as [k|].
  { destruct FS as (Lk & Fk & _). destruct (Q k Lk) as [_ Qk]. rewrite Qk, C6 in Fk by exact Lk. discriminate. }
  destruct Res as [RA RR]. constructor; auto; try congruence.
  - intros i Hi. rewrite Nm. auto.
  - intros i Hi. apply (Tm i Hi).
  - intros i Hi. rewrite Lg, calls_of_app. destruct (calls_of_round (f_name w) evs N (name i)) as [R _].
    { intros a b Ha Hb. rewrite !C1 by assumption. apply CI; assumption. }
    rewrite (R i Hi (C1 i Hi)). unfold all_ids. rewrite map_app, concat_app, map_app.
    fold (all_ids (calls_of (name i) (f_log w))). rewrite C4 by exact Hi. destruct (Q i Hi) as [_ Qi]. unfold outs in Qi. rewrite Qi. apply app_nil_r.
  - intros i Hi. rewrite (proj1 (Q i Hi)). auto.
Qed.

Lemma takes_over w w' m : calm name Old due N w -> (m < N)%nat -> due m <> 0 -> f_clock w = due m + 1 -> f_clock w < 4294967296 - 70000 ->
  (forall i, (i < N)%nat -> i <> m -> due m < due i) -> FakeTick s N w = Ok w' ->
  (forall own, all_ids (calls_of (name m) (f_log w')) = Old m ++ own -> unused N m Old own) ->
  f_clock w' = f_clock w /\
  (exists x, reign name Old N m w' [] [x] [] true 0%nat 0 (f_clock w) (f_clock w - 1001) OnAir []) /\
  (t_bc (f_node w' m) = f_clock w + 2000 /\ t_ce (f_node w' m) = ce_takeover (f_clock w) (f_node w m)) /\ effect_index (f_node w' m) = effect_index (f_node w m) /\
  set_effect_packet (f_node w' m) = set_effect_packet (f_node w m) /\
  (forall i, (i < N)%nat -> i <> m -> f_node w' i = f_node w i) /\
  exists evs x, calls_of (name m) (f_log w') = calls_of (name m) (f_log w) ++ evs /\ outs evs = [Own ByHeartbeat x].
Proof.
  intros C Hm Nz0 Hc Hc2 First E Sp. pose proof C as [K C1 CI C2 C3 C4 C5 C6 C7]. pose proof (calm_due w m C Hm) as Wm.
  destruct (FakeTick_ok s N w K) as (evs & w1 & E1 & K1 & Tm & Lg & Nm & _ & Ls & _ & Ck & Res).
  rewrite E in E1. injection E1 as <-. split; [exact Ck|].
  assert (Q : forall i, (i < N)%nat -> i <> m -> f_node w' i = f_node w i /\ outs (evs i) = []).
  { intros i Hi Ni. specialize (First i Hi Ni). destruct (Tm i Hi) as [Em _]. rewrite (calm_node w i C Hi ltac:(lia)) in Em. injection Em as <- <-. auto. }
  destruct (C7 m Hm) as (P1 & P2 & P3).
  set (t := f_clock w) in *. set (n := f_node w m) in *.
  assert (Mach : exists n' ev x, machine (env_of s (name m)) t true None n = Ok (n', ev) /\ outs ev = [Own ByHeartbeat x] /\
     ptype x = 0 /\ ((t_bc n' = t + 2000 /\ t_ce n' = ce_takeover t n) /\ effect_index n' = effect_index n /\ set_effect_packet n' = set_effect_packet n) /\
     ms t n' None [pid x] [] 0 t (t - 1001) OnAir []).
  { unfold machine. rewrite u32_id by lia. assert (I : inc_sound None) by (intros p [=]).
    destruct (nodeok_runs (env_of s (name m)) t n None eq_refl (k_nodes _ _ K m Hm) I ltac:(lia)) as (n1 & o1 & R1 & T1). rewrite R1.
    assert (Due : timer_due t (t_hb n) = true) by (apply timer_due_iff; lia).
    destruct (tick_nodeok _ t n None _ _ (k_nodes _ _ K m Hm) I ltac:(lia) T1) as [Nk1 _].
    inversion T1; subst; try congruence; try discriminate.
    { destruct H0; congruence. }
    match goal with |- context [RadioTick _ t None ?y] => set (n1 := y) in * end.
    destruct (nodeok_runs (env_of s (name m)) t n1 None eq_refl Nk1 I ltac:(lia)) as (n2 & o2 & R2 & T2). rewrite R2.
    assert (Hb1 : t_hb n1 = t + 1000) by (subst n1; cbn; apply u32_id; lia).
    assert (Bc1 : t_bc n1 = t + 2000) by (subst n1; cbn; apply u32_id; lia).
    assert (Ce1 : t_ce n1 = 0 \/ t < t_ce n1).
    { subst n1. cbn. unfold ce_takeover. pose proof (u32_range (t - seen_at n)) as Ru. set (d := u32 (t - seen_at n)) in *.
      destruct (Z.ltb_spec 60000 d); [right; rewrite u32_id; lia|]. destruct (Z.eqb_spec d 60000); [left; reflexivity|]. right. rewrite u32_id; lia. }
    assert (Rce : 0 <= t_ce n1 < 4294967296) by (apply (g_ce _ (proj1 Nk1))).
    assert (St1 : state n1 = Master) by reflexivity.
    assert (D1 : timer_due t (t_hb n1) = false) by (apply timer_due_false; lia).
    assert (D2 : timer_due t (t_ce n1) = false) by (apply timer_due_false; lia).
    assert (D3 : timer_due t (t_bc n1) = false) by (apply timer_due_false; lia).
    inversion T2; subst; try congruence; try discriminate.
    eexists _, _, (hb_packet (env_of s (name m)) t n). split; [reflexivity|]. split; [reflexivity|]. split; [reflexivity|].
    split; [split; [split; [exact Bc1|reflexivity]|split; reflexivity]|].
    constructor; auto; try congruence; try lia.
    - exists (Old m). apply (knows_push (nm n) (Old m) _). exact P2.
    - split; [reflexivity|discriminate].
    - rewrite Bc1. constructor; cbn; try lia; try discriminate; auto; try contradiction. intros [|? [|? ?]] ?; discriminate. }
  destruct Mach as (n' & ev & x & Em & Eo & Ty & Rest & M).
  destruct (Tm m Hm) as [Em' _]. rewrite C1, C2 in Em' by exact Hm. unfold receives in Em'. rewrite C5 in Em'.
  replace (if keeps s (f_loss w) (f_lost w) m then option_map zero_tail None else None) with (@None packet) in Em' by (destruct (keeps _ _ _ _); reflexivity).
  fold n in Em'. rewrite Em in Em'. injection Em' as En Eev.
  assert (Mine : calls_of (name m) (f_log w') = calls_of (name m) (f_log w) ++ evs m).
  { rewrite Lg, calls_of_app. destruct (calls_of_round (f_name w) evs N (name m)) as [R _].
    { intros a b Ha Hb. rewrite !C1 by assumption. apply CI; assumption. }
    rewrite (R m Hm (C1 m Hm)). reflexivity. }
  split; [|destruct Rest as (R1 & R2 & R3); split; [rewrite <- En; exact R1|]; split; [rewrite <- En; exact R2|]; split; [rewrite <- En; exact R3|];
    split; [intros i Hi Ni; apply (Q i Hi Ni)|]; exists (evs m), x; split; [exact Mine|]; rewrite <- Eev; exact Eo].
  assert (Ids : all_ids (calls_of (name m) (f_log w')) = Old m ++ [pid x]).
  { rewrite Mine. unfold all_ids. rewrite map_app, concat_app, map_app.
    fold (all_ids (calls_of (name m) (f_log w))). rewrite C4 by exact Hm. rewrite <- Eev. unfold outs in Eo. rewrite Eo. reflexivity. }
  pose proof (Sp _ Ids) as [Sp1 Sp2]. destruct (Sp1 [] (pid x) [] eq_refl) as [Nz _].
  exists (pid x).
  pose proof (first_some (fun i => is_some (after_out (cell w (Radio i)) (outs (evs i)))) N) as FS. cbv zeta in Res.
  destruct (find _ (seq 0 N)) as [k|].
  2:{ specialize (FS m Hm). cbn beta in FS. rewrite <- Eev, Eo, C6 in FS by exact Hm. discriminate. }
  destruct FS as (Lk & Fk & _). destruct Res as [RA RR].
  assert (Ek : k = m).
  { destruct (Nat.eq_dec k m) as [X|X]; [exact X|]. destruct (Q k Lk X) as [_ Qk]. rewrite Qk, C6 in Fk by exact Lk. discriminate. }
  subst k. rewrite <- Eev, Eo, C6 in RA by exact Hm. cbn [after_out fold_left rtx_packet] in RA.
  constructor; auto; try congruence.
  - intros i Hi. rewrite Nm. auto.
  - intros i Hi. apply (Tm i Hi).
  - cbn. lia.
  - rewrite Ck, RR, Nat.eqb_refl, <- En by exact Hm. exact M.
  - rewrite Ck. lia.
  - intros i Hi Ni. destruct (Q i Hi Ni) as [Qn Qo]. rewrite Qn.
    destruct (C7 i Hi) as (A1 & A2 & A3). split; [exact A1|]. split; [rewrite app_nil_r; exact A2|]. split; [|left; reflexivity].
    intros p. rewrite RR by exact Hi. destruct (Nat.eqb_spec i m); [contradiction|]. rewrite Qo, C6 by exact Hi. discriminate.
  - exists x. split; [exact RA|]. split; [reflexivity|]. split.
    { intros i Hi Ni. rewrite app_nil_r. apply (Sp2 i _ Hi Ni). left. reflexivity. }
    split; [apply (near_snoc [] [] [] (pid x)); [apply near_nil|cbn; lia]|].
    left. auto.
Qed.

(** ** The run *)
Variable m : nat.
Hypothesis Hm : (m < N)%nat.
Hypothesis Some_time : due m <> 0.
Hypothesis First : forall i, (i < N)%nat -> i <> m -> due m < due i.

Lemma first_due i : (i < N)%nat -> due m <= due i.
Proof. intros Hi. destruct (Nat.eq_dec i m) as [->|Ne]; [lia|]. specialize (First i Hi Ne). lia. Qed.

Definition led (w : fakenet) : Prop :=
  exists D T U fly j s1 h g a kills, reign name Old N m w D T U fly j s1 h g a kills.
Definition early_or_led (w : fakenet) : Prop :=
  (calm name Old due N w /\ f_clock w <= due m) \/ (led w /\ due m < f_clock w).

Lemma early_ok w : early_or_led w -> ok N w.
Proof. intros [[C _]|[(D & T & U & fly & j & s1 & h & g & a & kills & R) _]]; [apply C|apply R]. Qed.

Lemma run_step w w' : early_or_led w -> f_clock w + 1 < 4294967296 - 70000 ->
  FakeTick s N (advanceMillis 1 w) = Ok w' ->
  (forall own, all_ids (calls_of (name m) (f_log w')) = Old m ++ own -> unused N m Old own) ->
  f_clock w' = f_clock w + 1 /\ early_or_led w'.
Proof.
  intros [[C Hw]|[(D & T & U & fly & j & s1 & h & g & a & kills & R) Hw]] Hc E Sp.
  - pose proof (calm_advance w 1 ltac:(lia) C) as C'.
    destruct (Z.le_gt_cases (f_clock w + 1) (due m)) as [L|L].
    + destruct (calm_tick _ w' C') as [C2 Ck]; [|exact E|].
      { intros i Hi. pose proof (first_due i Hi). cbn. lia. }
      split; [exact Ck|]. left. split; [exact C2|]. rewrite Ck. cbn. lia.
    + destruct (takes_over _ _ m C' Hm Some_time ltac:(cbn; lia) ltac:(cbn; lia) First E Sp) as (Ck & (x & R) & _).
      split; [exact Ck|]. right. split; [do 10 eexists; exact R|]. rewrite Ck. cbn. lia.
  - destruct (reign_step s name Old N m small _ _ _ _ _ _ _ _ _ _ _ w' R Hc E Sp) as (Ck & R').
    split; [exact Ck|]. right. split; [exact R'|]. lia.
Qed.

Lemma run_ticks k : forall w w', early_or_led w -> f_clock w + Z.of_nat k < 4294967296 - 70000 ->
  fsteps s N (runTicks k) w = Ok w' ->
  (forall own, all_ids (calls_of (name m) (f_log w')) = Old m ++ own -> unused N m Old own) -> early_or_led w'.
Proof.
  induction k as [|k IH]; intros w w' H Hc E Sp.
  - cbn in E. injection E as <-. exact H.
  - cbn [runTicks fsteps fstep obind] in E. destruct (FakeTick s N (advanceMillis 1 w)) as [w1| |] eqn:E1; try discriminate. cbn [obind] in E.
    pose proof (early_ok w H) as K.
    assert (K1 : ok N w1).
    { assert (K0 : ok N (advanceMillis 1 w)) by (destruct K as [[? ? ? ?] ? ?]; constructor; [constructor|..]; auto; cbn; lia).
      destruct (FakeTick_ok s N _ K0) as (evs & w2 & E2 & K2 & _). rewrite E1 in E2. injection E2 as <-. exact K2. }
    destruct (ticks_log s N k w1 w' K1 E) as (_ & _ & new & Lg).
    destruct (run_step w w1 H ltac:(lia) E1) as [Ck H1].
    { intros own Eo. rewrite Lg, calls_of_app in Sp. unfold all_ids in *. rewrite map_app, concat_app, map_app, Eo, <- app_assoc in Sp.
      exact (unused_prefix _ _ _ _ _ (Sp _ eq_refl)). }
    apply (IH w1 w' H1); [lia|exact E|exact Sp].
Qed.
End Early.

(** ** After power-up *)
(** The time until which node [i] waits when it hears nothing. *)
Definition wait (s : source) (i : nat) : Z := Z.of_nat i + 1 + (5000 + Z.of_N (s_draw s i 0%nat) mod 2000).

Lemma powered_facts s i : Z.of_nat i < 4000000000 ->
  state (powered s i (Z.of_nat i + 1)) = Slave /\ knows (nm (powered s i (Z.of_nat i + 1))) [] /\
  t_hb (powered s i (Z.of_nat i + 1)) = wait s i.
Proof.
  intros H. unfold powered, bare, wait. destruct (s_junk s i) as [[[ty1 ty2] d1] d2]. cbn [state nm t_hb seen_at with_num_palettes with_num_effects].
  split; [reflexivity|]. split; [apply knows_init|]. rewrite (u32_id (Z.of_nat i + 1)) by lia. apply u32_id. lia.
Qed.

Lemma silent_ids k log : Forall (fun x : nat * event => sent (snd x) = []) log -> all_ids (calls_of k log) = [].
Proof.
  intros F. unfold all_ids. assert (E : concat (map sent (calls_of k log)) = []); [|rewrite E; reflexivity].
  unfold calls_of. induction F as [|[i x] log H F IH]; [reflexivity|]. cbn [filter fst]. destruct (i =? k)%nat; [|exact IH].
  cbn [map concat snd]. cbn in H. rewrite H. exact IH.
Qed.

Lemma calm_start s N w : junk_ok s -> Z.of_nat N < 4000000000 -> FakeNetwork s N = Ok w ->
  calm (fun i => i) (fun _ => []) (wait s) N w /\ f_clock w = Z.of_nat N.
Proof.
  intros J B E. destruct (FakeNetwork_ok s N J B) as (w' & E' & K & _ & Ck & _ & Pn & Ls & _ & Nd & Qu). rewrite E in E'. injection E' as <-.
  split; [|exact Ck]. constructor; auto; try (intros i Hi; apply (Nd i Hi)).
  - intros i Hi. apply silent_ids. exact Qu.
  - unfold cell. rewrite Pn. reflexivity.
  - intros i Hi. unfold cell. rewrite Pn. reflexivity.
  - intros i Hi. assert (Q : f_node w i = powered s i (Z.of_nat i + 1)) by apply (Nd i Hi). rewrite Q. apply powered_facts. lia.
Qed.

(** Ids new to a network that has not transmitted anything yet. *)
Lemma unused_start N m ids : spread ids -> unused N m (fun _ => []) ids.
Proof.
  intros S. split; [exact S|]. intros i x _ _ I J. assert (x = 0) by (cbn in J; intuition lia). subst x.
  assert (I' : In 0 ids) by (rewrite <- (firstn_skipn 24 ids); apply in_or_app; left; exact I).
  apply in_split in I' as (a & b & E). destruct (S a 0 b E) as [Z _]. congruence.
Qed.

(** ** Silence at any time *)
Lemma traced_knows s N w i : traced s N w -> (i < N)%nat -> knows (nm (f_node w i)) (all_ids (calls_of (f_name w i) (f_log w))).
Proof.
  intros T Hi. destruct (t_hist _ _ _ T (f_name w i) (t_names _ _ _ T i Hi)) as (t0 & n & _ & _ & H & U).
  rewrite <- (U i Hi eq_refl). apply hist_nm in H as [W V]. split; [exact W|]. rewrite V, all_ids_eq. reflexivity.
Qed.

Lemma calm_silence s N w : ok N w -> traced s N w -> f_loss w = 0 -> (forall i, (i < N)%nat -> f_ticked w i = true) ->
  cell w Air = None -> (forall i, (i < N)%nat -> cell w (Radio i) = None) -> (forall i, (i < N)%nat -> state (f_node w i) = Slave) ->
  calm (f_name w) (fun i => all_ids (calls_of (f_name w i) (f_log w))) (fun i => t_hb (f_node w i)) N w.
Proof.
  intros K T L Tk A R S. constructor; auto.
  - apply (t_inj _ _ _ T).
  - intros i Hi. split; [apply S; exact Hi|]. split; [apply (traced_knows s N w i T Hi)|reflexivity].
Qed.
