(** When the master of the simulated network transmits, and when the packets of
    the network have been delivered.  Model: FakeNet.v. *)
From Coq Require Import ZArith NArith Lia List Bool.
From Coq Require Import ZifyBool.
From Verif Require Import CInt CIntFacts Packet SpecPacket PacketFacts NetMgr NetHist SpecNet NetFacts Rsm RsmStep RsmEval RsmRun RsmHist SpecRsm RsmFacts RsmTime RoleFacts.
From Verif Require Import Fastled Palette Device LedMgr Effects Show ShowFacts Bench FakeNet FakeNetFacts SimFacts AgreeFacts AgreeRun PaceRun.
Import ListNotations.
Open Scope Z_scope.
Ltac Zify.zify_post_hook ::= Z.div_mod_to_equations.

Definition site_eqb (a b : site) : bool :=
  match a, b with
  | ByHeartbeat, ByHeartbeat | ByElection, ByElection | ByChange, ByChange | ByRebroadcast, ByRebroadcast | ByApi, ByApi => true
  | _, _ => false
  end.
Definition of_site (k : site) (x : rtx) : bool := match x with Own k' _ => site_eqb k k' | Forwarded _ => false end.
Definition sends (k : site) (ev : event) : bool := existsb (of_site k) (sent ev).
(** When a node transmitted a packet of its own of kind [k]. *)
Definition times (k : site) (evs : list event) : list Z := map at_ (filter (sends k) evs).

Lemma times_app k a b : times k (a ++ b) = times k a ++ times k b.
Proof. unfold times. rewrite filter_app, map_app. reflexivity. Qed.
Lemma times_quiet k evs : outs evs = [] -> times k evs = [].
Proof.
  unfold outs, times. induction evs as [|x evs IH]; [reflexivity|]. cbn [map concat filter]. intros H. apply app_eq_nil in H as [A B].
  unfold sends at 1. rewrite A. apply IH. exact B.
Qed.
Lemma times_one k evs x t : outs evs = [x] -> Forall (fun ev => at_ ev = t) evs -> times k evs = if of_site k x then [t] else [].
Proof.
  unfold outs, times. induction evs as [|ev evs IH]; [discriminate|]. cbn [map concat filter]. intros H F. inversion F as [|? ? Ft F']; subst.
  unfold sends at 1. destruct (sent ev) as [|y l] eqn:Es; cbn [app] in H.
  - cbn [existsb]. exact (IH H F').
  - injection H as -> H. apply app_eq_nil in H as [-> H]. cbn [existsb]. rewrite orb_false_r.
    pose proof (times_quiet k evs H) as Q. unfold times in Q. destruct (of_site k x); cbn [map]; rewrite Q; reflexivity.
Qed.

(** One call of the master. *)
Lemma table_tick e t n inc out n' : nodeok n -> state n = Master -> heard n inc = None -> 0 <= t < 4294967296 - 70000 ->
  t_hb n <> 0 -> t_ce n <> 0 -> t_bc n <> 0 -> tick e t n inc out n' ->
  (t_hb n < t /\ (exists x, out = [Own ByHeartbeat x]) /\ t_hb n' = t + 1000 /\ t_ce n' = t_ce n /\ t_bc n' = t_bc n) \/
  (t <= t_hb n /\ t_ce n < t /\ (exists x, out = [Own ByChange x]) /\ t_hb n' = t_hb n /\ t_ce n' = t + 60000 /\ t_bc n' = t_bc n) \/
  (t <= t_hb n /\ t <= t_ce n /\ t_bc n < t /\ (exists x, out = [Own ByRebroadcast x]) /\ t_hb n' = t_hb n /\ t_ce n' = t_ce n /\ t_bc n' = t + 2000) \/
  (t <= t_hb n /\ t <= t_ce n /\ t <= t_bc n /\ out = [] /\ n' = n).
Proof.
  intros Nk St Hd Ht Z1 Z2 Z3 T. pose proof (proj1 Nk) as Gd. pose proof (g_ce _ Gd) as Rce. pose proof (g_bc _ Gd) as Rbc. pose proof (g_hb _ Gd) as Rhb.
  inversion T; subst; try congruence.
  - destruct H0 as [D1 [D|[D2 D3]]]; [congruence|]. apply timer_due_false in D1, D2, D3; try lia. right. right. right. repeat split; lia.
  - apply timer_due_iff in H1; [|lia]. left. split; [lia|]. split; [eexists; reflexivity|]. cbn. rewrite u32_id by lia. auto.
  - apply timer_due_false in H1; [|lia]. apply timer_due_iff in H2; [|lia]. right. left. split; [lia|]. split; [lia|]. split; [eexists; reflexivity|]. cbn. rewrite u32_id by lia. auto.
  - apply timer_due_false in H1, H2; try lia. apply timer_due_iff in H3; [|lia]. right. right. left. split; [lia|]. split; [lia|]. split; [lia|]. split; [eexists; reflexivity|]. cbn. rewrite u32_id by lia. auto.
Qed.

(** One round of the master. *)
Definition latest (evs : list event) (t : Z) : Prop :=
  In t (times ByHeartbeat evs) \/ In t (times ByChange evs) \/ In t (times ByRebroadcast evs).
Lemma latest_app a b t : latest (a ++ b) t <-> latest a t \/ latest b t.
Proof. unfold latest. rewrite !times_app, !in_app_iff. tauto. Qed.
Definition on (b : bool) (t : Z) : list Z := if b then [t] else [].
Record round_of (t : Z) (n n' : node) (evs : list event) : Prop := mkRound {
  o_hb : t_hb n' = if t_hb n <? t then t + 1000 else t_hb n;
  o_ce : t_ce n' = if t_ce n <? t then t + 60000 else t_ce n;
  o_bc : t_bc n' = if (t_bc n <? t) && negb ((t_hb n <? t) && (t_ce n <? t)) then t + 2000 else t_bc n;
  o_hbs : times ByHeartbeat evs = on (t_hb n <? t) t;
  o_ces : times ByChange evs = on (t_ce n <? t) t;
  o_bcs : times ByRebroadcast evs = on ((t_bc n <? t) && negb ((t_hb n <? t) && (t_ce n <? t))) t;
  o_any : outs evs <> [] -> latest evs t
}.

Lemma round_machine e t n slot T U s1 h g a kills inc n' evs : plat e = Host ->
  ms t n slot T U s1 h g a kills -> a <> OnAir -> 0 <= t < 4294967296 - 70000 -> inc_sound inc ->
  (forall p, inc = Some p -> pid p = last T 0) -> machine e t true inc n = Ok (n', evs) -> t_ce n <> 0 ->
  round_of t n n' evs.
Proof.
  intros Pl M Na Ht I Own Em Nz. unfold machine in Em. rewrite u32_id in Em by lia.
  destruct (nodeok_runs e t n inc Pl (m_ok _ _ _ _ _ _ _ _ _ _ M) I ltac:(lia)) as (n1 & o1 & E1 & T1). rewrite E1 in Em.
  destruct (ms_tick e t n slot T U s1 h g a kills inc o1 n1 M Na Ht I Own T1) as (U1 & s2 & h1 & a1 & k1 & M1 & Na1 & _).
  destruct (nodeok_runs e t n1 inc Pl (m_ok _ _ _ _ _ _ _ _ _ _ M1) I ltac:(lia)) as (n2 & o2 & E2 & T2). rewrite E2 in Em. injection Em as <- <-.
  pose proof (m_hb _ _ _ _ _ _ _ _ _ _ M) as (Hb & Hh & _). pose proof (m_bc _ _ _ _ _ _ _ _ _ _ M) as Bc.
  pose proof (m_hb _ _ _ _ _ _ _ _ _ _ M1) as (Hb1 & Hh1 & _). pose proof (m_bc _ _ _ _ _ _ _ _ _ _ M1) as Bc1.
  pose proof (table_tick e t n inc o1 n1 (m_ok _ _ _ _ _ _ _ _ _ _ M) (m_state _ _ _ _ _ _ _ _ _ _ M) (ms_deaf _ _ _ _ _ _ _ _ _ _ inc M Own) Ht ltac:(lia) Nz ltac:(lia) T1) as P1.
  assert (Nz1 : t_ce n1 <> 0) by (destruct P1 as [P1|[P1|[P1|(_ & _ & _ & _ & ->)]]]; [lia|lia|lia|exact Nz]).
  pose proof (table_tick e t n1 inc o2 n2 (m_ok _ _ _ _ _ _ _ _ _ _ M1) (m_state _ _ _ _ _ _ _ _ _ _ M1) (ms_deaf _ _ _ _ _ _ _ _ _ _ inc M1 Own) Ht ltac:(lia) Nz1 ltac:(lia) T2) as P2.
  clear T1 T2 E1 E2 M M1 I Own Pl Na Na1 Nz Nz1.
  destruct P1 as [(A1 & (x1 & ->) & A2 & A3 & A4)|[(A0 & A1 & (x1 & ->) & A2 & A3 & A4)|[(A0 & A1 & A1' & (x1 & ->) & A2 & A3 & A4)|(A0 & A1 & A1' & -> & ->)]]];
  destruct P2 as [(B1 & (x2 & ->) & B2 & B3 & B4)|[(B0 & B1 & (x2 & ->) & B2 & B3 & B4)|[(B0 & B1 & B1' & (x2 & ->) & B2 & B3 & B4)|(B0 & B1 & B1' & -> & ->)]]];
  try (exfalso; lia); constructor; try (intros ?; unfold latest); unfold times, sends, on; cbn [filter existsb sent of_site site_eqb orb map at_];
  destruct (Z.ltb_spec (t_hb n) t); destruct (Z.ltb_spec (t_ce n) t); try (exfalso; lia);
  try (destruct (Z.ltb_spec (t_bc n) t); try (exfalso; lia)); cbn [andb negb In]; try reflexivity; try lia; try tauto; try (exfalso; match goal with H : outs _ <> _ |- _ => apply H; reflexivity end).
Qed.

(** ** How long packets stay in the network *)
(** [c] is when the master last transmitted something. *)
Definition drain (N : nat) (w : fakenet) (U : list Z) (fly : bool) (s1 c : Z) : Prop :=
  c <= f_clock w /\ (U <> [] -> s1 <= c) /\ (fly = true -> f_clock w <= c + Z.of_nat N + 1) /\
  (U = [] -> fly = false ->
     (exists r, (r <= N)%nat /\ (forall i, (i < N)%nat -> cell w (Radio i) <> None -> (r <= i)%nat) /\ f_clock w <= c + Z.of_nat N + 2 + Z.of_nat r) \/
     (cell w Air = None /\ forall i, (i < N)%nat -> cell w (Radio i) = None)).

Lemma drained name Old N m w D T U fly j s1 h g a kills c : reign name Old N m w D T U fly j s1 h g a kills -> drain N w U fly s1 c ->
  c + 2 * Z.of_nat N + 2 < f_clock w -> cell w Air = None /\ forall i, (i < N)%nat -> cell w (Radio i) = None.
Proof.
  intros R (Dc & Du & Df & Dr) L. destruct (list_eq_dec Z.eq_dec U []) as [E|E].
  - destruct fly; [specialize (Df eq_refl); lia|]. destruct (Dr E eq_refl) as [(r & Lr & _ & B)|Q]; [lia|exact Q].
  - specialize (Du E). destruct (r_wait _ _ _ _ _ _ _ _ _ _ _ _ _ _ _ R E) as (_ & J & _ & B). lia.
Qed.

Lemma table_round s name Old N m w D T U fly j s1 h g a kills w' c : (N <= 900)%nat ->
  reign name Old N m w D T U fly j s1 h g a kills -> f_clock w + 1 < 4294967296 - 70000 ->
  FakeTick s N (advanceMillis 1 w) = Ok w' -> (forall own, all_ids (calls_of (name m) (f_log w')) = Old m ++ own -> unused N m Old own) ->
  t_ce (f_node w m) <> 0 -> drain N w U fly s1 c ->
  f_clock w' = f_clock w + 1 /\
  exists evs, calls_of (name m) (f_log w') = calls_of (name m) (f_log w) ++ evs /\
    round_of (f_clock w + 1) (f_node w m) (f_node w' m) evs /\
  exists D' T' U' fly' j' s1' h' g' a' kills', reign name Old N m w' D' T' U' fly' j' s1' h' g' a' kills' /\
    drain N w' U' fly' s1' (match outs evs with [] => c | _ => f_clock w + 1 end).
Proof.
  intros Sm R Hc Et Sp Nz (Dc & Du & Df & Dr).
  destruct (reign_round s name Old N m Sm w D T U fly j s1 h g a kills w' R Hc Et Sp)
    as (Ck & evs & Tm & Mine & D' & T' & U' & fly' & j' & s1' & h' & g' & a' & kills' & R' & Mv & Still & Begun & Gone & _).
  split; [exact Ck|]. exists (evs m). split; [exact Mine|]. split.
  - destruct R as [K Hm Nm Inj Tk Ls Ids Len Ms Hb Wt Sl Air_].
    set (t := f_clock w + 1) in *.
    assert (Ht : 0 <= t < 4294967296 - 70000) by (pose proof (k_clock _ _ K); subst t; lia).
    assert (M0 : ms t (f_node w m) (cell w (Radio m)) T U s1 h g a kills).
    { apply ms_next; [exact Ms|exact Hb|]. intros NU. destruct (Wt NU) as (_ & B & _ & C). lia. }
    assert (So : inc_sound (option_map zero_tail (cell w Air))).
    { intros p. destruct (cell w Air) as [x|] eqn:C; [|discriminate]. cbn. intros [= <-]. apply zero_tail_sound. exact (cell_air_sound _ _ _ (k_mem _ _ K) C). }
    assert (Del : exists g1 a1 kills1, ms t (f_node w m) (cell w (Radio m)) T U s1 h g1 a1 kills1 /\ a1 <> OnAir /\
       (forall p, cell w Air = Some p -> pid p = last T 0)).
    { destruct fly.
      - destruct Air_ as (X & CA & PX & New & Nr & Ty).
        exists (match a with OnAir => t | _ => g end), (match a with OnAir => Got | b => b end), (match a with OnAir => [] | _ => kills end).
        split; [destruct a; try exact M0; exact (ms_got _ _ _ _ _ _ _ _ _ M0)|]. split; [destruct a; discriminate|]. intros p Cp; congruence.
      - destruct Air_ as (ND & Lst & Nr & Na & AA). exists g, a, kills. split; [exact M0|]. split; [exact Na|]. intros p Cp. rewrite <- Lst. exact (AA p Cp). }
    destruct Del as (g1 & a1 & k1 & M1 & Na1 & Own1).
    apply (round_machine (env_of s (name m)) t (f_node w m) (cell w (Radio m)) T U s1 h g1 a1 k1 (option_map zero_tail (cell w Air)) (f_node w' m) (evs m) eq_refl M1 Na1 Ht So); auto.
    intros p. destruct (cell w Air) as [x|] eqn:C; [|discriminate]. cbn. intros [= <-]. cbn [zero_tail pid]. exact (Own1 x eq_refl).
  - exists D', T', U', fly', j', s1', h', g', a', kills'. split; [exact R'|].
    pose proof (r_m _ _ _ _ _ _ _ _ _ _ _ _ _ _ _ R) as Hm.
    pose proof (m_slot _ _ _ _ _ _ _ _ _ _ (r_ms _ _ _ _ _ _ _ _ _ _ _ _ _ _ _ R)) as Sl.
    pose proof (m_slot _ _ _ _ _ _ _ _ _ _ (r_ms _ _ _ _ _ _ _ _ _ _ _ _ _ _ _ R')) as Sl'.
    unfold drain. rewrite Ck. unfold moved in Mv. destruct (outs (evs m)) as [|x o] eqn:Eo.
    + split; [lia|]. split; [|split].
      * intros NU'. destruct (Begun NU') as [[NU ->]|[_ Q]]; [exact (Du NU)|contradiction].
      * intros ->. destruct Mv as (p & Fm & _). cbn [after_out fold_left] in Fm. rewrite Fm in Sl. destruct Sl as (NU & _).
        specialize (Du NU). destruct (r_wait _ _ _ _ _ _ _ _ _ _ _ _ _ _ _ R NU) as (_ & J & _ & B). lia.
      * intros EU' ->. destruct Mv as [_ [Q|(k & Hk & Nk & Fk & Lk)]]; [right; exact Q|left].
        exists (S k). split; [lia|]. split; [exact Lk|]. destruct fly; [specialize (Df eq_refl); lia|].
        rewrite (Still eq_refl k Hk Nk) in Fk. cbn [after_out fold_left] in Fk.
        destruct (Dr (Gone eq_refl eq_refl EU') eq_refl) as [(r & Lr & Nr & B)|[_ Q]]; [|exfalso; apply Fk, Q, Hk].
        specialize (Nr k Hk Fk). lia.
    + split; [lia|]. split; [|split].
      * intros NU'. destruct (Begun NU') as [[NU ->]|[-> _]]; [specialize (Du NU); lia|lia].
      * intros _. lia.
      * intros EU' ->. destruct Mv as [Q _]. rewrite Q in Sl'.
        assert (Nn : exists p, after_out (cell w (Radio m)) (x :: o) = Some p).
        { clear. unfold after_out. cbn [fold_left]. generalize x. induction o as [|y o IH]; intros z; cbn [fold_left]; [eexists; reflexivity|apply IH]. }
        destruct Nn as [p Ep]. rewrite Ep in Sl'. destruct Sl' as [Q' _]. contradiction.
Qed.

(** ** The timetable *)
(** Rebroadcasts follow each other after 2001 ms, or after 2002 ms when a
    heartbeat and a new effect were due after 2001 ms. *)
Definition spaced (H C R : list Z) : Prop :=
  forall a x y b, R = a ++ x :: y :: b -> y = x + 2001 \/ y = x + 2002 /\ In (x + 2001) H /\ In (x + 2001) C.
Lemma spaced_more H C R H' C' : spaced H C R -> spaced (H ++ H') (C ++ C') R.
Proof.
  intros S a x y b E. destruct (S a x y b E) as [Q|(Q & I1 & I2)]; [left; exact Q|right]. split; [exact Q|]. split; apply in_or_app; left; assumption.
Qed.
Lemma spaced_snoc H C R x y : spaced H C (R ++ [x]) -> (y = x + 2001 \/ y = x + 2002 /\ In (x + 2001) H /\ In (x + 2001) C) -> spaced H C ((R ++ [x]) ++ [y]).
Proof.
  intros S Q a u v b E. destruct b as [|z b _] using rev_ind.
  - replace (a ++ [u; v]) with ((a ++ [u]) ++ [v]) in E by (rewrite <- app_assoc; reflexivity).
    apply app_inj_tail in E as [E ->]. apply app_inj_tail in E as [_ ->]. exact Q.
  - replace (a ++ u :: v :: b ++ [z]) with ((a ++ u :: v :: b) ++ [z]) in E by (rewrite <- app_assoc; reflexivity).
    apply app_inj_tail in E as [E _]. exact (S a u v b E).
Qed.

Section Table.
Variable s : source.
Variable name : nat -> nat.
Variable Old : nat -> list Z.
Variable due : nat -> Z.
Variables N m : nat.
Hypothesis small : (N <= 900)%nat.
Hypothesis Hm : (m < N)%nat.
Hypothesis Some_time : due m <> 0.
Hypothesis First : forall i, (i < N)%nat -> i <> m -> due m < due i.
Variable L0 : list event.
Variable n0 : node.
Let t0 := due m + 1.
Let ce0 := ce_takeover t0 n0.
Hypothesis ce_set : ce0 <> 0.

Record tabled (w : fakenet) (new : list event) : Prop := mkTabled {
  tb_hb : exists q, times ByHeartbeat new = map (fun j => t0 + 1001 * Z.of_nat j) (seq 0 (S q)) /\
           t_hb (f_node w m) = t0 + 1001 * Z.of_nat q + 1000 /\ t0 + 1001 * Z.of_nat q <= f_clock w <= t0 + 1001 * Z.of_nat q + 1000;
  tb_ce : exists q, times ByChange new = map (fun j => ce0 + 1 + 60001 * Z.of_nat j) (seq 0 q) /\
           t_ce (f_node w m) = ce0 + 60001 * Z.of_nat q /\ f_clock w <= ce0 + 60001 * Z.of_nat q /\ (q <> O -> ce0 + 60001 * Z.of_nat q < f_clock w + 60001);
  tb_bc : exists R x, t0 :: times ByRebroadcast new = R ++ [x] /\ spaced (times ByHeartbeat new) (times ByChange new) (R ++ [x]) /\
           t_bc (f_node w m) = x + 2000 /\ x <= f_clock w /\ (f_clock w <= x + 2000 \/ f_clock w = x + 2001 /\ In (x + 2001) (times ByHeartbeat new) /\ In (x + 2001) (times ByChange new))
}.

Definition table (w : fakenet) : Prop :=
  exists new, calls_of (name m) (f_log w) = L0 ++ new /\
  ((calm name Old due N w /\ f_clock w <= due m /\ f_node w m = n0 /\ outs new = []) \/
   (due m < f_clock w /\ tabled w new /\ exists D T U fly j s1 h g a kills c,
      reign name Old N m w D T U fly j s1 h g a kills /\ drain N w U fly s1 c /\
      latest new c)).

Lemma table_step w w' : table w -> f_clock w + 1 < 4294967296 - 70000 ->
  FakeTick s N (advanceMillis 1 w) = Ok w' ->
  (forall own, all_ids (calls_of (name m) (f_log w')) = Old m ++ own -> unused N m Old own) ->
  f_clock w' = f_clock w + 1 /\ table w'.
Proof.
  intros (new & En & H) Hc E Sp.
  destruct H as [(C & Hw & Nd & Qu)|(Hw & Tb & D & T & U & fly & j & s1 & h & g & a & kills & c & R & Dr & Last)].
  - pose proof (calm_advance name Old due N small w 1 ltac:(lia) C) as C'.
    destruct (Z.le_gt_cases (f_clock w + 1) (due m)) as [L|L].
    + destruct (calm_tick s name Old due N small _ w' C') as [C2 Ck]; [|exact E|].
      { intros i Hi. cbn. destruct (Nat.eq_dec i m) as [->|Ne]; [lia|]. specialize (First i Hi Ne). lia. }
      destruct (calm_same s name Old due N m small Hm _ w' C' ltac:(cbn; lia) E) as (Nd' & evs & Ee & Oe). change (f_node (advanceMillis 1 w) m) with (f_node w m) in Nd'.
      change (f_log (advanceMillis 1 w)) with (f_log w) in Ee.
      split; [exact Ck|]. exists (new ++ evs). split; [rewrite Ee, En, app_assoc; reflexivity|]. left.
      split; [exact C2|]. split; [rewrite Ck; cbn; lia|]. split; [congruence|]. rewrite outs_app, Qu, Oe. reflexivity.
    + pose proof (takes_over s name Old due N small _ w' m C' Hm Some_time ltac:(cbn; lia) ltac:(cbn; lia) First E Sp)
        as (Ck & (x & R) & (Bc & Ce) & _ & _ & _ & evs & p & Ee & Oe).
      assert (Fa : Forall (fun ev => at_ ev = t0) evs).
      { pose proof (calm_advance name Old due N small w 1 ltac:(lia) C) as [K C1 CI _ _ _ _ _ _].
        destruct (FakeTick_ok s N _ K) as (evf & w1 & E1 & _ & Tm & Lg & _). rewrite E in E1. injection E1 as <-.
        destruct (Tm m Hm) as [Em _]. apply machine_at in Em. rewrite Lg, calls_of_app in Ee. apply app_inv_head in Ee.
        destruct (calls_of_round (f_name (advanceMillis 1 w)) evf N (name m)) as [Rr _].
        { intros i i' Hi Hi'. rewrite !C1 by assumption. apply CI; assumption. }
        rewrite (Rr m Hm (C1 m Hm)) in Ee. rewrite <- Ee. replace t0 with (f_clock (advanceMillis 1 w)); [exact Em|]. subst t0. cbn. lia. }
      change (f_node (advanceMillis 1 w) m) with (f_node w m) in *. change (f_log (advanceMillis 1 w)) with (f_log w) in Ee.
      change (f_clock (advanceMillis 1 w)) with (f_clock w + 1) in *.
      assert (Et : f_clock w + 1 = t0) by (subst t0; lia). rewrite Nd, Et in Ce. fold ce0 in Ce.
      pose proof (k_clock _ _ (c_ok _ _ _ _ _ C)) as Kc.
      pose proof (ce_takeover_later t0 n0 ltac:(lia) ce_set) as Lt. fold ce0 in Lt.
      assert (Hb : t_hb (f_node w' m) = t0 + 1000).
      { destruct (m_hb _ _ _ _ _ _ _ _ _ _ (r_ms _ _ _ _ _ _ _ _ _ _ _ _ _ _ _ R)) as (Q & _). lia. }
      assert (Ti : forall k, times k (new ++ evs) = if of_site k (Own ByHeartbeat p) then [t0] else []).
      { intros k. rewrite times_app, (times_quiet k new Qu). exact (times_one k evs _ t0 Oe Fa). }
      split; [exact Ck|]. exists (new ++ evs). split; [rewrite Ee, En, app_assoc; reflexivity|]. right. split; [subst t0; lia|]. split.
      * constructor.
        -- exists O. rewrite Ti. cbn [of_site site_eqb seq map]. split; [f_equal; lia|]. lia.
        -- exists O. rewrite Ti. cbn [of_site site_eqb seq map]. split; [reflexivity|]. split; [lia|]. split; [lia|congruence].
        -- exists [], t0. rewrite Ti. cbn [of_site site_eqb app]. split; [reflexivity|]. split; [|lia].
           intros [|? [|? ?]] ? ? ? Q; discriminate Q.
      * exists [], [x], [], true, 0%nat, 0, (f_clock w + 1), (f_clock w + 1 - 1001), OnAir, [], t0. split; [exact R|]. split.
        -- unfold drain. split; [lia|]. split; [congruence|]. split; [lia|discriminate].
        -- left. rewrite Ti. left. reflexivity.
  - destruct Tb as [(q1 & Hb1 & Hb2 & Hb3) (q2 & Ce1 & Ce2 & Ce3 & Ce4) (Rb & x & Bc1 & Bc2 & Bc3 & Bc4 & Bc5)].
    destruct (table_round s name Old N m w D T U fly j s1 h g a kills w' c small R Hc E Sp) as (Ck & evs & Ee & Ro & D' & T' & U' & fly' & j' & s1' & h' & g' & a' & kills' & R' & Dr').
    { assert (0 <= ce0); [|clearbody ce0; lia]. apply ce_takeover_nonneg. } { exact Dr. }
    split; [exact Ck|]. exists (new ++ evs). split; [rewrite Ee, En, app_assoc; reflexivity|]. right. split; [lia|].
    destruct Ro as [O1 O2 O3 O4 O5 O6 O7]. set (t := f_clock w + 1) in *. split.
    + destruct (Z.ltb_spec (t_hb (f_node w m)) t) as [Lh|Lh]; destruct (Z.ltb_spec (t_ce (f_node w m)) t) as [Lc|Lc]; cbn [andb negb on] in *.
      all: rewrite ?andb_false_r, ?andb_true_r in *.
      all: constructor; rewrite !times_app, ?O4, ?O5, ?O6, Ck; fold t.
      all: try (exists (S q1); rewrite seq_S, map_app, <- Hb1, O1; cbn [map]; split; [do 2 f_equal; lia|lia]).
      all: try (exists q1; rewrite app_nil_r, O1; split; [exact Hb1|lia]).
      all: try (exists (S q2); rewrite seq_S, map_app, <- Ce1, O2; cbn [map]; split; [do 2 f_equal; lia|lia]).
      all: try (exists q2; rewrite app_nil_r, O2; split; [exact Ce1|]; split; [lia|]; split; [lia|]; intros Q; specialize (Ce4 Q); lia).
      * exists Rb, x. cbn [on]. rewrite app_nil_r. split; [exact Bc1|]. split; [apply spaced_more; exact Bc2|]. split; [lia|]. split; [lia|].
        destruct Bc5 as [Bc5|(Bc5 & I1 & I2)].
        -- destruct (Z.eq_dec t (x + 2001)) as [Q|Q]; [right|left; lia]. split; [exact Q|]. rewrite <- Q. split; apply in_or_app; right; left; reflexivity.
        -- exfalso. rewrite Hb1 in I1. apply in_map_iff in I1 as (v & Ev & Iv). apply in_seq in Iv. lia.
      * destruct (Z.ltb_spec (t_bc (f_node w m)) t) as [Lb|Lb]; cbn [on].
        -- exists (Rb ++ [x]), t. rewrite app_comm_cons, Bc1. split; [reflexivity|]. split; [|lia].
           apply spaced_snoc; [apply spaced_more; exact Bc2|]. destruct Bc5 as [Bc5|(Bc5 & I1 & I2)]; [left; lia|right]. split; [lia|].
           split; apply in_or_app; left; assumption.
        -- exists Rb, x. rewrite app_nil_r. split; [exact Bc1|]. split; [apply spaced_more; exact Bc2|]. split; [lia|]. split; [lia|]. left; lia.
      * destruct (Z.ltb_spec (t_bc (f_node w m)) t) as [Lb|Lb]; cbn [on].
        -- exists (Rb ++ [x]), t. rewrite app_comm_cons, Bc1. split; [reflexivity|]. split; [|lia].
           apply spaced_snoc; [apply spaced_more; exact Bc2|]. destruct Bc5 as [Bc5|(Bc5 & I1 & I2)]; [left; lia|right]. split; [lia|].
           split; apply in_or_app; left; assumption.
        -- exists Rb, x. rewrite app_nil_r. split; [exact Bc1|]. split; [apply spaced_more; exact Bc2|]. split; [lia|]. split; [lia|]. left; lia.
      * destruct (Z.ltb_spec (t_bc (f_node w m)) t) as [Lb|Lb]; cbn [on].
        -- exists (Rb ++ [x]), t. rewrite app_comm_cons, Bc1. split; [reflexivity|]. split; [|lia].
           apply spaced_snoc; [apply spaced_more; exact Bc2|]. destruct Bc5 as [Bc5|(Bc5 & I1 & I2)]; [left; lia|right]. split; [lia|].
           split; apply in_or_app; left; assumption.
        -- exists Rb, x. rewrite app_nil_r. split; [exact Bc1|]. split; [apply spaced_more; exact Bc2|]. split; [lia|]. split; [lia|]. left; lia.
    + exists D', T', U', fly', j', s1', h', g', a', kills', (match outs evs with [] => c | _ => t end). split; [exact R'|]. split; [exact Dr'|].
      destruct (outs evs) as [|y o] eqn:Eo.
      * apply latest_app. left. exact Last.
      * apply latest_app. right. apply O7. discriminate.
Qed.

Lemma table_ok w : table w -> ok N w.
Proof. intros (new & _ & [[C _]|(_ & _ & D & T & U & fly & j & s1 & h & g & a & kills & c & R & _)]); [apply C|apply R]. Qed.

Lemma table_ticks k : forall w w', table w -> f_clock w + Z.of_nat k < 4294967296 - 70000 ->
  fsteps s N (runTicks k) w = Ok w' ->
  (forall own, all_ids (calls_of (name m) (f_log w')) = Old m ++ own -> unused N m Old own) -> table w'.
Proof.
  induction k as [|k IH]; intros w w' H Hc E Sp.
  - cbn in E. injection E as <-. exact H.
  - cbn [runTicks fsteps fstep obind] in E. destruct (FakeTick s N (advanceMillis 1 w)) as [w1| |] eqn:E1; try discriminate. cbn [obind] in E.
    pose proof (table_ok w H) as K.
    assert (K1 : ok N w1).
    { assert (K0 : ok N (advanceMillis 1 w)) by (destruct K as [[? ? ? ?] ? ?]; constructor; [constructor|..]; auto; cbn; lia).
      destruct (FakeTick_ok s N _ K0) as (evs & w2 & E2 & K2 & _). rewrite E1 in E2. injection E2 as <-. exact K2. }
    destruct (ticks_log s N k w1 w' K1 E) as (_ & _ & new & Lg).
    destruct (table_step w w1 H ltac:(lia) E1) as [Ck H1].
    { intros own Eo. rewrite Lg, calls_of_app in Sp. unfold all_ids in *. rewrite map_app, concat_app, map_app, Eo, <- app_assoc in Sp.
      exact (unused_prefix _ _ _ _ _ (Sp _ eq_refl)). }
    apply (IH w1 w' H1); [lia|exact E|exact Sp].
Qed.
End Table.
