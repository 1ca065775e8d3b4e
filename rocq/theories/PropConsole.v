(** The colour of a lighting console on every node: C111. *)
From Coq Require Import ZArith Lia List Bool.
From Coq Require Import ZifyBool.
From Verif Require Import CInt CIntFacts Packet SpecPacket PacketFacts NetMgr NetHist SpecNet NetFacts Fastled Palette Device LedMgr SpecLed Effects SpecEffect Show ShowFacts PropShow PropRender Rsm RsmStep RsmEval RsmHist SpecRsm RsmFacts RsmTime RoleFacts RsmRun EffectFacts PropRole PropHeartbeat PropEffect PropHold PropPair PropNetTime PropNetwork PropOneMaster PropCatchUp PropInStep Dmx SpecDmx PropDmx.
Import ListNotations.
Open Scope Z_scope.
Ltac Zify.zify_post_hook ::= Z.div_mod_to_equations.

(** The order "show colour c, hold it for 5 s". *)
Definition colour_order (c : rgb) : packet := mkPacket 0 3 4 ([5; red c; green c; blue c] ++ repeat 0 54).

(** The passes of the gateway happen one after the other, between power-up and
    the wrap of its clock. *)
Definition passes_ok (xs : list pass) : Prop :=
  bytes xs /\ (forall a y b z d, xs = a ++ y :: b ++ z :: d -> fst y <= fst z) /\
  (forall y, In y xs -> 0 <= fst y < wrap - 1000).

Lemma for_colour_says c p : for_colour c p -> says p (colour_order c).
Proof.
  intros ((W & T & _ & R & G & B) & _ & Hd & _). split; [exact T|]. cbn [ptype colour_order]. change (3 =? 2) with false. cbv iota.
  destruct W as (_ & _ & _ & Ld & _). unfold hold_seconds in Hd. rewrite T in Hd. change (SET_CONTROL =? 2) with false in Hd. cbv iota in Hd.
  unfold payload. cbn [pdata colour_order].
  destruct (pdata p) as [|a0 [|a1 [|a2 [|a3 l]]]]; cbn in Ld, R, G, B, Hd |- *; try (exfalso; lia).
  subst. reflexivity.
Qed.

(** Every packet on the air comes from a pass, and asks for its colour. *)
Lemma aired_from xs : bytes xs -> forall s p, In (s, p) (aired xs) -> exists c, In (s, c) xs /\ for_colour c p.
Proof.
  induction xs as [|[t c] xs IH] using rev_ind; intros B s p I; [destruct I|].
  pose proof (dmx_inv _ B) as (_ & _ & _ & _ & _ & F). rewrite map_app in F. cbn [map snd] in F. rewrite last_last in F.
  apply Forall_app in B as [B _]. rewrite aired_snoc in I, F.
  destruct (emits xs (t, c)) as [q|] eqn:E; cbn [fst] in *.
  - apply in_app_or in I as [I|[I|[]]].
    + destruct (IH B s p I) as (c' & I' & F'). exists c'. split; [apply in_or_app; left; exact I'|exact F'].
    + injection I as <- <-. exists c. split; [apply in_or_app; right; left; reflexivity|]. apply (F _ _ _ eq_refl).
  - rewrite app_nil_r in I. destruct (IH B s p I) as (c' & I' & F'). exists c'. split; [apply in_or_app; left; exact I'|exact F'].
Qed.

Lemma aired_prefix xs ys : exists l, aired (xs ++ ys) = aired xs ++ l.
Proof.
  induction ys as [|y ys IH] using rev_ind; [exists []; rewrite !app_nil_r; reflexivity|].
  destruct IH as (l & IH). rewrite app_assoc, aired_snoc, IH, <- app_assoc. eexists. reflexivity.
Qed.

(** Where there is a pass between u + 1000 and u + 1000 + Q, something is sent
    between u and u + 1000 + Q. *)
Lemma keeps_sending xs u Q : passes_ok xs -> 0 <= u ->
  (exists y, In y xs /\ u + 1000 < fst y <= u + 1000 + Q) ->
  exists s p, In (s, p) (aired xs) /\ u < s <= u + 1000 + Q.
Proof.
  intros (B & So & Ti) U0 ([t c] & I & L). cbn [fst] in L. pose proof (Ti _ I) as Tt. cbn [fst] in Tt.
  apply in_split in I as (pre & post & ->).
  assert (Bp : bytes pre) by (apply Forall_app in B as [B _]; exact B).
  destruct (aired_prefix (pre ++ [(t, c)]) post) as (l & E). rewrite <- app_assoc in E. cbn [app] in E.
  assert (Lst : u < last_time (aired pre) \/ last_time (aired pre) <= u) by lia.
  destruct Lst as [Lst|Lst].
  - destruct (aired pre) as [|[s p] k _] eqn:Ea using rev_ind; [cbn in Lst; lia|]. rewrite last_time_snoc in Lst.
    assert (Is : In (s, p) (aired pre)) by (rewrite Ea; apply in_or_app; right; left; reflexivity).
    exists s, p. split.
    + rewrite E, aired_snoc, Ea. apply in_or_app; left. apply in_or_app; left. apply in_or_app; right; left; reflexivity.
    + destruct (aired_from pre Bp s p Is) as (c' & Ic & _). apply in_split in Ic as (a & b & ->).
      specialize (So a (s, c') b (t, c) post). rewrite <- app_assoc in So. specialize (So eq_refl). cbn [fst] in So. lia.
  - assert (L0 : 0 <= last_time (aired pre)).
    { destruct (aired pre) as [|[s p] k _] eqn:Ea using rev_ind; [cbn; lia|]. rewrite last_time_snoc.
      destruct (aired_from pre Bp s p) as (c' & Ic & _); [rewrite Ea; apply in_or_app; right; left; reflexivity|].
      specialize (Ti (s, c') ltac:(apply in_or_app; left; exact Ic)). cbn [fst] in Ti. lia. }
    destruct (dmx_inv pre Bp) as (_ & _ & Sl & _).
    destruct (emits pre (t, c)) as [p|] eqn:Em.
    + exists t, p. split; [|lia]. rewrite E, aired_snoc, Em. apply in_or_app; left. apply in_or_app; right; left; reflexivity.
    + exfalso. apply loop_sends in Em as [_ Em]. cbn [d_time fst] in Em. rewrite Sl in Em. unfold wrap, u32 in *. lia.
Qed.

(** A node shows K as long as all it gets to hear, or decides, is K. *)
Lemma keeps_K e t0 K : forall h2 h1 n, hist e t0 (h1 ++ h2) n ->
  (forall m, hist e t0 h1 m -> says (GetSetEffect m) K) ->
  (forall c, In c h2 -> ~ own_change c /\ (forall q, call c <> OSetEffect q) /\
     (forall q, accepted c q -> about_effects q -> says q K)) ->
  says (GetSetEffect n) K.
Proof.
  induction h2 as [|c h2 IH] using rev_ind; intros h1 n H Q0 Q.
  - rewrite app_nil_r in H. auto.
  - rewrite app_assoc in H. apply hist_last in H as (H & -> & G & O & L1 & L2 & S).
    assert (B : says (GetSetEffect (before c)) K).
    { apply (IH h1 _ H Q0). intros z I. apply Q. apply in_or_app; left; exact I. }
    destruct (Q c ltac:(apply in_or_app; right; left; reflexivity)) as (R & Q1 & Q2).
    destruct (shown_step _ _ S G) as [E|[(p & Ac & A & E)|[(p & I & E)|(q & C & E)]]].
    + eapply says_trans; [apply says_content; exact E|exact B].
    + rewrite E. auto.
    + exfalso. apply R. exists p. exact I.
    + exfalso. exact (Q1 q C).
Qed.

Lemma change_by_master e t0 h ev : history e t0 (h ++ [ev]) -> own_change ev -> role_before ev = Master.
Proof.
  intros [n H] (p & I). apply hist_last in H as (_ & _ & _ & _ & _ & _ & S).
  destruct ev as [t o m m' out]; proj. unfold GetCurrentState.
  destruct S as [inc out m' T|q Rd|v|v]; proj; own_in I. destruct T; own_in I; congruence.
Qed.

(** A network of N nodes with master m, and a DMX gateway with passes xs; the
    clock of the gateway shows global time + og.  From global time x on the
    console shows c.  Q: how long a pass of the gateway takes at most; D: how
    long packets travel, relays included. *)
Record console (w : network) (N m : nat) (tr : run) (xs : list pass) (og : Z) (c : rgb) (x stop Q D : Z) : Prop := mkConsole {
  co_run : is_run w tr;
  co_ordered : ordered w tr;
  co_times : forall i ev, In (i, ev) tr -> (i < N)%nat /\ global w i ev <= stop;
  co_past : forall i ev, In ev (n_past w i) -> global w i ev <= x;
  co_wrap : forall i, (i < N)%nat -> all_before (wrap - 255001) (n_start w i) (n_past w i ++ calls_at i tr);
  co_roles : forall i ev, In (i, ev) tr -> x < global w i ev ->
    role_before ev = (if Nat.eqb i m then Master else Slave) /\ role_after ev = (if Nat.eqb i m then Master else Slave);
  (** nobody else gives orders *)
  co_quiet : forall i ev q, In (i, ev) tr -> x < global w i ev -> call ev <> OSetEffect q;
  co_passes : passes_ok xs;
  co_on : 0 <= x + og;
  co_colour : forall t c', In (t, c') xs -> x < t - og -> c' = c;
  co_dense : forall u, x <= u -> u + Q < stop -> exists y, In y xs /\ u < fst y - og <= u + Q;
  (** what the gateway sends reaches every node within D ms *)
  co_arrive : forall s p i, In (s, p) (aired xs) -> (i < N)%nat -> x < s - og -> s - og + D < stop ->
    exists ev q, In (i, ev) tr /\ accepted ev q /\ says q p /\ s - og <= global w i ev <= s - og + D;
  (** what a node accepts was sent by another node or by the gateway at most D ms ago *)
  co_prompt : forall a i ev b p, tr = a ++ (i, ev) :: b -> accepted ev p -> about_effects p -> x + D < global w i ev ->
    (exists k y q, k <> i /\ In (k, y) a /\ originated y q /\ says p q /\ global w k y <= global w i ev <= global w k y + D) \/
    (exists s q, In (s, q) (aired xs) /\ says p q /\ s - og <= global w i ev <= s - og + D)
}.

Section Console.
Variables (w : network) (N m : nat) (tr : run) (xs : list pass) (og : Z) (c : rgb) (x stop Q D : Z).
Hypothesis CO : console w N m tr xs og c x stop Q D.
Hypothesis Q0 : 0 <= Q.
Hypothesis D0 : 0 <= D.
Hypothesis QD : 1000 + Q + D <= 5000.

Notation K := (colour_order c).
Notation full i := (n_past w i ++ calls_at i tr).

Lemma co_in i ev : In (i, ev) tr -> In ev (full i).
Proof using All. intros I. apply in_or_app; right. apply in_calls_at. exact I. Qed.

Lemma co_late i ev : In ev (full i) -> x < global w i ev -> In (i, ev) tr.
Proof using All.
  intros I L. apply in_app_or in I as [I|I]; [pose proof (co_past _ _ _ _ _ _ _ _ _ _ _ CO i ev I); lia|].
  apply in_calls_at. exact I.
Qed.

Lemma co_fed i u : (i < N)%nat -> x <= u -> u + 1000 + Q + D < stop ->
  exists ev q, In (i, ev) tr /\ accepted ev q /\ says q K /\ u < global w i ev <= u + 1000 + Q + D.
Proof using All.
  intros Ni Xu Us. destruct (co_dense _ _ _ _ _ _ _ _ _ _ _ CO (u + 1000)) as (y & Iy & Ly); [lia|lia|].
  pose proof (co_on _ _ _ _ _ _ _ _ _ _ _ CO) as On.
  destruct (keeps_sending xs (u + og) Q (co_passes _ _ _ _ _ _ _ _ _ _ _ CO)) as (s & p & Is & Ls); [lia|exists y; split; [exact Iy|lia]|].
  destruct (co_arrive _ _ _ _ _ _ _ _ _ _ _ CO s p i Is Ni) as (ev & q & Ie & Ac & Sq & Le); [lia|lia|].
  exists ev, q. split; [exact Ie|]. split; [exact Ac|]. split; [|lia].
  destruct (co_passes _ _ _ _ _ _ _ _ _ _ _ CO) as (B & _).
  destruct (aired_from xs B s p Is) as (c' & Ic & Fc). rewrite (co_colour _ _ _ _ _ _ _ _ _ _ _ CO s c' Ic ltac:(lia)) in Fc.
  eapply says_trans; [exact Sq|apply for_colour_says; exact Fc].
Qed.

(** Orders accepted later than x + D come from the gateway, or from the master. *)
Lemma co_source a i ev b p : tr = a ++ (i, ev) :: b -> accepted ev p -> about_effects p -> x + D < global w i ev ->
  says p K \/
  (i <> m /\ exists y q, In (m, y) tr /\ originated y q /\ says p q /\ global w m y <= global w i ev <= global w m y + D).
Proof using All.
  intros E Ac Ab L. destruct (co_prompt _ _ _ _ _ _ _ _ _ _ _ CO a i ev b p E Ac Ab L) as [(k & y & q & Nk & Iy & Oy & Sy & Ly)|(s & q & Is & Sq & Ls)].
  - right. assert (It : In (k, y) tr) by (rewrite E; apply in_or_app; left; exact Iy).
    destruct (PeanoNat.Nat.eq_dec k m) as [->|Nm].
    + split; [auto|]. exists y, q. auto.
    + exfalso. destruct (co_roles _ _ _ _ _ _ _ _ _ _ _ CO k y It ltac:(lia)) as [R1 R2].
      apply PeanoNat.Nat.eqb_neq in Nm. rewrite Nm in R1, R2.
      pose proof It as It0. apply in_split in It as (a1 & b1 & E1). pose proof (co_run _ _ _ _ _ _ _ _ _ _ _ CO) as R. rewrite E1 in R.
      apply run_split in R as (n & H & _).
      destruct (slave_origin _ _ _ _ _ (ex_intro _ _ H) R1 R2 Oy) as (o & Co & _).
      apply (co_quiet _ _ _ _ _ _ _ _ _ _ _ CO k y o It0 ltac:(lia) Co).
  - left. destruct (co_passes _ _ _ _ _ _ _ _ _ _ _ CO) as (B & _).
    destruct (aired_from xs B s q Is) as (c' & Ic & Fc). rewrite (co_colour _ _ _ _ _ _ _ _ _ _ _ CO s c' Ic ltac:(lia)) in Fc.
    eapply says_trans; [exact Sq|apply for_colour_says; exact Fc].
Qed.

(** A history goes forward. *)
Lemma co_forward i h1 f h2 : full i = h1 ++ f :: h2 ->
  (forall z, In z h1 -> at_ z <= at_ f) /\ (forall z, In z h2 -> at_ f <= at_ z).
Proof using All.
  intros E. destruct (co_run _ _ _ _ _ _ _ _ _ _ _ CO i) as [[n H] _]. rewrite E in H. split.
  - rewrite cons_snoc in H. apply hist_prefix in H as [k H]. apply hist_last in H as (_ & _ & _ & _ & _ & L2 & _). auto.
  - intros z I. apply in_split in I as (a & b & ->).
    replace (h1 ++ f :: a ++ z :: b) with (((h1 ++ f :: a) ++ [z]) ++ b) in H
      by (rewrite <- !app_assoc; cbn; rewrite <- ?app_assoc; reflexivity).
    apply hist_prefix in H as [k H]. apply hist_last in H as (_ & _ & _ & _ & _ & L2 & _).
    apply L2. apply in_or_app; right; left; reflexivity.
Qed.

(** From the first order for c on, a node does not change the effect by itself. *)
Lemma co_no_change i y h1 f h4 q0 : (i < N)%nat -> x <= y ->
  (forall ev q, In (i, ev) tr -> y < global w i ev -> accepted ev q -> about_effects q -> says q K) ->
  full i = h1 ++ f :: h4 -> y < global w i f -> accepted f q0 -> says q0 K ->
  forall ev, In ev (f :: h4) -> ~ own_change ev.
Proof using All.
  intros Ni Xy Only E Ly Ac0 S0.
  destruct (co_forward i h1 f h4 E) as [Fw1 Fw2].
  assert (Late : forall ev, In ev (f :: h4) -> In (i, ev) tr /\ y < global w i ev).
  { intros ev I. assert (global w i f <= global w i ev) by (destruct I as [->|I]; [lia|specialize (Fw2 ev I); unfold global; lia]).
    split; [|lia]. apply co_late; [rewrite E; apply in_or_app; right; exact I|lia]. }
  destruct (co_run _ _ _ _ _ _ _ _ _ _ _ CO i) as [H Ap].
  assert (AbK : forall q, says q K -> about_effects q) by (intros q [T _]; right; rewrite T; reflexivity).
  destruct (PeanoNat.Nat.eq_dec i m) as [Em|Nm].
  - apply (C86_fed_master_never_changes (n_env w i) (n_start w i) h1 (f :: h4) 5).
    + rewrite <- E. exact H.
    + rewrite <- E. apply (co_wrap _ _ _ _ _ _ _ _ _ _ _ CO i Ni).
    + lia.
    + split.
      * intros ev p I Ac T. destruct (Late ev I) as [It L]. destruct (Only ev p It L Ac T) as [T1 T2].
        unfold hold_seconds. rewrite T1. cbn [ptype colour_order] in *. change (3 =? 2) with false in *. cbv iota in *.
        unfold payload in T2. cbn [pdata colour_order] in T2. destruct (pdata p) as [|b l]; [discriminate T2|]. cbn in T2. injection T2 as -> _. cbn. lia.
      * intros k1 ev k2 Ek.
        assert (Iev : In ev (f :: h4)) by (rewrite Ek; apply in_or_app; right; left; reflexivity).
        destruct (Z_le_gt_dec (at_ ev) (at_ f + 5000)) as [L5|L5].
        { exists f, q0. split; [destruct k1 as [|f' k1]; injection Ek as <- _; [left|left]; reflexivity|].
          split; [exact Ac0|]. split; [apply AbK; exact S0|lia]. }
        destruct (Late ev Iev) as [Itev Lev].
        pose proof (co_times _ _ _ _ _ _ _ _ _ _ _ CO i ev Itev) as [_ Stop].
        destruct (co_fed i (global w i ev - 1000 - Q - D - 1) Ni) as (z & q & Iz & Az & Sz & Lz);
          [unfold global in *; lia|lia|].
        exists z, q. split; [|split; [exact Az|split; [apply AbK; exact Sz|unfold global in *; lia]]].
        pose proof (co_in i z Iz) as Fz. rewrite E, Ek in Fz. 
        apply in_app_or in Fz as [Fz|Fz]; [specialize (Fw1 z Fz); unfold global in *; lia|].
        apply in_app_or in Fz as [Fz|[Fz|Fz]]; [apply in_or_app; left; exact Fz|subst z; unfold global in *; lia|].
        rewrite Ek, app_assoc in E. destruct (co_forward i (h1 ++ k1) ev k2 E) as [_ F2]. specialize (F2 z Fz). unfold global in *; lia.
    + intros ev I. destruct (Late ev I) as [It L].
      destruct (co_roles _ _ _ _ _ _ _ _ _ _ _ CO i ev It ltac:(lia)) as [R1 R2]. rewrite Em, PeanoNat.Nat.eqb_refl in R1, R2.
      split; [exact R1|]. split; [exact R2|]. intros p Cp. apply (co_quiet _ _ _ _ _ _ _ _ _ _ _ CO i ev p It ltac:(lia) Cp).
  - intros ev I OC. destruct (Late ev I) as [It L].
    destruct (co_roles _ _ _ _ _ _ _ _ _ _ _ CO i ev It ltac:(lia)) as [R1 _].
    apply PeanoNat.Nat.eqb_neq in Nm. rewrite Nm in R1.
    apply in_split in It as (a1 & b1 & E1). pose proof (co_run _ _ _ _ _ _ _ _ _ _ _ CO) as R. rewrite E1 in R.
    apply run_split in R as (n & Hn & _).
    rewrite (change_by_master _ _ _ _ (ex_intro _ _ Hn) OC) in R1. discriminate R1.
Qed.

(** A node that accepts nothing but c later than y shows c from y + 1000 + Q + D on. *)
Lemma co_shows i y h post n : (i < N)%nat -> x <= y -> y + 1000 + Q + D < stop ->
  (forall ev q, In (i, ev) tr -> y < global w i ev -> accepted ev q -> about_effects q -> says q K) ->
  full i = h ++ post -> (forall ev, In ev post -> y + 1000 + Q + D < global w i ev) ->
  hist (n_env w i) (n_start w i) h n -> says (GetSetEffect n) K.
Proof using All.
  intros Ni Xy Us Only E Lp Hn.
  destruct (co_fed i y Ni Xy Us) as (f & q0 & If & Ac0 & S0 & Lf).
  pose proof (co_in i f If) as Ff. rewrite E in Ff. apply in_app_or in Ff as [Ff|Ff]; [|specialize (Lp f Ff); lia].
  apply in_split in Ff as (h1 & h4 & ->).
  assert (E' : full i = h1 ++ f :: h4 ++ post) by (rewrite E, <- app_assoc; reflexivity).
  pose proof (co_no_change i y h1 f (h4 ++ post) q0 Ni Xy Only E' ltac:(lia) Ac0 S0) as NC.
  destruct (co_forward i h1 f (h4 ++ post) E') as [_ Fw].
  apply (keeps_K (n_env w i) (n_start w i) K h4 (h1 ++ [f]) n).
  - rewrite <- cons_snoc. exact Hn.
  - intros k Hk. pose proof Hk as Hl. apply hist_last in Hl as (_ & -> & _).
    destruct (C27_control_adopted _ _ h1 f q0 (ex_intro _ _ Hk) Ac0) as [-> _]; [destruct S0 as [T _]; exact T|exact S0].
  - intros z Iz. assert (Iz' : In z (h4 ++ post)) by (apply in_or_app; left; exact Iz).
    assert (Lz : y < global w i z) by (specialize (Fw z Iz'); unfold global in *; lia).
    assert (It : In (i, z) tr).
    { apply co_late; [rewrite E'; apply in_or_app; right; right; exact Iz'|lia]. }
    split; [apply NC; right; exact Iz'|]. split.
    + intros q Cq. apply (co_quiet _ _ _ _ _ _ _ _ _ _ _ CO i z q It ltac:(lia) Cq).
    + intros q Aq Bq. apply (Only z q It Lz Aq Bq).
Qed.

Lemma co_master_only ev q : In (m, ev) tr -> x + D < global w m ev -> accepted ev q -> about_effects q -> says q K.
Proof using All.
  intros I L Ac Ab. apply in_split in I as (a & b & E). destruct (co_source a m ev b q E Ac Ab L) as [S|[F _]]; [exact S|congruence].
Qed.

Lemma co_master_sends y p : (m < N)%nat -> x + 1000 + Q + 2 * D < stop -> In (m, y) tr -> x + 1000 + Q + 2 * D < global w m y ->
  originated y p -> about_effects p -> says p K.
Proof using All.
  intros Nm Us I L (s & O) Ab. pose proof (co_in m y I) as F. apply in_split in F as (h1 & h2 & E).
  rewrite cons_snoc in E.
  assert (Hh : exists n, hist (n_env w m) (n_start w m) (h1 ++ [y]) n).
  { destruct (co_run _ _ _ _ _ _ _ _ _ _ _ CO m) as [[n H] _]. rewrite E in H. eapply hist_prefix; exact H. }
  destruct Hh as (n & Hn). pose proof Hn as Hl. apply hist_last in Hl as (_ & -> & _ & _ & _ & _ & St).
  pose proof (own_is_shown _ _ _ _ St O Ab) as Sc.
  eapply says_trans; [apply says_sym, says_content; exact Sc|].
  apply (co_shows m (x + D) (h1 ++ [y]) h2 (after y) Nm ltac:(lia) ltac:(lia)).
  - intros ev q Ie Le. apply co_master_only; auto.
  - exact E.
  - intros z Iz. rewrite <- cons_snoc in E. destruct (co_forward m h1 y h2 E) as [_ F]. specialize (F z Iz). unfold global in *. lia.
  - exact Hn.
Qed.

Lemma co_everyone i n : (i < N)%nat -> x + 2 * (1000 + Q) + 4 * D < stop ->
  hist (n_env w i) (n_start w i) (full i) n -> says (GetSetEffect n) K.
Proof using All.
  intros Ni Us Hn.
  apply (co_shows i (x + 1000 + Q + 3 * D) (full i) [] n Ni ltac:(lia) ltac:(lia)).
  - intros ev q I L Ac Ab. apply in_split in I as (a & b & E).
    destruct (co_source a i ev b q E Ac Ab ltac:(lia)) as [S|(Nm & y & p & Iy & Oy & Sp & Ly)]; [exact S|].
    eapply says_trans; [exact Sp|]. apply (co_master_sends y p); auto.
    + apply (co_times _ _ _ _ _ _ _ _ _ _ _ CO m y Iy).
    + lia.
    + lia.
    + unfold about_effects in *. destruct Sp as [T _]. rewrite <- T. exact Ab.
  - rewrite app_nil_r. reflexivity.
  - intros ev [].
  - exact Hn.
Qed.
End Console.

(** C111.  Once the console has shown the colour c for 2 * (1000 + Q) + 4 * D ms,
    every node of the network shows it, whatever was shown before: every LED of
    every strip has the colour c, as its strip renders fixed colours. *)
Theorem C111_console_colour_on_every_node w N m tr xs og c x stop Q D :
  console w N m tr xs og c x stop Q D -> 0 <= Q -> 0 <= D -> 1000 + Q + D <= 5000 ->
  x + 2 * (1000 + Q) + 4 * D < stop ->
  forall i n, (i < N)%nat -> hist (n_env w i) (n_start w i) (n_past w i ++ calls_at i tr) n ->
    asks_for_colour Arduino (GetSetEffect n) c /\
    forall fl md d o clock buf,
      Forall wf_strip (strips d) -> leds_in (strips d) <= 255 -> Z.of_nat (length buf) = buffer_size md d ->
      exists buf', Show Arduino fl md d o (GetSetEffect n) clock buf = Ok buf' /\
        forall pre s post j, strips d = pre ++ s :: post -> 0 <= j < led_count s ->
          aget buf' (device_starts_at md + leds_in pre + j) = Ok (fixed c s).
Proof.
  intros CO Q0 D0 QD Us i n Ni Hn.
  assert (A : asks_for_colour Arduino (GetSetEffect n) c).
  { destruct (co_everyone w N m tr xs og c x stop Q D CO Q0 D0 QD i n Ni Us Hn) as [T P].
    split; [apply (hist_good _ _ _ _ Hn)|]. split; [exact T|]. split; [discriminate|].
    cbn [ptype colour_order] in P. change (3 =? 2) with false in P. cbv iota in P. unfold payload in P. cbn [pdata colour_order] in P.
    destruct (pdata (GetSetEffect n)) as [|a0 [|a1 [|a2 [|a3 l]]]]; cbn in P; try discriminate P.
    injection P as -> -> -> ->. cbn. auto. }
  split; [exact A|]. intros. apply C60_control_colour_everywhere; auto.
Qed.
Print Assumptions C111_console_colour_on_every_node.

(** Non-vacuous: the gateway is switched on when global time is 7500; the
    console shows a red and from 8000 on blue.  Node 0 is master, node 1, whose
    clock is 500 ms ahead, is slave; both hear the gateway within 60 ms, node 1
    also hears the master repeat the order at 9400. *)
Example C111_example : exists w tr xs n0 n1,
  console w 2 0 tr xs (-7500) (mkRGB 0 0 255) 8000 11600 500 100 /\
  8000 + 2 * (1000 + 500) + 4 * 100 < 11600 /\ length tr = 17%nat /\
  hist (n_env w 0%nat) (n_start w 0%nat) (n_past w 0%nat ++ calls_at 0 tr) n0 /\
  hist (n_env w 1%nat) (n_start w 1%nat) (n_past w 1%nat ++ calls_at 1 tr) n1 /\
  (exists p, In (100, p) (aired xs) /\ for_colour (mkRGB 200 0 0) p) /\ length (aired xs) = 4%nat.
Proof.
  run_as H0 (env0 Arduino) 0 [(7000, OTick None); (7640, OTick None); (8140, OTick (Some (control_pkt 1 5 0 0 255))); (8200, OTick None); (8300, OTick None);
   (9300, OTick None); (9400, OTick None); (9540, OTick (Some (control_pkt 2 5 0 0 255))); (10400, OTick None); (10500, OTick None); (10940, OTick (Some (control_pkt 3 5 0 0 255))); (11500, OTick None)].
  run_as H1 (env0 Arduino) 0 [(7550, OTick (Some (heartbeat_pkt 24 7000))); (8650, OTick (Some (control_pkt 1 5 0 0 255))); (8740, OTick (Some (heartbeat_pkt 41 8200)));
    (9840, OTick (Some (heartbeat_pkt 58 9300))); (9930, OTick (Some (control_pkt 75 5 0 0 255))); (10060, OTick (Some (control_pkt 2 5 0 0 255)));
    (10940, OTick (Some (heartbeat_pkt 92 10400))); (11460, OTick (Some (control_pkt 3 5 0 0 255)))].
  run_as H2 (env0 Arduino) 0 (@nil (Z * op)).
  match type of H0 with hist _ _ [?z; ?a; ?b; ?c; ?d; ?f; ?g; ?h; ?i; ?j; ?k; ?l] ?nm =>
  match type of H1 with hist _ _ [?p; ?q; ?r; ?s; ?t; ?u; ?v; ?y] ?n =>
    set (Z0 := z) in *; set (A := a) in *; set (B := b) in *; set (C := c) in *; set (D := d) in *; set (F := f) in *; set (G := g) in *;
    set (HH := h) in *; set (II := i) in *; set (JJ := j) in *; set (KK := k) in *; set (LL := l) in *;
    set (PP := p) in *; set (Q := q) in *; set (R := r) in *; set (S := s) in *; set (T := t) in *; set (U := u) in *; set (V := v) in *; set (Y := y) in *;
    set (w := mkNetwork (fun _ => env0 Arduino) (fun _ => 0)
      (fun w0 => match w0 with 1%nat => 500 | _ => 0 end) (fun w0 => match w0 with 0%nat => [Z0; A] | 1%nat => [PP] | _ => [] end));
    set (tr := [(0%nat, B); (1%nat, Q); (0%nat, C); (1%nat, R); (0%nat, D); (0%nat, F); (1%nat, S); (0%nat, G); (1%nat, T); (0%nat, HH); (1%nat, U);
          (0%nat, II); (1%nat, V); (0%nat, JJ); (0%nat, KK); (1%nat, Y); (0%nat, LL)]);
    exists w, tr, [(100, mkRGB 200 0 0); (600, mkRGB 0 0 255); (1100, mkRGB 0 0 255); (1600, mkRGB 0 0 255); (2000, mkRGB 0 0 255); (2500, mkRGB 0 0 255);
                   (3000, mkRGB 0 0 255); (3400, mkRGB 0 0 255); (3900, mkRGB 0 0 255)], nm, n
  end end.
  set (xs := [(100, _); _; _; _; _; _; _; _; _]).
  assert (Ea : exists p0 p1 p2 p3, aired xs = [(100, p0); (600, p1); (2000, p2); (3400, p3)] /\ for_colour (mkRGB 200 0 0) p0 /\
    p1 = control_pkt 1 5 0 0 255 /\ p2 = control_pkt 2 5 0 0 255 /\ p3 = control_pkt 3 5 0 0 255).
  { do 4 eexists. split; [vm_compute; reflexivity|]. split; [|repeat split; vm_compute; reflexivity].
    unfold for_colour, asks_for_colour, wf_packet. cbn. repeat split; try lia; try (unfold is_byte; lia);
      repeat (apply Forall_cons; [unfold is_byte; lia|]); apply Forall_nil. }
  destruct Ea as (p0 & p1 & p2 & p3 & Ea & Fr & E1 & E2 & E3).
  assert (X0 : [Z0; A; B; C; D; F; G; HH; II; JJ; KK; LL] = n_past w 0%nat ++ calls_at 0 tr) by (vm_compute; reflexivity).
  assert (X1 : [PP; Q; R; S; T; U; V; Y] = n_past w 1%nat ++ calls_at 1 tr) by (vm_compute; reflexivity).
  rewrite X0 in H0. rewrite X1 in H1. subst tr.
  split; [constructor|].
  { intros [|[|i]].
    - split; [eexists; exact H0|]. rewrite <- X0. intros x p I K. repeat (destruct I as [<-|I]; [discriminate K|]). destruct I.
    - split; [eexists; exact H1|]. rewrite <- X1. intros x p I K. repeat (destruct I as [<-|I]; [discriminate K|]). destruct I.
    - split; [eexists; exact H2|]. intros x p []. }
  { intros a i u b j v c E.
    repeat (destruct a as [|? a]; [injection E as <- <- E;
       repeat (destruct b as [|? b]; [injection E as <- <- E; vm_compute; congruence|injection E as _ E]);
       try (destruct b; discriminate E)|injection E as _ E]); destruct a; discriminate E. }
  { intros i ev I. repeat (destruct I as [I|I]; [injection I as <- <-; split; [lia|vm_compute; congruence]|]). destruct I. }
  { intros [|[|i]] ev I; [destruct I as [<-|[<-|[]]]; vm_compute; congruence|destruct I as [<-|[]]; vm_compute; congruence|destruct I]. }
  { intros [|[|i]] L; [rewrite <- X0|rewrite <- X1|lia]; (split; [reflexivity|]); intros x I; repeat (destruct I as [<-|I]; [reflexivity|]); destruct I. }
  { intros i ev I _. repeat (destruct I as [I|I]; [injection I as <- <-; split; reflexivity|]). destruct I. }
  { intros i ev q I _ C0. repeat (destruct I as [I|I]; [injection I as <- <-; discriminate C0|]). destruct I. }
  { split; [|split].
    - repeat (apply Forall_cons; [unfold byte_rgb, is_byte; cbn; lia|]). apply Forall_nil.
    - intros a y b z d E.
      repeat (destruct a as [|? a]; [injection E as <- E;
       repeat (destruct b as [|? b]; [injection E as <- E; vm_compute; congruence|injection E as _ E]);
       try (destruct b; discriminate E)|injection E as _ E]); destruct a; discriminate E.
    - intros y I. repeat (destruct I as [<-|I]; [unfold wrap; cbn; lia|]). destruct I. }
  { lia. }
  { intros t c I L. destruct I as [I|I]; [injection I as <- <-; lia|]. repeat (destruct I as [I|I]; [injection I as <- <-; reflexivity|]). destruct I. }
  { intros u L L2.
    assert (X : u < 8100 \/ 8100 <= u < 8600 \/ 8600 <= u < 9100 \/ 9100 <= u < 9500 \/ 9500 <= u < 10000 \/ 10000 <= u < 10500 \/ 10500 <= u < 10900 \/ 10900 <= u) by lia.
    destruct X as [X|[X|[X|[X|[X|[X|[X|X]]]]]]];
      [exists (600, mkRGB 0 0 255)|exists (1100, mkRGB 0 0 255)|exists (1600, mkRGB 0 0 255)|exists (2000, mkRGB 0 0 255)
      |exists (2500, mkRGB 0 0 255)|exists (3000, mkRGB 0 0 255)|exists (3400, mkRGB 0 0 255)|exists (3900, mkRGB 0 0 255)];
      (split; [unfold xs; cbn [In]; auto 40|cbn [fst]; lia]). }
  { intros s p i I Ni L L2. rewrite Ea in I. destruct i as [|[|i]]; [| |lia];
    (destruct I as [I|[I|[I|[I|[]]]]]; injection I as <- <-; [exfalso; lia|..]; subst;
     let go X := (eexists X, _; split; [cbn [In]; auto 40|]; split; [split; [reflexivity|left; reflexivity]|]; split; [split; reflexivity|vm_compute; split; congruence]) in
     first [go B|go HH|go KK|go Q|go U|go Y]). }
  { intros a i ev b p E [Ca Fw] Tp L. rewrite Ea.
    repeat (destruct a as [|? a]; [injection E as <- <- E; first [discriminate Ca|injection Ca as <-; cbn in Fw;
       first [exfalso; intuition discriminate|idtac]];
       first [exfalso; unfold about_effects in Tp; cbn in Tp; lia
         |left; eexists 0%nat, G, _; split; [discriminate|]; split; [cbn [In]; auto 40|]; split; [eexists; left; reflexivity|]; split; [split; reflexivity|vm_compute; split; congruence]
         |right; eexists _, p1; split; [cbn [In]; auto 40|]; split; [subst; split; reflexivity|vm_compute; split; congruence]
         |right; eexists _, p2; split; [cbn [In]; auto 40|]; split; [subst; split; reflexivity|vm_compute; split; congruence]
         |right; eexists _, p3; split; [cbn [In]; auto 40|]; split; [subst; split; reflexivity|vm_compute; split; congruence]]
       |injection E as <- E]); destruct a; discriminate E. }
  split; [lia|]. split; [reflexivity|]. split; [exact H0|]. split; [exact H1|]. rewrite Ea.
  split; [exists p0; split; [left; reflexivity|exact Fr]|reflexivity].
Qed.
