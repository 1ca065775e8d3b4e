(** Networks that meet, when packets get lost and clocks differ: C146. *)
From Coq Require Import ZArith Lia List Bool.
From Coq Require Import ZifyBool.
From Verif Require Import CInt CIntFacts Packet SpecPacket PacketFacts NetMgr NetHist SpecNet NetFacts Fastled Palette Device LedMgr SpecLed Effects SpecEffect Show ShowFacts PropShow Rsm RsmStep RsmEval RsmHist SpecRsm RsmFacts RsmTime RoleFacts RsmRun EffectFacts PropRole PropHeartbeat PropEffect PropHold PropApi PropPair PropNetTime PropNetwork PropOneMaster PropCatchUp PropInStep PropStartUp PropDrift Settled PropLossy.
Import ListNotations.
Open Scope Z_scope.
Ltac Zify.zify_post_hook ::= Z.div_mod_to_equations.

(** A claim answers a heartbeat. *)
Lemma claim_answers e t0 h ev q : history e t0 (h ++ [ev]) -> api_ok (h ++ [ev]) -> originated ev q -> ptype q = 1 ->
  exists p, accepted ev p /\ ptype p = 0.
Proof.
  intros [n H] A (s & I) P. apply hist_last in H as (H & -> & G & O & L1 & L2 & S).
  apply api_ok_last in A as [A Ap]. pose proof (effect_type_inv _ _ _ _ H A) as E.
  pose proof (fun p => step_accepted e ev p S) as SA.
  destruct ev as [t o n n' out]; proj.
  destruct S as [inc out n' T|r R|v|v]; proj; try (destruct I; fail).
  - destruct T; cbn in I;
    repeat (destruct I as [I|I]; [inversion I; subst; clear I|]); try destruct I;
    proj; try (exfalso; cbn in P; unfold SET_EFFECT, HEARTBEAT in *; lia).
    match goal with X : heard n inc = Some ?p |- _ => exists p; split; [apply SA; exists inc; split; [reflexivity|exact X]|assumption] end.
  - destruct I as [I|[]]. inversion I; subst. specialize (Ap r eq_refl). cbn in P. lia.
Qed.

Section Meeting.
Variables (w : network) (clk : nat -> Z -> Z) (N m : nat) (tr : timed) (g stop D Gap : Z).
Hypothesis ES : in_earshot w clk N m tr g stop D Gap.
Hypothesis PT : patient clk N Gap.

Lemma me_split a i x ev b : tr = a ++ (i, (x, ev)) :: b ->
  exists n, hist (n_env w i) (n_start w i) ((n_past w i ++ calls_at i (untimed a)) ++ [ev]) n /\
    api_ok ((n_past w i ++ calls_at i (untimed a)) ++ [ev]).
Proof.
  intros E. pose proof (es_run _ _ _ _ _ _ _ _ _ ES) as R. rewrite E, untimed_app, untimed_cons in R. apply (run_split _ _ _ _ _ R).
Qed.

Lemma me_no_takeover i x ev : In (i, (x, ev)) tr -> i <> m -> g + Gap < x -> ~ took_over ev.
Proof.
  intros Ii Ne L TO. destruct (es_times _ _ _ _ _ _ _ _ _ ES i x ev Ii) as (Ni & At & Ti).
  destruct (es_hears _ _ _ _ _ _ _ _ _ ES i (x - Gap - 1) Ni Ne ltac:(lia) ltac:(lia)) as (u & c & q & Ic & Ac & Tq & Lc).
  apply (late_takeover w clk N tr stop D (earshot_aired _ _ _ _ _ _ _ _ _ ES) i x ev u c Ii TO Ic); [lia|exists q; split; [exact Ac|left; exact Tq]|].
  destruct PT as [F Five]. specialize (Five i (x - Gap) Ni). replace (x - Gap + Gap) with x in Five by lia.
  specialize (F i (x - Gap) u Ni ltac:(lia)). lia.
Qed.

Lemma me_order a b i x ev j y v : tr = a ++ b -> In (i, (x, ev)) a -> In (j, (y, v)) b -> x <= y.
Proof.
  intros E I J. apply in_split in I as (a1 & a2 & ->). apply in_split in J as (b1 & b2 & ->).
  apply (es_ordered _ _ _ _ _ _ _ _ _ ES a1 i x ev (a2 ++ b1) j y v b2). rewrite E, <- !app_assoc. cbn. rewrite <- ?app_assoc. reflexivity.
Qed.

(** At time x0 nobody but perhaps m is master. *)
Variables (x0 : Z) (pre0 post0 : timed).
Hypothesis E0 : tr = pre0 ++ post0.
Hypothesis X0 : g + Gap <= x0.
Hypothesis Bef0 : forall i x ev, In (i, (x, ev)) pre0 -> x <= x0.
Hypothesis Aft0 : forall i x ev, In (i, (x, ev)) post0 -> x0 < x.
Hypothesis Sl0 : forall i n, (i < N)%nat -> i <> m ->
  hist (n_env w i) (n_start w i) (n_past w i ++ calls_at i (untimed pre0)) n -> GetCurrentState n = Slave.

Lemma me_slaves a : forall b, post0 = a ++ b ->
  (forall i x ev, In (i, (x, ev)) a -> i <> m -> role_before ev = Slave /\ role_after ev = Slave) /\
  (forall i n, (i < N)%nat -> i <> m -> hist (n_env w i) (n_start w i) (n_past w i ++ calls_at i (untimed (pre0 ++ a))) n -> GetCurrentState n = Slave).
Proof.
  induction a as [|[j [x ev]] a IH] using rev_ind; intros b E.
  - split; [intros ? ? ? []|]. intros i n Ni Ne H. rewrite app_nil_r in H. eauto.
  - rewrite <- app_assoc in E. cbn [app] in E. destruct (IH _ E) as [Q1 Q2]. clear IH.
    assert (Et : tr = (pre0 ++ a) ++ (j, (x, ev)) :: b) by (rewrite E0, E, <- app_assoc; reflexivity).
    assert (Ij : In (j, (x, ev)) tr) by (rewrite Et; apply in_or_app; right; left; reflexivity).
    assert (Nj : (j < N)%nat) by apply (es_times _ _ _ _ _ _ _ _ _ ES j x ev Ij).
    assert (Lx : x0 < x) by (apply (Aft0 j x ev); rewrite E; apply in_or_app; right; left; reflexivity).
    destruct (me_split _ _ _ _ _ Et) as (n & H & _). apply hist_last in H as (H & _).
    assert (R : j <> m -> role_before ev = Slave /\ role_after ev = Slave).
    { intros Ne. assert (Rb : role_before ev = Slave) by (apply (Q2 j _ Nj Ne H)). split; [exact Rb|].
      destruct (role_after ev) eqn:Ra; [reflexivity|exfalso]. apply (me_no_takeover j x ev Ij Ne); [lia|split; assumption]. }
    split.
    + intros i y u I Ne. apply in_app_or in I as [I|[I|[]]]; [eauto|]. inversion I; subst. auto.
    + intros i n' Ni Ne Hi. rewrite app_assoc, untimed_app, calls_at_app in Hi. cbn [untimed map fst snd] in Hi.
      destruct (PeanoNat.Nat.eq_dec i j) as [->|Nij].
      * rewrite calls_at_one, app_assoc in Hi. apply hist_last in Hi as (_ & -> & _). apply (R Ne).
      * rewrite (calls_at_other _ _ _ Nij), app_nil_r in Hi. eauto.
Qed.

Lemma me_late i x ev : In (i, (x, ev)) tr -> x0 < x -> In (i, (x, ev)) post0.
Proof.
  intros I L. rewrite E0 in I. apply in_app_or in I as [I|I]; [|exact I]. specialize (Bef0 i x ev I). lia.
Qed.

(** What the others send from then on are orders only. *)
Lemma me_orders k y c q : In (k, (y, c)) tr -> k <> m -> x0 < y -> originated c q -> ~ life_sign q.
Proof.
  intros I Ne L O Lq. destruct (proj1 (me_slaves post0 [] (eq_sym (app_nil_r post0))) k y c (me_late _ _ _ I L) Ne) as [A1 A2].
  apply in_split in I as (a & b & E). destruct (me_split _ _ _ _ _ E) as (n & H & Ap).
  destruct (slave_origin _ _ _ _ q (ex_intro _ _ H) A1 A2 O) as (r & Cr & (Sr & _) & _).
  assert (ptype r = 2 \/ ptype r = 3) by (apply (Ap c r); [apply in_or_app; right; left; reflexivity|exact Cr]).
  unfold life_sign in Lq. lia.
Qed.

Variables (pre rest : timed) (g1 : Z) (m1 : event).
Hypothesis D0 : 0 <= D.
Hypothesis G0 : 0 <= Gap.
Hypothesis Slow : forall x, clk m (x + D) <= clk m x + 1000.
Hypothesis E1 : tr = pre ++ (m, (g1, m1)) :: rest.
Hypothesis Own1 : own_heartbeat m1.
Hypothesis L1 : x0 + 2 * D < g1.

(** No heartbeat or claim is under way when m sends its heartbeat. *)
Lemma me_air_is_free k y c q : In (k, (y, c)) pre -> originated c q -> life_sign q -> y + D < g1.
Proof.
  intros I O Lq. destruct (Z_lt_ge_dec (y + D) g1) as [|Ge]; [assumption|exfalso].
  assert (It : In (k, (y, c)) tr) by (rewrite E1; apply in_or_app; left; exact I).
  destruct (PeanoNat.Nat.eq_dec k m) as [->|Ne]; [|apply (me_orders k y c q It Ne ltac:(lia) O Lq)].
  apply in_split in I as (a & b & Ep).
  assert (Ec : tr = a ++ (m, (y, c)) :: (b ++ (m, (g1, m1)) :: rest)) by (rewrite E1, Ep, <- app_assoc; reflexivity).
  destruct Lq as [Tq|Tq].
  - destruct (me_split _ _ _ _ _ E1) as (n & H & Ap). rewrite Ep in H, Ap.
    assert (Eh : (n_past w m ++ calls_at m (untimed (a ++ (m, (y, c)) :: b))) ++ [m1] =
      (n_past w m ++ calls_at m (untimed a)) ++ c :: calls_at m (untimed b) ++ [m1]).
    { rewrite untimed_app, untimed_cons, calls_at_app, <- !app_assoc. f_equal. f_equal.
      unfold calls_at. cbn. rewrite PeanoNat.Nat.eqb_refl. reflexivity. }
    rewrite Eh in H, Ap.
    destruct (es_times _ _ _ _ _ _ _ _ _ ES m y c It) as (Nm & Ac & _).
    assert (I1 : In (m, (g1, m1)) tr) by (rewrite E1; apply in_or_app; right; left; reflexivity).
    destruct (es_times _ _ _ _ _ _ _ _ _ ES m g1 m1 I1) as (_ & A1 & _).
    pose proof (ai_wrap1 w clk N tr stop D (earshot_aired _ _ _ _ _ _ _ _ _ ES) m pre g1 m1 rest Nm E1) as W. rewrite Ep, Eh in W.
    assert (Oc : own_heartbeat c) by (exists q; split; assumption).
    pose proof (C20_heartbeats_apart _ _ _ _ _ _ (ex_intro _ _ H) Ap W Oc Own1) as Far.
    pose proof (pt_forward _ _ _ PT m g1 (y + D) Nm ltac:(lia)). specialize (Slow y). lia.
  - destruct (me_split _ _ _ _ _ Ec) as (n & H & Ap).
    destruct (claim_answers _ _ _ _ q (ex_intro _ _ H) Ap O Tq) as (p & Acp & Tp).
    destruct (es_prompt _ _ _ _ _ _ _ _ _ ES _ _ _ _ _ p Ec Acp (or_introl Tp)) as (k & y' & c' & q' & Nk & Iy & Oy & (Sy & _) & Ly).
    apply (me_orders k y' c' q'); [rewrite Ec; apply in_or_app; left; exact Iy|exact Nk|lia|exact Oy|]. left. lia.
Qed.

(** From then on the network is one of those of C141. *)
Lemma me_settled : in_earshot (later w (untimed pre)) clk N m ((m, (g1, m1)) :: rest) g1 stop D Gap.
Proof.
  set (tr2 := (m, (g1, m1)) :: rest) in *.
  assert (Sub : forall z, In z tr2 -> In z tr) by (intros z I; rewrite E1; apply in_or_app; auto).
  assert (Past : forall i x ev, In (i, (x, ev)) pre -> x <= g1).
  { intros i x ev I. apply (me_order pre tr2 i x ev m g1 m1 E1 I). left; reflexivity. }
  constructor.
  - apply later_run. rewrite <- untimed_app. rewrite <- E1. apply ES.
  - intros a i x u b k y v c E2. apply (es_ordered _ _ _ _ _ _ _ _ _ ES (pre ++ a) i x u b k y v c). rewrite E1, <- app_assoc. f_equal. exact E2.
  - intros i x ev I. apply (es_times _ _ _ _ _ _ _ _ _ ES i x ev (Sub _ I)).
  - intros i Ni. cbn [later n_start n_past]. rewrite <- app_assoc, <- calls_at_app, <- untimed_app. rewrite <- E1. apply (es_wrap _ _ _ _ _ _ _ _ _ ES i Ni).
  - intros i x Ni Ne Gx Ux.
    destruct (es_hears _ _ _ _ _ _ _ _ _ ES i x Ni Ne ltac:(lia) Ux) as (y & c & q & Iy & Ac & Tq & Ly).
    exists y, c, q. split; [|auto]. rewrite E1 in Iy. apply in_app_or in Iy as [Iy|Iy]; [|exact Iy].
    specialize (Past i y c Iy). lia.
  - intros a i x ev b p E2 Ac Lp.
    destruct (es_prompt _ _ _ _ _ _ _ _ _ ES (pre ++ a) i x ev b p ltac:(rewrite E1, <- app_assoc; f_equal; exact E2) Ac Lp) as (k & y & c & q & Nk & Iy & Oy & Sy & Ly).
    exists k, y, c, q. split; [exact Nk|]. split; [|auto].
    apply in_app_or in Iy as [Iy|Iy]; [exfalso|exact Iy].
    assert (Lq : life_sign q) by (unfold life_sign in *; destruct Sy as [Sy _]; lia).
    pose proof (me_air_is_free k y c q Iy Oy Lq).
    assert (Ii : In (i, (x, ev)) tr2) by (rewrite E2; apply in_or_app; right; left; reflexivity).
    assert (g1 <= x); [|lia]. destruct Ii as [Ii|Ii]; [inversion Ii; lia|].
    apply in_split in Ii as (b1 & b2 & Er). apply (es_ordered _ _ _ _ _ _ _ _ _ ES pre m g1 m1 b1 i x ev b2). rewrite E1. unfold tr2. rewrite Er. reflexivity.
Qed.

Lemma me_before : exists a, pre = pre0 ++ a /\ post0 = a ++ (m, (g1, m1)) :: rest.
Proof.
  assert (I1 : In (m, (g1, m1)) post0).
  { apply me_late; [rewrite E1; apply in_or_app; right; left; reflexivity|lia]. }
  assert (C : forall (p q p' q' : timed), p ++ q = p' ++ q' -> (exists a, p' = p ++ a /\ q = a ++ q') \/ (exists a z, p = p' ++ z :: a /\ q' = (z :: a) ++ q)).
  { induction p as [|z p IH]; intros q p' q' E; [left; exists p'; auto|].
    destruct p' as [|z' p']; [right; exists p, z; cbn in *; split; [reflexivity|symmetry; exact E]|].
    cbn in E. injection E as <- E. destruct (IH _ _ _ E) as [(a & -> & ->)|(a & y & -> & ->)]; [left; exists a|right; exists a, y]; auto. }
  rewrite E0 in E1. destruct (C _ _ _ _ E1) as [(a & A1 & A2)|(a & z & A1 & A2)]; [exists a; auto|exfalso].
  injection A2 as <- _. specialize (Bef0 m g1 m1 ltac:(rewrite A1; apply in_or_app; right; left; reflexivity)). lia.
Qed.

Lemma me_slaves_then i n : (i < N)%nat -> i <> m ->
  hist (n_env (later w (untimed pre)) i) (n_start (later w (untimed pre)) i) (n_past (later w (untimed pre)) i) n -> GetCurrentState n = Slave.
Proof.
  intros Ni Ne H. destruct me_before as (a & -> & Ea). apply (proj2 (me_slaves a _ Ea) i n Ni Ne H).
Qed.

Lemma me_quiet_then i x ev : In (i, (x, ev)) ((m, (g1, m1)) :: rest) -> i <> m -> ~ took_over ev.
Proof.
  intros I Ne TO. destruct me_before as (a & _ & Ea).
  assert (Ip : In (i, (x, ev)) post0) by (rewrite Ea; apply in_or_app; right; exact I).
  destruct (proj1 (me_slaves post0 [] (eq_sym (app_nil_r post0))) i x ev Ip Ne) as [_ R]. destruct TO as [_ TO]. congruence.
Qed.
End Meeting.

(** ** C146 *)

(** There may be any number of masters.  No node other than m goes without a heartbeat, from
    whomever, for more than Gap ms.  From Gap ms after the beginning on nobody but m becomes master: there
    can only be fewer masters. *)
Theorem C146_masters_only_lose w clk N m tr g stop D Gap :
  in_earshot w clk N m tr g stop D Gap -> patient clk N Gap ->
  forall i x ev, In (i, (x, ev)) tr -> i <> m -> g + Gap < x -> ~ took_over ev.
Proof. exact (me_no_takeover w clk N m tr g stop D Gap). Qed.
Print Assumptions C146_masters_only_lose.

(** A node that stays master beside m has to win an election in every interval of Gap ms: it
    draws a number larger than the id of a heartbeat. *)
Theorem C146_rival_has_to_win_every_time w clk N m tr g stop D Gap j :
  in_earshot w clk N m tr g stop D Gap -> (j < N)%nat -> j <> m ->
  (forall y c, In (j, (y, c)) tr -> role_before c = Master /\ role_after c = Master) ->
  forall u, g <= u -> u + Gap < stop ->
  exists y c q, In (j, (y, c)) tr /\ u < y <= u + Gap /\ accepted c q /\ ptype q = 0 /\
    pid q < election_draw (plat (n_env w j)) (draw (n_env w j) (rng (before c))).
Proof.
  intros ES Nj Ne RJ u Lu Uu.
  destruct (es_hears _ _ _ _ _ _ _ _ _ ES j u Nj Ne Lu Uu) as (y & c & q & Ic & Ac & Tq & Ly).
  exists y, c, q. split; [exact Ic|]. split; [exact Ly|]. split; [exact Ac|]. split; [exact Tq|].
  destruct (RJ y c Ic) as [R1 R2]. apply in_split in Ic as (a & b & E).
  destruct (me_split w clk N m tr g stop D Gap ES _ _ _ _ _ E) as (n & H & _).
  destruct (C22_election _ _ _ _ _ (ex_intro _ _ H) Ac Tq R1) as [_ Lose].
  destruct (Z_lt_ge_dec (pid q) (election_draw (plat (n_env w j)) (draw (n_env w j) (rng (before c))))) as [|Ge]; [assumption|].
  destruct (Lose ltac:(lia)) as [Q _]. congruence.
Qed.
Print Assumptions C146_rival_has_to_win_every_time.

(** Once all others have lost (they are slaves at time x0), and m sends a heartbeat more
    than 2 D ms later, m is the only master from then on, and the network is one of those of
    C141.  (While D ms pass, the clock of m counts at most a second.) *)
Theorem C146_the_winner_is_the_only_master w clk N m tr g stop D Gap x0 pre0 post0 pre g1 m1 rest :
  in_earshot w clk N m tr g stop D Gap -> patient clk N Gap ->
  tr = pre0 ++ post0 -> g + Gap <= x0 ->
  (forall i x ev, In (i, (x, ev)) pre0 -> x <= x0) -> (forall i x ev, In (i, (x, ev)) post0 -> x0 < x) ->
  (forall i n, (i < N)%nat -> i <> m ->
     hist (n_env w i) (n_start w i) (n_past w i ++ calls_at i (untimed pre0)) n -> GetCurrentState n = Slave) ->
  0 <= D -> 0 <= Gap -> (forall x, clk m (x + D) <= clk m x + 1000) ->
  tr = pre ++ (m, (g1, m1)) :: rest -> own_heartbeat m1 -> x0 + 2 * D < g1 ->
  (forall i x ev, In (i, (x, ev)) ((m, (g1, m1)) :: rest) -> role_after ev = if Nat.eqb i m then Master else Slave) /\
  in_earshot (later w (untimed pre)) clk N m ((m, (g1, m1)) :: rest) g1 stop D Gap.
Proof.
  intros ES PT E0 X0 B0 A0 Sl0 D0 G0 Slow E1 Own1 L1.
  pose proof (me_settled w clk N m tr g stop D Gap ES PT x0 pre0 post0 E0 X0 B0 A0 Sl0 pre rest g1 m1) as ES2.
  feed ES2. split; [|exact ES2].
  apply (C141_one_master _ clk N m m1 rest g1 stop D Gap ES2 PT Own1).
  - intros i n Ni Ne H. eapply (me_slaves_then w clk N m tr g stop D Gap ES PT x0 pre0 post0); eauto.
  - intros i x ev I Ne _. eapply (me_quiet_then w clk N m tr g stop D Gap ES PT x0 pre0 post0); eauto.
Qed.
Print Assumptions C146_the_winner_is_the_only_master.

(** When m has shown K since a time x after its heartbeat, and nobody has ordered anything
    else, every node that has heard an announcement since x + D draws, on any strip, the picture m draws at
    its own network time L ms earlier: also the nodes that followed another master. *)
Corollary C146_one_animation w clk N m tr g stop D Gap x0 pre0 post0 pre g1 m1 rest E x K i n nm :
  in_earshot w clk N m tr g stop D Gap -> patient clk N Gap ->
  tr = pre0 ++ post0 -> g + Gap <= x0 ->
  (forall i x ev, In (i, (x, ev)) pre0 -> x <= x0) -> (forall i x ev, In (i, (x, ev)) post0 -> x0 < x) ->
  (forall i n, (i < N)%nat -> i <> m ->
     hist (n_env w i) (n_start w i) (n_past w i ++ calls_at i (untimed pre0)) n -> GetCurrentState n = Slave) ->
  0 <= D -> 0 <= Gap -> (forall x, clk m (x + D) <= clk m x + 1000) ->
  tr = pre ++ (m, (g1, m1)) :: rest -> own_heartbeat m1 -> x0 + 2 * D < g1 ->
  accurate clk N (Gap + D) E -> g1 + Gap < stop -> about_effects K -> g1 <= x -> news_prompt tr (x + D) D ->
  (forall y ev, In (m, (y, ev)) tr -> x < y -> says (GetSetEffect (after ev)) K) -> says (GetSetEffect nm) K ->
  (forall j y ev q, In (j, (y, ev)) tr -> j <> m -> x < y -> call ev = OSetEffect q -> says q K) ->
  (i < N)%nat -> i <> m ->
  (exists y c q, In (i, (y, c)) tr /\ accepted c q /\ about_effects q /\ x + D < y) ->
  hist (n_env w i) (n_start w i) (n_past w i ++ calls_at i (untimed tr)) n ->
  hist (n_env w m) (n_start w m) (n_past w m ++ calls_at m (untimed tr)) nm ->
  exists L, - (2 * E) <= L <= D + 2 * E /\
    GetNetworkMillis (u32 (clk i stop)) n = u32 (GetNetworkMillis (u32 (clk m stop)) nm - L) /\
    exists L', - (2 * E) <= L' <= D + 2 * E /\
    forall fl md d o o' delta buf,
    o = o' \/ (ptype K = 2 -> ~ per_node (nth 0 (pdata K) 0 mod 35)) ->
    Show Arduino fl md d o (GetSetEffect n) (fun r => GetNetworkMillis (u32 (clk i stop + delta r)) n) buf =
    Show Arduino fl md d o' (GetSetEffect nm) (fun r => GetNetworkMillis (u32 (clk m stop - L' + delta r)) nm) buf.
Proof.
  intros ES PT E0 X0 B0 A0 Sl0 D0 G0 Slow E1 Own1 L1 Acc Late AK Gx NP Kx Sm NoSet Ni Ne (y & c & q & Iy & Ac & Aq & Ly) Hn Hm.
  destruct (C146_the_winner_is_the_only_master w clk N m tr g stop D Gap x0 pre0 post0 pre g1 m1 rest ES PT E0 X0 B0 A0 Sl0 D0 G0 Slow E1 Own1 L1) as [_ ES2].
  set (tr2 := (m, (g1, m1)) :: rest) in *.
  assert (Past : forall k z u, In (k, (z, u)) pre -> z <= g1).
  { intros k z u I. apply (me_order w clk N m tr g stop D Gap ES pre tr2 k z u m g1 m1 E1 I). left; reflexivity. }
  assert (Sub : forall z, In z tr2 -> In z tr) by (intros z I; rewrite E1; apply in_or_app; auto).
  assert (In2 : forall k z u, In (k, (z, u)) tr -> g1 < z -> In (k, (z, u)) tr2).
  { intros k z u I L. rewrite E1 in I. apply in_app_or in I as [I|I]; [|exact I]. specialize (Past k z u I). lia. }
  assert (Calls : forall k, n_past (later w (untimed pre)) k ++ calls_at k (untimed tr2) = n_past w k ++ calls_at k (untimed tr)).
  { intros k. cbn [later n_past]. rewrite <- app_assoc, <- calls_at_app, <- untimed_app, <- E1. reflexivity. }
  assert (Sl : forall k n0, (k < N)%nat -> k <> m -> hist (n_env (later w (untimed pre)) k) (n_start (later w (untimed pre)) k) (n_past (later w (untimed pre)) k) n0 -> GetCurrentState n0 = Slave).
  { intros k n0 Nk Nk2 H. eapply (me_slaves_then w clk N m tr g stop D Gap ES PT x0 pre0 post0); eauto. }
  assert (NoR : forall k z u, In (k, (z, u)) tr2 -> k <> m -> z <= g1 + Gap -> ~ took_over u).
  { intros k z u I Nk _. eapply (me_quiet_then w clk N m tr g stop D Gap ES PT x0 pre0 post0); eauto. }
  rewrite <- Calls in Hn, Hm.
  destruct (C141_times_stay_together (later w (untimed pre)) clk N m m1 rest g1 stop D Gap E ES2 PT Own1 Sl NoR Acc Late i n nm Ni Ne Hn Hm) as (L & Lb & Q).
  exists L. split; [exact Lb|]. split; [exact Q|].
  apply (C141_one_animation (later w (untimed pre)) clk N m m1 rest g1 stop D Gap E x (y - (x + D)) K i n nm ES2 PT Own1 Sl NoR Acc); auto; fold tr2.
  - intros a k z u b p E2 Lz Au Pu.
    destruct (NP (pre ++ a) k z u b p ltac:(rewrite E1, <- app_assoc; f_equal; exact E2) Lz Au Pu) as (k' & y' & c' & q' & Nk & Iy' & Oy' & Sy' & Ly').
    exists k', y', c', q'. split; [exact Nk|]. split; [|auto].
    apply in_app_or in Iy' as [Iy'|Iy']; [|exact Iy']. specialize (Past k' y' c' Iy'). lia.
  - intros z u I L0. apply (Kx z u (Sub _ I) L0).
  - intros j z u r I. apply (NoSet j z u r (Sub _ I)).
  - exists y, c, q. split; [apply In2; [exact Iy|lia]|]. split; [exact Ac|]. split; [exact Aq|lia].
Qed.
Print Assumptions C146_one_animation.

Ltac find := repeat match goal with |- In ?x (?x :: _) => left; reflexivity | |- In _ (_ :: _) => right end.

(** Non-vacuous: node 1, whose clock runs one percent fast, is master when node 0 becomes
    master, too, at 7000.  Node 0 wins an election; node 1 misses the heartbeat of 7000 and the
    claim, and loses against the heartbeat of 8100.  It also misses the announcement of 9050. *)
Example C146_example : exists w tr pre0 post0 pre m1 rest n nm,
  let K := effect_pkt 0 9 3 2 in
  in_earshot w fast_clock 2 0 tr 7000 11400 100 1300 /\ patient fast_clock 2 1300 /\ accurate fast_clock 2 (1300 + 100) 15 /\
  (forall n, hist (n_env w 1%nat) (n_start w 1%nat) (n_past w 1%nat) n -> GetCurrentState n = Master) /\
  (exists ev, In (0%nat, (7000, ev)) tr /\ took_over ev) /\
  tr = pre0 ++ post0 /\
  (forall i x ev, In (i, (x, ev)) pre0 -> x <= 8300) /\ (forall i x ev, In (i, (x, ev)) post0 -> 8300 < x) /\
  (forall i n, (i < 2)%nat -> i <> 0%nat ->
     hist (n_env w i) (n_start w i) (n_past w i ++ calls_at i (untimed pre0)) n -> GetCurrentState n = Slave) /\
  (forall x, fast_clock 0 (x + 100) <= fast_clock 0 x + 1000) /\
  tr = pre ++ (0%nat, (9200, m1)) :: rest /\ own_heartbeat m1 /\
  about_effects K /\ news_prompt tr (9200 + 100) 100 /\
  (forall y ev, In (0%nat, (y, ev)) tr -> 9200 < y -> says (GetSetEffect (after ev)) K) /\ says (GetSetEffect nm) K /\
  (forall i y ev q, In (i, (y, ev)) tr -> i <> 0%nat -> 9200 < y -> call ev = OSetEffect q -> says q K) /\
  (exists y c q, In (1%nat, (y, c)) tr /\ accepted c q /\ about_effects q /\ 9200 + 100 < y) /\
  hist (n_env w 1%nat) (n_start w 1%nat) (n_past w 1%nat ++ calls_at 1 (untimed tr)) n /\
  hist (n_env w 0%nat) (n_start w 0%nat) (n_past w 0%nat ++ calls_at 0 (untimed tr)) nm /\
  GetEffectIndex n = 9 /\ GetNetworkMillis (u32 (fast_clock 1 11400)) n = 11361 /\ GetNetworkMillis (u32 (fast_clock 0 11400)) nm = 11400.
Proof.
  run_as H0 (env0 Arduino) 0 [(7, OTick (Some (effect_pkt 50 9 3 2))); (7000, OTick None); (7040, OTick (Some (heartbeat_pkt 2 7580)));
    (7900, OTick None); (8100, OTick None); (9050, OTick None); (9200, OTick None); (10100, OTick None); (10300, OTick None);
    (11100, OTick None); (11290, OTick None)].
  run_as H1 (env_const Arduino 0%N) 0 [(6400, OTick None); (7580, OTick None);
    (8731, OTick (Some (heartbeat_pkt 75 8100))); (9842, OTick (Some (heartbeat_pkt 109 9200)));
    (10953, OTick (Some (heartbeat_pkt 126 10300))); (11761, OTick (Some (effect_pkt 143 9 3 2)))].
  run_as H2 (env0 Arduino) 0 (@nil (Z * op)).
  match type of H0 with hist _ _ [?z; ?a; ?b; ?c; ?d; ?f; ?g; ?h; ?i; ?j; ?k] ?nm =>
  match type of H1 with hist _ _ [?p; ?o; ?q; ?r; ?s; ?t] ?n =>
    set (Z0 := z) in *; set (A := a) in *; set (B := b) in *; set (C := c) in *; set (D := d) in *; set (F := f) in *; set (G := g) in *;
    set (HH := h) in *; set (II := i) in *; set (JJ := j) in *; set (KK := k) in *;
    set (PP := p) in *; set (OO := o) in *; set (Q := q) in *; set (R := r) in *; set (S := s) in *; set (T := t) in *;
    set (w := mkNetwork (fun w0 => match w0 with 1%nat => env_const Arduino 0%N | _ => env0 Arduino end) (fun _ => 0)
      (fun _ => 0) (fun w0 => match w0 with 0%nat => [Z0] | 1%nat => [PP] | _ => [] end));
    exists w,
      [(0%nat, (7000, A)); (1%nat, (7010, OO)); (0%nat, (7040, B)); (0%nat, (7900, C)); (0%nat, (8100, D)); (1%nat, (8150, Q));
       (0%nat, (9050, F)); (0%nat, (9200, G)); (1%nat, (9250, R)); (0%nat, (10100, HH)); (0%nat, (10300, II)); (1%nat, (10350, S));
       (0%nat, (11100, JJ)); (1%nat, (11150, T)); (0%nat, (11290, KK))],
      [(0%nat, (7000, A)); (1%nat, (7010, OO)); (0%nat, (7040, B)); (0%nat, (7900, C)); (0%nat, (8100, D)); (1%nat, (8150, Q))],
      [(0%nat, (9050, F)); (0%nat, (9200, G)); (1%nat, (9250, R)); (0%nat, (10100, HH)); (0%nat, (10300, II)); (1%nat, (10350, S));
       (0%nat, (11100, JJ)); (1%nat, (11150, T)); (0%nat, (11290, KK))],
      [(0%nat, (7000, A)); (1%nat, (7010, OO)); (0%nat, (7040, B)); (0%nat, (7900, C)); (0%nat, (8100, D)); (1%nat, (8150, Q)); (0%nat, (9050, F))],
      G,
      [(1%nat, (9250, R)); (0%nat, (10100, HH)); (0%nat, (10300, II)); (1%nat, (10350, S));
       (0%nat, (11100, JJ)); (1%nat, (11150, T)); (0%nat, (11290, KK))], n, nm
  end end.
  cbv zeta. split; [constructor|].
  { intros [|[|i]].
    - split; [eexists; exact H0|]. intros x p I K. repeat (destruct I as [<-|I]; [discriminate K|]). destruct I.
    - split; [eexists; exact H1|]. intros x p I K. repeat (destruct I as [<-|I]; [discriminate K|]). destruct I.
    - split; [eexists; exact H2|]. intros x p []. }
  { intros a i x u b j y v c E.
    repeat (destruct a as [|? a]; [injection E as <- <- <- E;
       repeat (destruct b as [|? b]; [injection E as <- <- <- E; lia|injection E as _ E]);
       try (destruct b; discriminate E)|injection E as _ E]); destruct a; discriminate E. }
  { intros i x ev I. repeat (destruct I as [I|I]; [injection I as <- <- <-; split; [lia|split; [reflexivity|lia]]|]). destruct I. }
  { intros [|[|i]] L; [| |lia]; (split; [reflexivity|]); intros x I; repeat (destruct I as [<-|I]; [reflexivity|]); destruct I. }
  { intros [|[|i]] x Ni Nm L L2; [congruence| |lia].
    assert (X : x < 8150 \/ 8150 <= x < 9250 \/ 9250 <= x) by lia.
    destruct X as [X|[X|X]]; [exists 8150, Q|exists 9250, R|exists 10350, S]; eexists; (split; [find|]);
      (split; [split; [reflexivity|left; reflexivity]|]); (split; [reflexivity|lia]). }
  { intros a i x ev b p E [Ca Fw] Tp.
    repeat (destruct a as [|? a]; [injection E as <- <- <- E; first [discriminate Ca|injection Ca as <-; cbn in Fw;
       first [exfalso; intuition discriminate|idtac]];
       let go k z X := (eexists k, z, X, _; split; [discriminate|]; split; [find|]; split; [eexists; left; reflexivity|]; split; [split; reflexivity|lia]) in
       first [go 1%nat 7010 OO|go 0%nat 8100 D|go 0%nat 9200 G|go 0%nat 10300 II|go 0%nat 11100 JJ]
       |injection E as ? E; subst]); destruct a; discriminate E. }
  split; [constructor; intros [|[|i]]; intros; unfold fast_clock; lia|].
  split; [intros [|[|i]] x y Ni L; unfold fast_clock; lia|].
  split.
  { intros n H. cbn in H. change [PP] with ([] ++ [PP]) in H. apply hist_last in H as (_ & -> & _). reflexivity. }
  split; [exists A; split; [find|split; reflexivity]|].
  split; [reflexivity|].
  split; [intros i x ev I; repeat (destruct I as [I|I]; [injection I as <- <- <-; lia|]); destruct I|].
  split; [intros i x ev I; repeat (destruct I as [I|I]; [injection I as <- <- <-; lia|]); destruct I|].
  split.
  { intros [|[|i]] n L N H; [congruence| |lia].
    change (hist (env_const Arduino 0%N) 0 ([PP; OO] ++ [Q]) n) in H. apply hist_last in H as (_ & -> & _). reflexivity. }
  split; [intros x; unfold fast_clock; lia|].
  split; [reflexivity|].
  split; [eexists; split; [eexists; left; reflexivity|reflexivity]|].
  split; [left; reflexivity|].
  split.
  { intros a i x ev b p E _ [Ca Fw] Tp.
    repeat (destruct a as [|? a]; [injection E as <- <- <- E; first [discriminate Ca|injection Ca as <-; cbn in Fw;
       first [exfalso; intuition discriminate|idtac]];
       let go k z X := (eexists k, z, X, _; split; [discriminate|]; split; [find|]; split; [eexists; left; reflexivity|]; split; [split; reflexivity|lia]) in
       first [go 1%nat 7010 OO|go 0%nat 8100 D|go 0%nat 9200 G|go 0%nat 10300 II|go 0%nat 11100 JJ]
       |injection E as ? E; subst]); destruct a; discriminate E. }
  split.
  { intros y ev I L. repeat (destruct I as [I|I]; [first [discriminate I|injection I as <- <-]; split; reflexivity|]). destruct I. }
  split; [split; reflexivity|].
  split.
  { intros i y ev q I N L C0. repeat (destruct I as [I|I]; [injection I as <- <- <-; discriminate C0|]). destruct I. }
  split.
  { eexists 11150, T, _. split; [find|]. split; [split; [reflexivity|left; reflexivity]|]. split; [left; reflexivity|lia]. }
  split; [exact H1|]. split; [exact H0|]. repeat split.
Qed.
