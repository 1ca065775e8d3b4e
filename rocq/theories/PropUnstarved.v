(** A network without orders does not starve its master: C106. *)
From Coq Require Import ZArith Lia List Bool.
From Coq Require Import ZifyBool.
From Verif Require Import CInt CIntFacts Packet SpecPacket PacketFacts NetMgr NetHist SpecNet NetFacts Fastled Palette Device LedMgr SpecLed Effects SpecEffect Show ShowFacts PropShow Rsm RsmStep RsmEval RsmHist SpecRsm RsmFacts RsmTime RoleFacts RsmRun EffectFacts PropRole PropHeartbeat PropEffect PropHold PropPair PropNetTime PropNetwork PropOneMaster PropCatchUp PropInStep PropStartUp PropPowerUp.
Import ListNotations.
Open Scope Z_scope.
Ltac Zify.zify_post_hook ::= Z.div_mod_to_equations.

(** Like [in_touch], but of node m it is only assumed that its radio is ticked
    every P ms, not that the ticks find no packet. *)
Record in_range (w : network) (N m : nat) (tr : run) (g stop P D : Z) : Prop := mkRange {
  ir_run : is_run w tr;
  ir_ordered : ordered w tr;
  ir_times : forall i ev, In (i, ev) tr -> (i < N)%nat /\ global w i ev <= stop;
  ir_past : forall i ev, In ev (n_past w i) -> global w i ev <= g;
  ir_wrap : forall i, (i < N)%nat -> all_before (wrap - 7000) (n_start w i) (n_past w i ++ calls_at i tr);
  ir_ticks : forall x, g <= x -> x + P < stop ->
    exists y inc, In (m, y) tr /\ call y = OTick inc /\ x < global w m y <= x + P;
  ir_arrive : forall y p i, In (m, y) tr -> originated y p -> ptype p = 0 \/ about_effects p ->
    (i < N)%nat -> i <> m -> global w m y + D < stop ->
    exists c q, In (i, c) tr /\ accepted c q /\ says q p /\ global w m y <= global w i c <= global w m y + D;
  ir_prompt : forall a i ev b p, tr = a ++ (i, ev) :: b -> accepted ev p ->
    exists k y q, k <> i /\ In (k, y) a /\ originated y q /\ says p q /\ global w k y <= global w i ev <= global w k y + D
}.

Lemma never_took_over e t0 past h n : hist e t0 (past ++ h) n ->
  (forall n0, hist e t0 past n0 -> state n0 = Slave) -> (forall ev, In ev h -> ~ took_over ev) ->
  state n = Slave /\ forall ev, In ev h -> role_before ev = Slave /\ role_after ev = Slave.
Proof.
  revert n. induction h as [|ev h IH] using rev_ind; intros n H Sl Nt.
  - rewrite app_nil_r in H. split; [exact (Sl n H)|intros ? []].
  - rewrite app_assoc in H. apply hist_last in H as (H & -> & _).
    destruct (IH _ H Sl) as [I1 I2]; [intros z I; apply Nt; apply in_or_app; auto|].
    assert (Ra : role_after ev = Slave).
    { destruct (role_after ev) eqn:E; [reflexivity|exfalso]. apply (Nt ev); [apply in_or_app; right; left; reflexivity|split; assumption]. }
    split; [exact Ra|]. intros z I. apply in_app_or in I as [I|[<-|[]]]; [auto|]. split; [exact I1|exact Ra].
Qed.

(** As long as everybody is in touch with m, the other nodes are slaves. *)
Lemma others_slave w N m pre t P D : leaderless w N ->
  in_touch w N m pre (ends w m - n_off w m) t P D ->
  (forall i ev q, In (i, ev) pre -> call ev <> OSetEffect q) ->
  0 <= P -> 0 <= D -> 1000 + P + D <= 5000 -> (m < N)%nat ->
  (forall i, (i < N)%nat -> i <> m -> ends w m - n_off w m + P + D < ends w i - n_off w i) ->
  forall k z, In (k, z) pre -> k <> m -> role_before z = Slave /\ role_after z = Slave.
Proof.
  intros Ll IT NoS P0 D0 PD Nm Margin k z Iz Nk.
  pose proof (it_run _ _ _ _ _ _ _ _ IT) as Rp.
  assert (Nk' : (k < N)%nat) by (apply (it_times _ _ _ _ _ _ _ _ IT k z Iz)).
  assert (In_N : forall j u, In (j, u) pre -> (j < N)%nat) by (intros j u Iu; apply (it_times _ _ _ _ _ _ _ _ IT j u Iu)).
  destruct (Z_lt_ge_dec (ends w m - n_off w m + P) t) as [Fs|Fs].
  - destruct (power_up w N m pre t P D Ll IT NoS P0 D0 PD Nm Margin Fs)
      as (pre0 & m0 & rest & E0 & TO & Gb & Sl0 & IT1 & Sl & NoR).
    assert (TH : own_heartbeat m0) by (eapply run_takeover; [exact (it_run _ _ _ _ _ _ _ _ IT1)|left; reflexivity|exact TO]).
    destruct (st_all (later w pre0) N m m0 rest (global w m m0) t P D IT1 eq_refl TH Sl P0 D0 PD NoR _ [] (eq_sym (app_nil_r _)))
      as (RE & _ & _).
    rewrite E0 in Iz. apply in_app_or in Iz as [Iz|Iz].
    + destruct (Sl0 k z Iz) as [Q _]. split; [|exact Q].
      assert (Nt : forall u, In u (calls_at k pre0) -> ~ took_over u).
      { intros u Iu [_ Tu]. apply in_calls_at in Iu. destruct (Sl0 k u Iu) as [Q2 _]. congruence. }
      assert (Rp0 : is_run w pre0) by (rewrite E0 in Rp; apply run_prefix in Rp; exact Rp).
      destruct (Rp0 k) as [[n H] _].
      apply (proj2 (never_took_over _ _ _ _ _ H (fun n0 => Ll k n0 Nk') Nt) z). apply in_calls_at. exact Iz.
    + destruct (RE k z Iz) as [Q1 Q2]. destruct (PeanoNat.Nat.eqb_spec k m); [contradiction|]. auto.
  - destruct (Rp k) as [[n H] _].
    apply (proj2 (never_took_over _ _ _ _ _ H (fun n0 => Ll k n0 Nk') ltac:(idtac; 
      intros u Iu Tu; apply in_calls_at in Iu;
      pose proof (others_wait w pre N Ll Rp In_N (pu_genuine w N m pre t P D IT) m t P D
        (it_ordered _ _ _ _ _ _ _ _ IT) (it_times _ _ _ _ _ _ _ _ IT)
        (it_wrap _ _ _ _ _ _ _ _ IT) P0 D0 PD Margin k u Iu Nk Tu) as Q1;
      cbv beta zeta in Q1; pose proof (proj2 (it_times _ _ _ _ _ _ _ _ IT k u Iu)); lia)) z).
    apply in_calls_at. exact Iz.
Qed.

Section Unstarved.
Variables (w : network) (N m : nat) (tr : run) (stop P D : Z).
Let first i := ends w i - n_off w i.
Hypothesis (Ll : leaderless w N).
Hypothesis (IR : in_range w N m tr (first m) stop P D).
Hypothesis (NoSet : forall i ev q, In (i, ev) tr -> call ev <> OSetEffect q).
Hypothesis (P0 : 0 <= P) (D0 : 0 <= D) (PD : 1000 + P + D <= 5000).
Hypothesis (Nm : (m < N)%nat).
Hypothesis (Margin : forall i, (i < N)%nat -> i <> m -> first m + P + D < first i).

Lemma us_free a i ev b : tr = a ++ (i, ev) :: b -> (forall p, ~ accepted ev p) ->
  forall inc, call ev = OTick inc -> packet_free ev.
Proof using IR.
  intros E Na inc C. split; [eauto|]. intros p I. apply (Na p).
  pose proof (ir_run _ _ _ _ _ _ _ _ IR) as R. rewrite E in R.
  destruct (run_split _ _ _ _ _ R) as (n & H & _). apply hist_last in H as (_ & _ & _ & _ & _ & _ & S).
  eapply forwarded_accepted; eauto.
Qed.

(** If m accepted nothing so far, the run so far is in touch with m. *)
Lemma us_cut pre t : (exists post, tr = pre ++ post) -> t <= stop ->
  (forall i ev, In (i, ev) pre -> global w i ev <= t) ->
  (forall i ev, In (i, ev) tr -> global w i ev < t -> In (i, ev) pre) ->
  (forall y p, In (m, y) pre -> ~ accepted y p) ->
  in_touch w N m pre (first m) t P D.
Proof using All.
  intros (post & E) Lt Bef Cut Na. pose proof IR as [R O Bd PastG W Ti Arr Prompt].
  assert (Sub : forall z, In z pre -> In z tr) by (intros z I; rewrite E; apply in_or_app; auto).
  constructor.
  - rewrite E in R. eapply run_prefix. exact R.
  - intros a i u b j v c Ep. apply (O a i u b j v (c ++ post)). rewrite E, Ep, <- app_assoc. cbn. rewrite <- app_assoc. reflexivity.
  - intros i ev I. split; [apply (Bd i ev); auto|auto].
  - exact PastG.
  - intros i Ni. destruct (W i Ni) as [W1 W2]. split; [exact W1|]. intros z I. apply W2.
    rewrite E, calls_at_app. apply in_app_or in I as [I|I]; apply in_or_app; [left; exact I|right]. apply in_or_app; left; exact I.
  - intros x L U. destruct (Ti x L ltac:(lia)) as (y & inc & Iy & Cy & Ly).
    assert (Iy' : In (m, y) pre) by (apply Cut; [exact Iy|lia]).
    exists y. split; [exact Iy'|]. split; [|exact Ly].
    apply in_split in Iy as (a & b & Ea). eapply us_free; eauto.
  - intros y p i I Op Tp Ni Ne U.
    destruct (Arr y p i ltac:(auto) Op Tp Ni Ne ltac:(lia)) as (c & q & Ic & Ac & Sq & Lc).
    exists c, q. split; [apply Cut; [exact Ic|lia]|auto].
  - intros a i ev b p Ep Ac _. apply (Prompt a i ev (b ++ post) p); auto. rewrite E, Ep, <- app_assoc. reflexivity.
Qed.

Lemma us_nothing pre post : tr = pre ++ post -> forall y p, In (m, y) pre -> ~ accepted y p.
Proof using All.
  revert post. induction pre as [|[i ev] pre IH] using rev_ind; intros post E; [intros ? ? []|].
  rewrite <- app_assoc in E. cbn [app] in E. specialize (IH _ E).
  intros y p I. apply in_app_or in I as [I|[I|[]]]; [auto|]. injection I as -> ->. intros Ac.
  pose proof IR as [R O Bd PastG W Ti Arr Prompt].
  destruct (Prompt _ _ _ _ p E Ac) as (k & z & q & Nk & Iz & Oz & _).
  assert (Ii : In (m, y) tr) by (rewrite E; apply in_or_app; right; left; reflexivity).
  assert (Sub : forall v, In v pre -> In v tr) by (intros v Iv; rewrite E; apply in_or_app; auto).
  assert (IT : in_touch w N m pre (first m) (global w m y) P D).
  { apply us_cut.
    - eauto.
    - apply (Bd m y Ii).
    - intros j u Iu. apply in_split in Iu as (a & b & Ep). apply (O a j u b m y post). rewrite E, Ep, <- app_assoc. reflexivity.
    - intros j u Iu Lu. eapply ordered_before; [rewrite <- E; exact O|rewrite <- E; exact Iu|exact Lu].
    - exact IH. }
  assert (NoS : forall j u r, In (j, u) pre -> call u <> OSetEffect r) by (intros j u r Iu; apply (NoSet j); auto).
  assert (SS : role_before z = Slave /\ role_after z = Slave) by (eapply others_slave; eauto).
  pose proof (Sub _ Iz) as It. apply in_split in Iz as (a & b & Ea). pose proof R as R1. rewrite E, Ea, <- app_assoc in R1. cbn [app] in R1.
  destruct (run_split _ _ _ _ _ R1) as (n & H & _).
  destruct (slave_origin _ _ _ _ q (ex_intro _ _ H) (proj1 SS) (proj2 SS) Oz) as (r & Cr & _).
  exact (NoSet k z r It Cr).
Qed.
End Unstarved.

Lemma leaderless_no_starvation w N m tr stop P D :
  let first i := ends w i - n_off w i in
  leaderless w N ->
  in_range w N m tr (first m) stop P D ->
  (forall i ev q, In (i, ev) tr -> call ev <> OSetEffect q) ->
  0 <= P -> 0 <= D -> 1000 + P + D <= 5000 ->
  (m < N)%nat -> (forall i, (i < N)%nat -> i <> m -> first m + P + D < first i) ->
  forall y, In (m, y) tr -> (forall p, ~ accepted y p) /\ (forall inc, call y = OTick inc -> packet_free y).
Proof.
  intros first Ll IR NoSet P0 D0 PD Nm Margin y I.
  assert (Na : forall p, ~ accepted y p).
  { intros p. apply (us_nothing w N m tr stop P D Ll IR NoSet P0 D0 PD Nm Margin tr [] (eq_sym (app_nil_r tr)) y p I). }
  split; [exact Na|]. apply in_split in I as (a & b & E). apply (us_free w N m tr stop P D IR _ _ _ _ E Na).
Qed.

Lemma leaderless_to_one_animation_unstarved w N m tr stop P D :
  let first i := ends w i - n_off w i in
  leaderless w N ->
  in_range w N m tr (first m) stop P D ->
  (forall i ev q, In (i, ev) tr -> call ev <> OSetEffect q) ->
  0 <= P <= 1000 -> 0 <= D -> 1000 + P + D <= 5000 ->
  (m < N)%nat -> (forall i, (i < N)%nat -> i <> m -> first m + P + D < first i) ->
  forall pre post t x, tr = pre ++ post ->
  first m + P <= x -> x + 2000 + 2 * P + 2 * D < t <= stop ->
  (forall i ev, In (i, ev) pre -> global w i ev <= t) -> (forall i ev, In (i, ev) post -> t < global w i ev) ->
  (forall y, In (m, y) pre -> x < global w m y -> ~ own_change y) ->
  forall i n nm, (i < N)%nat -> i <> m ->
    hist (n_env w i) (n_start w i) (n_past w i ++ calls_at i pre) n ->
    hist (n_env w m) (n_start w m) (n_past w m ++ calls_at m pre) nm ->
    GetCurrentState nm = Master /\ GetCurrentState n = Slave /\
    exists L, 0 <= L <= D /\
      forall fl md d o o' T delta buf,
      o = o' \/ (ptype (GetSetEffect nm) = 2 -> ~ per_node (nth 0 (pdata (GetSetEffect nm)) 0 mod 35)) ->
      Show Arduino fl md d o (GetSetEffect n) (fun r => GetNetworkMillis (u32 (T + L + delta r + n_off w i)) n) buf =
      Show Arduino fl md d o' (GetSetEffect nm) (fun r => GetNetworkMillis (u32 (T + delta r + n_off w m)) nm) buf.
Proof.
  intros first Ll IR NoSet P0 D0 PD Nm Margin.
  apply (leaderless_to_one_animation w N m tr stop P D Ll); auto.
  apply (us_cut w N m tr stop P D Ll IR NoSet (proj1 P0) D0 PD Nm Margin).
  - exists []. symmetry. apply app_nil_r.
  - lia.
  - intros i ev I. apply (ir_times _ _ _ _ _ _ _ _ IR i ev I).
  - auto.
  - intros y p I. apply (us_nothing w N m tr stop P D Ll IR NoSet (proj1 P0) D0 PD Nm Margin tr [] (eq_sym (app_nil_r tr)) y p I).
Qed.

(** A network powered up as in C104, to whose nodes nobody gives orders: node m
    accepts no packet at all, neither before it takes over nor as a master, so its
    timers are never starved. *)
Theorem C106_no_orders_no_starvation w N m tr stop P D :
  let first i := patience_ends (n_env w i) (n_start w i) - n_off w i in
  (forall i, n_past w i = []) ->
  in_range w N m tr (first m) stop P D ->
  (forall i ev q, In (i, ev) tr -> call ev <> OSetEffect q) ->
  0 <= P -> 0 <= D -> 1000 + P + D <= 5000 ->
  (m < N)%nat -> (forall i, (i < N)%nat -> i <> m -> first m + P + D < first i) ->
  forall y, In (m, y) tr -> (forall p, ~ accepted y p) /\ (forall inc, call y = OTick inc -> packet_free y).
Proof.
  intros first New IR NoSet P0 D0 PD Nm Margin.
  assert (Ef : forall k, ends w k = patience_ends (n_env w k) (n_start w k)) by (intros k; apply ends_new; apply New).
  apply (leaderless_no_starvation w N m tr stop P D); auto.
  - apply new_leaderless. exact New.
  - rewrite Ef. exact IR.
  - intros k Nk Nke. rewrite !Ef. apply (Margin k Nk Nke).
Qed.
Print Assumptions C106_no_orders_no_starvation.

(** Hence C105 without the assumption that m finds the radio silent now and then. *)
Theorem C106_from_power_up_to_one_animation w N m tr stop P D :
  let first i := patience_ends (n_env w i) (n_start w i) - n_off w i in
  (forall i, n_past w i = []) ->
  in_range w N m tr (first m) stop P D ->
  (forall i ev q, In (i, ev) tr -> call ev <> OSetEffect q) ->
  0 <= P <= 1000 -> 0 <= D -> 1000 + P + D <= 5000 ->
  (m < N)%nat -> (forall i, (i < N)%nat -> i <> m -> first m + P + D < first i) ->
  forall pre post t x, tr = pre ++ post ->
  first m + P <= x -> x + 2000 + 2 * P + 2 * D < t <= stop ->
  (forall i ev, In (i, ev) pre -> global w i ev <= t) -> (forall i ev, In (i, ev) post -> t < global w i ev) ->
  (forall y, In (m, y) pre -> x < global w m y -> ~ own_change y) ->
  forall i n nm, (i < N)%nat -> i <> m ->
    hist (n_env w i) (n_start w i) (calls_at i pre) n ->
    hist (n_env w m) (n_start w m) (calls_at m pre) nm ->
    GetCurrentState nm = Master /\ GetCurrentState n = Slave /\
    exists L, 0 <= L <= D /\
      forall fl md d o o' T delta buf,
      o = o' \/ (ptype (GetSetEffect nm) = 2 -> ~ per_node (nth 0 (pdata (GetSetEffect nm)) 0 mod 35)) ->
      Show Arduino fl md d o (GetSetEffect n) (fun r => GetNetworkMillis (u32 (T + L + delta r + n_off w i)) n) buf =
      Show Arduino fl md d o' (GetSetEffect nm) (fun r => GetNetworkMillis (u32 (T + delta r + n_off w m)) nm) buf.
Proof.
  intros first New IR NoSet P0 D0 PD Nm Margin pre post t x Et Gx Lt Bef Aft NoChg i n nm Ni Ne Hn Hm.
  assert (Ef : forall k, ends w k = patience_ends (n_env w k) (n_start w k)) by (intros k; apply ends_new; apply New).
  apply (leaderless_to_one_animation_unstarved w N m tr stop P D) with (pre := pre) (post := post) (t := t) (x := x); auto.
  - apply new_leaderless. exact New.
  - rewrite Ef. exact IR.
  - intros k Nk Nke. rewrite !Ef. apply (Margin k Nk Nke).
  - rewrite Ef. exact Gx.
  - rewrite New. exact Hn.
  - rewrite New. exact Hm.
Qed.
Print Assumptions C106_from_power_up_to_one_animation.

(** Non-vacuous: the network of [C105_example]. *)
Example C106_example : exists w tr,
  let first i := patience_ends (n_env w i) (n_start w i) - n_off w i in
  (forall i, n_past w i = []) /\ first 0%nat = 5005 /\ first 1%nat = 7299 /\
  in_range w 2 0 tr 5005 10300 1000 100 /\
  (forall i ev q, In (i, ev) tr -> call ev <> OSetEffect q).
Proof.
  destruct C105_example as (w & tr & n & nm & New & F0 & F1 & IT & NoSet & Ac & _).
  exists w, tr. split; [exact New|]. split; [exact F0|]. split; [exact F1|]. split; [|exact NoSet].
  destruct IT as [R O Bd Past W Fr Arr Prompt]. constructor; auto.
  - intros x L U. destruct (Fr x L U) as (y & I & ((inc & C) & _) & Ly). exists y, inc. auto.
  - intros a i ev b p E A. apply (Prompt a i ev b p E A). unfold life_sign, about_effects.
    destruct (Ac i ev p ltac:(rewrite E; apply in_or_app; right; left; reflexivity) A); auto.
Qed.
