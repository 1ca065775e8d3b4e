(** A whole network shows one animation: C95. *)
From Coq Require Import ZArith Lia List Bool.
From Coq Require Import ZifyBool.
From Verif Require Import CInt CIntFacts Packet SpecPacket PacketFacts NetMgr NetHist SpecNet NetFacts Fastled Palette Device LedMgr SpecLed Effects SpecEffect Show ShowFacts PropShow Rsm RsmStep RsmEval RsmHist SpecRsm RsmFacts RsmTime RoleFacts RsmRun EffectFacts PropRole PropHeartbeat PropEffect PropHold PropPair PropNetTime PropNetwork PropOneMaster PropCatchUp.
Import ListNotations.
Open Scope Z_scope.
Ltac Zify.zify_post_hook ::= Z.div_mod_to_equations.

(** A run [tr] of a network of N nodes, from global time g up to global time
    [stop], in which node m can be heard.  P: how often m gets to look at its
    timers; D: how long packets travel, relays included. *)
Record in_touch (w : network) (N m : nat) (tr : run) (g stop P D : Z) : Prop := mkTouch {
  it_run : is_run w tr;
  it_ordered : ordered w tr;
  it_times : forall i ev, In (i, ev) tr -> (i < N)%nat /\ global w i ev <= stop;
  it_past : forall i ev, In ev (n_past w i) -> global w i ev <= g;
  it_wrap : forall i, (i < N)%nat -> all_before (wrap - 7000) (n_start w i) (n_past w i ++ calls_at i tr);
  it_free : free_ticks w m tr g stop P;
  (** heartbeats and orders of m reach every other node within D ms *)
  it_arrive : forall y p i, In (m, y) tr -> originated y p -> ptype p = 0 \/ about_effects p ->
    (i < N)%nat -> i <> m -> global w m y + D < stop ->
    exists c q, In (i, c) tr /\ accepted c q /\ says q p /\ global w m y <= global w i c <= global w m y + D;
  (** what a node accepts, another node originated at most D ms ago: the radio
      invents nothing, and nothing comes back to its origin late *)
  it_prompt : forall a i ev b p, tr = a ++ (i, ev) :: b -> accepted ev p -> life_sign p \/ about_effects p ->
    exists k y q, k <> i /\ In (k, y) a /\ originated y q /\ says p q /\ global w k y <= global w i ev <= global w k y + D
}.

Lemma own_is_shown e ev s p : stepR e (u32 (at_ ev)) (before ev) (call ev) (sent ev) (after ev) ->
  In (Own s p) (sent ev) -> about_effects p -> same_content (GetSetEffect (after ev)) p.
Proof.
  intros S I A. destruct ev as [t o m m' out]; proj. unfold GetSetEffect, about_effects, same_content in *.
  destruct S as [inc out m' T|q R|v|v]; proj; own_in I.
  - destruct T; own_in I; proj; try (cbn in A; unfold HEARTBEAT, CLAIM_MASTER in A; lia); repeat split.
  - repeat split.
Qed.

Lemma accepts_dec e ev : stepR e (u32 (at_ ev)) (before ev) (call ev) (sent ev) (after ev) ->
  (exists p, accepted ev p) \/ (forall p, ~ accepted ev p).
Proof.
  intros S. destruct (call ev) as [inc|x1|x2|x3] eqn:C.
  2-4: right; intros p [C1 _]; congruence.
  destruct (heard (before ev) inc) as [p|] eqn:Hd.
  - left. exists p. rewrite <- C in S. apply (step_accepted _ _ _ S). eauto.
  - right. intros p A. rewrite <- C in S. apply (step_accepted _ _ _ S) in A as (inc' & C1 & H1). congruence.
Qed.

(** What a slave originates, its caller asked for. *)
Lemma slave_origin e t0 h ev p : history e t0 (h ++ [ev]) -> role_before ev = Slave -> role_after ev = Slave ->
  originated ev p -> exists q, call ev = OSetEffect q /\ same_content p q /\ sent ev = [Own ByApi p].
Proof.
  intros H R1 R2 (s & I). pose proof (C39_slaves_are_quiet _ _ _ _ H R1) as Q.
  destruct (call ev) as [inc|q|v|v] eqn:Ca.
  - destruct Q as [[Q _]|[(q & Q & _)|(q & _ & _ & Q)]]; [rewrite Q in I; destruct I|rewrite Q in I; destruct I as [I|[]]; discriminate I|congruence].
  - destruct Q as (q' & Q & Sc & _). rewrite Q in I. destruct I as [I|[]]. inversion I; subst. eauto.
  - destruct Q as [Q _]. rewrite Q in I. destruct I.
  - destruct Q as [Q _]. rewrite Q in I. destruct I.
Qed.

(** A history splits at every time. *)
Lemma split_at e t0 h n (x : Z) : hist e t0 h n ->
  exists h1 h2, h = h1 ++ h2 /\ (forall y, In y h1 -> at_ y <= x) /\ (forall y, In y h2 -> x < at_ y).
Proof.
  intros H. pattern h, n. revert h n H. apply (hist_ind2 e t0).
  - intros. exists [], []. split; [reflexivity|]. split; intros ? [].
  - intros h ev H (h1 & h2 & -> & A & B) G O L1 L2 S.
    destruct (Z_le_gt_dec (at_ ev) x) as [L|L].
    + exists (h1 ++ h2 ++ [ev]), []. split; [rewrite app_nil_r, app_assoc; reflexivity|]. split; [|intros ? []].
      intros y I. rewrite app_assoc in I. apply in_app_or in I as [I|[<-|[]]]; [|exact L]. specialize (L2 y I). lia.
    + exists h1, (h2 ++ [ev]). split; [rewrite app_assoc; reflexivity|]. split; [exact A|].
      intros y I. apply in_app_or in I as [I|[<-|[]]]; [auto|lia].
Qed.

Section Settled.
Variables (w : network) (N m : nat) (m0 : event) (rest : run) (g stop P D : Z).
Let tr : run := (m, m0) :: rest.
Hypothesis IT : in_touch w N m tr g stop P D.
Hypothesis Eg : g = global w m m0.
Hypothesis TO : own_heartbeat m0.
Hypothesis Sl : forall i n, (i < N)%nat -> i <> m -> hist (n_env w i) (n_start w i) (n_past w i) n -> GetCurrentState n = Slave.
Hypothesis P0 : 0 <= P.
Hypothesis D0 : 0 <= D.
Hypothesis PD : 1000 + P + D <= 5000.
Hypothesis NoR : forall i ev, In (i, ev) tr -> i <> m -> global w i ev <= g + D -> ~ took_over ev.

Lemma st_all : forall pre post, tr = pre ++ post ->
  (forall i ev, In (i, ev) pre -> role_after ev = (if Nat.eqb i m then Master else Slave) /\ (i <> m -> role_before ev = Slave)) /\
  (forall i n, (i < N)%nat -> i <> m -> hist (n_env w i) (n_start w i) (n_past w i ++ calls_at i pre) n -> GetCurrentState n = Slave) /\
  (forall n, pre <> [] -> hist (n_env w m) (n_start w m) (n_past w m ++ calls_at m pre) n -> GetCurrentState n = Master).
Proof.
  destruct IT as [R O Bd Past W Fr Arr Prompt].
  intros pre. induction pre as [|[i ev] pre IH] using rev_ind; intros post E.
  - split; [intros ? ? []|]. split; [intros i n I1 I2 H; cbn in H; rewrite app_nil_r in H; eauto|].
    intros n []; reflexivity.
  - rewrite <- app_assoc in E. cbn [app] in E. destruct (IH _ E) as (A & B & C). clear IH.
    assert (Rp : is_run w (pre ++ (i, ev) :: post)) by (rewrite <- E; exact R).
    destruct (run_split _ _ _ _ _ Rp) as (n & H & Ap). pose proof H as H'.
    apply hist_last in H as (H & En & G & Oo & L1 & L2 & S).
    assert (Ii : In (i, ev) tr) by (rewrite E; apply in_or_app; right; left; reflexivity).
    destruct (Bd i ev Ii) as [Ni Ti].
    destruct (PeanoNat.Nat.eq_dec i m) as [->|Ne].
    + assert (Ra : role_after ev = Master).
      { destruct pre as [|z pre'].
        - unfold tr in E. cbn in E. inversion E; subst. apply (heartbeat_call _ _ _ _ (ex_intro _ _ H') Ap TO).
        - apply (no_contact_keeps_master _ _ _ _ (ex_intro _ _ H')).
          + unfold role_before. apply (C (before ev)); [discriminate|exact H].
          + intros p Ac Lp.
            destruct (Prompt _ _ _ _ p E Ac (or_introl Lp)) as (k & y & q & Nk & Iy & Oy & Sy & _).
            destruct (A k y Iy) as [A1 A2]. specialize (A2 Nk).
            destruct (PeanoNat.Nat.eqb_spec k m); [contradiction|].
            apply in_split in Iy as (a1 & a2 & Ea). rewrite Ea, <- app_assoc in Rp. cbn [app] in Rp.
            destruct (run_split _ _ _ _ _ Rp) as (n' & Hy & Apy).
            destruct (slave_origin _ _ _ _ q (ex_intro _ _ Hy) A2 A1 Oy) as (q' & Cq & Sq & _).
            assert (ptype q' = 2 \/ ptype q' = 3) by (apply (Apy y q'); [apply in_or_app; right; left; reflexivity|exact Cq]).
            unfold life_sign in Lp. destruct Sy as [Sy _]. destruct Sq as [Sq _]. lia. }
      split; [|split].
      * intros j u I. apply in_app_or in I as [I|[I|[]]]; [auto|]. inversion I; subst. rewrite PeanoNat.Nat.eqb_refl. split; [exact Ra|congruence].
      * intros j n' Nj Nm Hj. rewrite calls_at_app, (calls_at_other _ _ _ Nm), app_nil_r in Hj. eauto.
      * intros n' _ Hm. rewrite calls_at_app, calls_at_one, app_assoc in Hm.
        apply hist_last in Hm as (_ & -> & _). exact Ra.
    + assert (Rb : role_before ev = Slave) by (apply (B i (before ev)); auto).
      assert (pre <> []).
      { intros ->. unfold tr in E. cbn in E. inversion E; subst. congruence. }
      assert (exists r, pre = (m, m0) :: r) as (r & Er).
      { destruct pre as [|z r]; [congruence|]. unfold tr in E. cbn in E. inversion E; subst. eauto. }
      assert (Hm : is_run w pre) by (eapply run_prefix; exact Rp).
      assert (Ra : role_after ev = Slave).
      { destruct (role_after ev) eqn:Era; [reflexivity|exfalso].
        assert (TOs : took_over ev) by (split; assumption).
        assert (Sub : forall k z, In z (calls_at k pre) -> In z (calls_at k tr)).
        { intros k z I. apply in_calls_at. apply in_calls_at in I. rewrite E. apply in_or_app; left; exact I. }
        assert (CM : calls_at m pre = m0 :: calls_at m r).
        { rewrite Er. change ((m, m0) :: r) with ([(m, m0)] ++ r). rewrite calls_at_app, calls_at_one. reflexivity. }
        assert (Nm : (m < N)%nat) by (apply (Bd m m0); left; reflexivity).
        apply (NoR i ev Ii Ne); [|exact TOs].
        rewrite Eg. unfold global.
        apply (C40_bounded_network_keeps_its_master (n_env w m) (n_start w m) (n_past w m) m0 (calls_at m r)
                 (n_env w i) (n_start w i) (n_past w i ++ calls_at i pre) ev (n_off w m) (n_off w i) P D); auto.
        - rewrite <- CM. apply Hm.
        - rewrite <- CM. apply Hm.
        - rewrite <- CM. destruct (W m Nm) as [W1 W2]. split; [exact W1|]. intros z I. apply W2.
          apply in_app_or in I as [I|I]; apply in_or_app; auto.
        - eexists; exact H'.
        - destruct (W i Ni) as [W1 W2]. split; [exact W1|]. intros z I. apply W2.
          apply in_app_or in I as [I|[<-|[]]].
          + apply in_app_or in I as [I|I]; apply in_or_app; auto.
          + apply in_or_app; right. apply in_calls_at. exact Ii.
        - intros z I. apply in_calls_at in I. destruct (A m z ltac:(rewrite Er; right; exact I)) as [Az _].
          rewrite PeanoNat.Nat.eqb_refl in Az. exact Az.
        - intros x Lx Ux. fold (global w i ev) in Ux. fold (global w m m0) in Lx.
          destruct (Fr x ltac:(lia) ltac:(lia)) as (y & Iy & Fy & Ly).
          exists y. split; [|split; [exact Fy|exact Ly]].
          assert (Ip : In (m, y) pre) by (eapply ordered_before; [rewrite <- E; exact O|rewrite <- E; exact Iy|lia]).
          rewrite Er in Ip. destruct Ip as [Ip|Ip]; [|apply in_calls_at; exact Ip].
          inversion Ip; subst. lia.
        - intros y Iy (p & Oy & Tp) Ty. fold (global w m y) in Ty. fold (global w i ev) in Ty.
          assert (Iy' : In (m, y) tr).
          { rewrite E. apply in_or_app; left. rewrite Er. destruct Iy as [<-|Iy]; [left; reflexivity|right; apply in_calls_at; exact Iy]. }
          destruct (Arr y p i Iy' Oy (or_introl Tp) Ni Ne ltac:(lia)) as (c & q & Ic & Ac & Sq & Lc).
          exists c. split; [|split; [exists q; split; [exact Ac|left; destruct Sq; congruence]|exact Lc]].
          apply in_or_app; right. apply in_calls_at.
          eapply ordered_before; [rewrite <- E; exact O|rewrite <- E; exact Ic|lia]. }
      split; [|split].
      * intros j u I. apply in_app_or in I as [I|[I|[]]]; [auto|]. inversion I; subst.
        destruct (PeanoNat.Nat.eqb_spec j m); [contradiction|split; [exact Ra|auto]].
      * intros j n' Nj Nm Hj. rewrite calls_at_app in Hj. destruct (PeanoNat.Nat.eq_dec j i) as [->|Nji].
        -- rewrite calls_at_one, app_assoc in Hj. apply hist_last in Hj as (_ & -> & _). exact Ra.
        -- rewrite (calls_at_other _ _ _ Nji), app_nil_r in Hj. eauto.
      * intros n' _ Hm'. rewrite calls_at_app, (calls_at_other i m ev ltac:(auto)), app_nil_r in Hm'. eauto.
Qed.

Lemma st_roles : forall i ev, In (i, ev) tr -> role_after ev = if Nat.eqb i m then Master else Slave.
Proof. intros i ev I. apply (proj1 (st_all tr [] (eq_sym (app_nil_r tr))) i ev I). Qed.

(** What is accepted comes from m, or somebody ordered it. *)
Lemma st_origin a i ev b p : tr = a ++ (i, ev) :: b -> accepted ev p -> life_sign p \/ about_effects p ->
  exists k y q, k <> i /\ In (k, y) a /\ originated y q /\ says p q /\ global w k y <= global w i ev <= global w k y + D /\
    (k = m \/ exists r, call y = OSetEffect r /\ same_content q r /\ about_effects r).
Proof.
  intros E Ac Lp. destruct (it_prompt _ _ _ _ _ _ _ _ IT _ _ _ _ p E Ac Lp) as (k & y & q & Nk & Iy & Oy & Sy & Ly).
  exists k, y, q. repeat (split; [assumption|]). destruct (PeanoNat.Nat.eq_dec k m) as [->|Nm]; [left; reflexivity|right].
  assert (I : In (k, y) tr) by (rewrite E; apply in_or_app; left; exact Iy).
  destruct (proj1 (st_all tr [] (eq_sym (app_nil_r tr))) k y I) as [A1 A2]. specialize (A2 Nm).
  destruct (PeanoNat.Nat.eqb_spec k m); [contradiction|].
  apply in_split in I as (a1 & a2 & Ea). pose proof (it_run _ _ _ _ _ _ _ _ IT) as R. rewrite Ea in R.
  destruct (run_split _ _ _ _ _ R) as (n' & Hy & Apy).
  destruct (slave_origin _ _ _ _ q (ex_intro _ _ Hy) A2 A1 Oy) as (r & Cr & Sr & _).
  exists r. split; [exact Cr|]. split; [exact Sr|].
  apply (Apy y r); [apply in_or_app; right; left; reflexivity|exact Cr].
Qed.

Lemma st_beat a i ev b p : tr = a ++ (i, ev) :: b -> i <> m -> accepted ev p -> ptype p = 0 ->
  exists y q, In (m, y) a /\ originated y q /\ says p q /\ global w m y <= global w i ev <= global w m y + D.
Proof.
  intros E Nm Ac Tp. destruct (st_origin _ _ _ _ p E Ac) as (k & y & q & Nk & Iy & Oy & Sy & Ly & Q); [left; left; exact Tp|].
  destruct Q as [->|(r & _ & (Q1 & _) & Q2)]; [eauto 10|]. exfalso. unfold about_effects in Q2. destruct Sy as [Sy _]. lia.
Qed.

Lemma st_hist a i ev b : tr = a ++ (i, ev) :: b ->
  hist (n_env w i) (n_start w i) (n_past w i ++ calls_at i a) (before ev) /\ good (before ev) /\
  stepR (n_env w i) (u32 (at_ ev)) (before ev) (call ev) (sent ev) (after ev).
Proof.
  intros E. pose proof (it_run _ _ _ _ _ _ _ _ IT) as R. rewrite E in R.
  destruct (run_split _ _ _ _ _ R) as (n & H & _). apply hist_last in H as (H & _ & G & _ & _ & _ & S). auto.
Qed.

(** The role in every state. *)
Lemma st_state pre post i n : tr = pre ++ post -> (i < N)%nat -> pre <> [] ->
  hist (n_env w i) (n_start w i) (n_past w i ++ calls_at i pre) n ->
  GetCurrentState n = if Nat.eqb i m then Master else Slave.
Proof.
  intros E Ni Np H.
  destruct (calls_at i pre) as [|z l _] eqn:C using rev_ind.
  - destruct (PeanoNat.Nat.eqb_spec i m) as [->|Ne].
    + exfalso. destruct pre as [|z pre]; [congruence|]. unfold tr in E. inversion E; subst.
      unfold calls_at in C. cbn in C. rewrite PeanoNat.Nat.eqb_refl in C. discriminate C.
    + rewrite app_nil_r in H. eauto.
  - rewrite app_assoc in H. apply hist_last in H as (_ & -> & _). apply st_roles.
    rewrite E. apply in_or_app; left. apply in_calls_at. rewrite C. apply in_or_app; right; left; reflexivity.
Qed.

Lemma st_before a i ev b : tr = a ++ (i, ev) :: b -> a <> [] ->
  role_before ev = if Nat.eqb i m then Master else Slave.
Proof.
  intros E Na. unfold role_before. destruct (st_hist _ _ _ _ E) as (H & _).
  eapply (st_state a ((i, ev) :: b)); eauto.
  apply (it_times _ _ _ _ _ _ _ _ IT i ev). rewrite E. apply in_or_app; right; left; reflexivity.
Qed.

Lemma st_first a i ev b : tr = a ++ (i, ev) :: b -> i <> m -> a <> [].
Proof. intros E Ne ->. unfold tr in E. cbn in E. inversion E; subst. congruence. Qed.

(** The master's clock does not move against global time. *)
Lemma st_master_clock pre post n : tr = pre ++ post -> pre <> [] ->
  hist (n_env w m) (n_start w m) (n_past w m ++ calls_at m pre) n -> millis_offset n = millis_offset (after m0).
Proof.
  revert post n. induction pre as [|[i ev] pre IH] using rev_ind; intros post n E Np H; [congruence|].
  rewrite <- app_assoc in E. cbn [app] in E. rewrite calls_at_app in H.
  destruct pre as [|z pre'].
  - unfold tr in E. cbn in E. inversion E; subst. cbn in H. rewrite PeanoNat.Nat.eqb_refl in H. cbn in H.
    apply hist_last in H as (_ & -> & _). reflexivity.
  - destruct (PeanoNat.Nat.eq_dec i m) as [->|Ne].
    + rewrite calls_at_one, app_assoc in H. apply hist_last in H as (H & -> & G & O & L1 & L2 & S).
      destruct (offset_step _ _ S) as [K|(K & _)].
      * rewrite K. eapply IH; [exact E|discriminate|exact H].
      * pose proof (st_before _ _ _ _ E ltac:(discriminate)) as Q. rewrite PeanoNat.Nat.eqb_refl in Q. congruence.
    + rewrite (calls_at_other i m ev), app_nil_r in H by auto. eapply IH; [exact E|discriminate|exact H].
Qed.

Definition c0 : Z := millis_offset (after m0) + n_off w m.

Lemma master_shows pre post n : tr = pre ++ post -> pre <> [] ->
  hist (n_env w m) (n_start w m) (n_past w m ++ calls_at m pre) n ->
  forall T, GetNetworkMillis (u32 (T + n_off w m)) n = u32 (T + c0).
Proof.
  intros E Np H T. unfold GetNetworkMillis, c0. rewrite (st_master_clock pre post n E Np H). unfold u32. lia.
Qed.

(** Every heartbeat of m carries the time it shows. *)
Lemma heartbeat_value a y b q : tr = a ++ (m, y) :: b -> originated y q -> ptype q = 0 ->
  big_endian (payload 4 q) = u32 (global w m y + c0).
Proof.
  intros E O T. pose proof (it_run _ _ _ _ _ _ _ _ IT) as R. rewrite E in R.
  destruct (run_split _ _ _ _ _ R) as (n & H & Ap).
  destruct (C20_heartbeats_carry_network_time _ _ _ _ q (ex_intro _ _ H) Ap O T) as (_ & E1 & E2).
  rewrite E1, <- E2. apply hist_last in H as (H & -> & _).
  assert (H2 : hist (n_env w m) (n_start w m) (n_past w m ++ calls_at m (a ++ [(m, y)])) (after y)).
  { rewrite calls_at_app, calls_at_one, app_assoc. destruct (run_split _ _ _ _ _ R) as (n' & H' & _).
    pose proof H' as H2. apply hist_last in H2 as (_ & -> & _). exact H'. }
  replace (at_ y) with (global w m y + n_off w m) by (unfold global; lia).
  apply (master_shows (a ++ [(m, y)]) b); [rewrite <- app_assoc; exact E|destruct a; discriminate|exact H2].
Qed.

(** The clock of a slave: untouched, or within D of the master's. *)
Lemma st_slave_clock i : (i < N)%nat -> i <> m -> forall pre post n, tr = pre ++ post ->
  hist (n_env w i) (n_start w i) (n_past w i ++ calls_at i pre) n ->
  (forall ev p, In ev (calls_at i pre) -> accepted ev p -> ptype p <> 0) \/
  exists L, 0 <= L <= D /\ forall T, GetNetworkMillis (u32 (T + n_off w i)) n = u32 (T + c0 - L).
Proof.
  intros Ni Nm pre. induction pre as [|[j ev] pre IH] using rev_ind; intros post n E H.
  - left. intros ? ? [].
  - rewrite <- app_assoc in E. cbn [app] in E. rewrite calls_at_app in H |- *.
    destruct (PeanoNat.Nat.eq_dec j i) as [->|Ne].
    + rewrite calls_at_one in H |- *. rewrite app_assoc in H.
      apply hist_last in H as (H & -> & G & O & L1 & L2 & S).
      assert (Rb : role_before ev = Slave).
      { rewrite (st_before _ _ _ _ E (st_first _ _ _ _ E Nm)). destruct (PeanoNat.Nat.eqb_spec i m); [contradiction|reflexivity]. }
      destruct (offset_step _ _ S) as [K|(_ & p & Ac & Tp & K)].
      * assert (NA : forall p, accepted ev p -> ptype p <> 0 \/ exists L, 0 <= L <= D /\ forall T, GetNetworkMillis (u32 (T + n_off w i)) (after ev) = u32 (T + c0 - L)).
        { intros p Ac. destruct (Z.eq_dec (ptype p) 0) as [Tp|]; [right|left; assumption].
          destruct (st_beat pre i ev post p E Nm Ac Tp) as (y & q & Iy & Oy & Sq & Ly).
          exists (global w i ev - global w m y). split; [lia|]. intros T.
          assert (HH : hist (n_env w i) (n_start w i) ((n_past w i ++ calls_at i pre) ++ ev :: []) (after ev)).
          { pose proof (it_run _ _ _ _ _ _ _ _ IT) as R. rewrite E in R. destruct (run_split _ _ _ _ _ R) as (n' & H' & _).
            pose proof H' as H2. apply hist_last in H2 as (_ & -> & _). exact H'. }
          rewrite (C25_network_time_follows_heartbeat _ _ _ _ p [] _ HH Rb Ac Tp) by (intros ? ? []).
          destruct Sq as [Sq1 Sq2]. rewrite Tp in Sq1. symmetry in Sq1. rewrite Sq1 in Sq2. cbn [Z.eqb] in Sq2.
          change (0 =? 2) with false in Sq2. cbv iota in Sq2. rewrite Sq2.
          apply in_split in Iy as (a1 & a2 & ->). rewrite <- app_assoc in E. cbn [app] in E.
          rewrite (heartbeat_value _ _ _ q E Oy Sq1). unfold global, u32. lia. }
        assert (SameClock : forall T, GetNetworkMillis (u32 (T + n_off w i)) (after ev) = GetNetworkMillis (u32 (T + n_off w i)) (before ev)).
        { intros T. unfold GetNetworkMillis. rewrite K. reflexivity. }
        destruct (IH _ _ E H) as [Q|(L & Lb & Q)].
        -- destruct (accepts_dec _ _ S) as [(p & Ac)|No].
           ++ destruct (NA p Ac) as [X|X]; [left|right; exact X].
              intros z q I Aq. apply in_app_or in I as [I|[<-|[]]]; [eauto|].
              destruct Ac as [C1 _], Aq as [C2 _]. assert (q = p) by congruence. subst. exact X.
           ++ left. intros z q I Aq. apply in_app_or in I as [I|[<-|[]]]; [eauto|]. exfalso. eapply No. exact Aq.
        -- right. exists L. split; [exact Lb|]. intros T. rewrite SameClock. apply Q.
      * right.
        destruct (st_beat pre i ev post p E Nm Ac Tp) as (y & q & Iy & Oy & Sq & Ly).
        exists (global w i ev - global w m y). split; [lia|]. intros T.
        unfold GetNetworkMillis. rewrite K.
        destruct Sq as [Sq1 Sq2]. rewrite Tp in Sq1. symmetry in Sq1. rewrite Sq1 in Sq2.
        change (0 =? 2) with false in Sq2. cbv iota in Sq2. rewrite Sq2.
        apply in_split in Iy as (a1 & a2 & ->). rewrite <- app_assoc in E. cbn [app] in E.
        rewrite (heartbeat_value _ _ _ q E Oy Sq1).
        rewrite network_time by apply u32_range. unfold global, u32. lia.
    + rewrite (calls_at_other j i ev), app_nil_r in H |- * by auto. apply (IH _ _ E H).
Qed.
End Settled.

(** ** C95: a settled network shows one animation *)

(** Node m sends a heartbeat with call m0; the others are slaves then.  From global time
    x on m shows K.  At the end of the run, 2000 + 2 P + 2 D ms after x or later,
    every node shows K, and every node's network time runs a constant L <= D ms
    behind the master's. *)
Theorem C95_everybody_in_step w N m m0 rest g stop P D x K :
  let tr := (m, m0) :: rest in
  in_touch w N m tr g stop P D -> g = global w m m0 -> own_heartbeat m0 ->
  (forall i n, (i < N)%nat -> i <> m -> hist (n_env w i) (n_start w i) (n_past w i) n -> GetCurrentState n = Slave) ->
  0 <= P <= 1000 -> 0 <= D -> 1000 + P + D <= 5000 ->
  (forall i ev, In (i, ev) tr -> i <> m -> global w i ev <= g + D -> ~ took_over ev) ->
  about_effects K -> g <= x -> x + 2000 + 2 * P + 2 * D < stop ->
  (forall y, In (m, y) tr -> x < global w m y -> says (GetSetEffect (after y)) K) ->
  (forall i ev q, In (i, ev) tr -> i <> m -> x < global w i ev -> call ev = OSetEffect q -> says q K) ->
  forall i n nm, (i < N)%nat -> i <> m ->
    hist (n_env w i) (n_start w i) (n_past w i ++ calls_at i tr) n ->
    hist (n_env w m) (n_start w m) (n_past w m ++ calls_at m tr) nm ->
    says (GetSetEffect nm) K /\ says (GetSetEffect n) K /\
    exists L, 0 <= L <= D /\
      forall T, GetNetworkMillis (u32 (T + n_off w i)) n = u32 (GetNetworkMillis (u32 (T + n_off w m)) nm - L).
Proof.
  intros tr IT Eg TO Sl P0 D0 PD NoR AK Gx Ux Kx NoSet i n nm Ni Nm Hn Hm.
  assert (P1 : 0 <= P) by lia.
  assert (Hend : tr = tr ++ []) by (symmetry; apply app_nil_r).
  pose proof (st_before w N m m0 rest g stop P D IT Eg TO Sl P1 D0 PD NoR) as Bef. fold tr in Bef.
  assert (Rn : forall k ev, In (k, ev) tr -> (k = m -> g < global w m ev) -> role_before ev = if Nat.eqb k m then Master else Slave).
  { intros k ev I Q. apply in_split in I as (a & b & E). apply (Bef _ _ _ _ E). intros ->.
    unfold tr in E. cbn in E. inversion E; subst. specialize (Q eq_refl). lia. }
  split; [|split].
  - (* the master shows K *)
    destruct (split_at _ _ _ _ (x + n_off w m) Hm) as (h1 & h2 & E & A & B).
    destruct (it_free _ _ _ _ _ _ _ _ IT x Gx ltac:(lia)) as (y & Iy & _ & Ly).
    destruct h2 as [|z h2 _] using rev_ind.
    + exfalso. rewrite app_nil_r in E. assert (I : In y h1) by (rewrite <- E; apply in_or_app; right; apply in_calls_at; exact Iy).
      specialize (A y I). unfold global in Ly. lia.
    + pose proof Hm as Hz. rewrite E, app_assoc in Hz. apply hist_last in Hz as (_ & -> & _).
      assert (Bz : x + n_off w m < at_ z) by (apply B; apply in_or_app; right; left; reflexivity).
      assert (Iz : In z (n_past w m ++ calls_at m tr)) by (rewrite E; apply in_or_app; right; apply in_or_app; right; left; reflexivity).
      apply in_app_or in Iz as [Iz|Iz].
      * pose proof (it_past _ _ _ _ _ _ _ _ IT m z Iz) as Q. unfold global in Q. lia.
      * apply Kx; [apply in_calls_at; exact Iz|]. unfold global. lia.
  - (* so do the others *)
    destruct (split_at _ _ _ _ (x + D + n_off w m) Hm) as (h1 & h2 & E & A & B).
    assert (In2 : forall y, In (m, y) tr -> x + D < global w m y -> In y h2).
    { intros y I L. assert (J : In y (h1 ++ h2)) by (rewrite <- E; apply in_or_app; right; apply in_calls_at; exact I).
      apply in_app_or in J as [J|J]; [|exact J]. specialize (A y J). unfold global in L. lia. }
    assert (Of2 : forall y, In y h2 -> In (m, y) tr /\ x + D < global w m y).
    { intros y I. specialize (B y I). assert (J : In y (n_past w m ++ calls_at m tr)) by (rewrite E; apply in_or_app; right; exact I).
      apply in_app_or in J as [J|J].
      - pose proof (it_past _ _ _ _ _ _ _ _ IT m y J) as Q. unfold global in Q. lia.
      - split; [apply in_calls_at; exact J|unfold global; lia]. }
    assert (NmN : (m < N)%nat) by (apply (it_times _ _ _ _ _ _ _ _ IT m m0); left; reflexivity).
    destruct (it_run _ _ _ _ _ _ _ _ IT m) as [Hist Api].
    apply (C93_newcomer_catches_up (n_env w m) (n_start w m) h1 h2 (n_env w i) (n_start w i)
             (n_past w i ++ calls_at i tr) n (n_off w m) (n_off w i) (x + D) (x + 2000 + 2 * P + 2 * D) P D K).
    + rewrite <- E. exact Hist.
    + rewrite <- E. exact Api.
    + rewrite <- E. apply (it_wrap _ _ _ _ _ _ _ _ IT m NmN).
    + exact Hn.
    + intros y I. specialize (A y I). lia.
    + intros y I. destruct (Of2 y I) as [J L]. split; [unfold global in L; lia|]. split; [|apply Kx; [exact J|lia]].
      rewrite (Rn m y J) by (intros _; lia). rewrite PeanoNat.Nat.eqb_refl. reflexivity.
    + intros c I L.
      assert (J : In (i, c) tr).
      { apply in_app_or in I as [I|I]; [|apply in_calls_at; exact I].
        pose proof (it_past _ _ _ _ _ _ _ _ IT i c I) as Q. unfold global in Q. lia. }
      split; [rewrite (Rn i c J) by (intros; contradiction); destruct (PeanoNat.Nat.eqb_spec i m); [contradiction|reflexivity]|].
      split; [intros q Q; apply (NoSet i c q J Nm); [unfold global; lia|exact Q]|].
      intros q Ac Aq. pose proof J as J0. apply in_split in J0 as (a & b & Etr).
      destruct (st_origin w N m m0 rest g stop P D IT Eg TO Sl P1 D0 PD NoR a i c b q Etr Ac (or_intror Aq))
        as (k & y & q' & Nk & Iy & (s & Oy) & Sq & Ly & Qk).
      assert (Iy' : In (k, y) tr) by (rewrite Etr; apply in_or_app; left; exact Iy).
      destruct (PeanoNat.Nat.eq_dec k m) as [->|Nkm]; [clear Qk|destruct Qk as [Qk|(r & Qk & Sr & _)]; [contradiction|];
        eapply says_trans; [exact Sq|]; eapply says_trans; [apply says_content; exact Sr|];
        apply (NoSet k y r Iy' Nkm); [unfold global in *; lia|exact Qk]].
      eapply says_trans; [exact Sq|]. eapply says_trans; [|apply (Kx y Iy'); unfold global in *; lia].
      pose proof Iy' as J1. apply in_split in J1 as (a1 & b1 & E1).
      destruct (st_hist w N m m0 rest g stop P D IT _ _ _ _ E1) as (_ & _ & St).
      destruct (own_is_shown _ _ _ _ St Oy) as (W1 & W2 & W3).
      { unfold about_effects in *. destruct Sq as [Sq _]. rewrite <- Sq. exact Aq. }
      split; [symmetry; exact W1|]. unfold payload. rewrite W3. reflexivity.
    + exact AK.
    + exact P0.
    + exact D0.
    + lia.
    + intros u U. destruct (it_free _ _ _ _ _ _ _ _ IT u ltac:(lia) ltac:(lia)) as (y & Iy & Fy & Ly).
      exists y. split; [apply In2; [exact Iy|lia]|]. split; [exact Fy|unfold global in Ly; lia].
    + intros y p I An L. destruct (Of2 y I) as [J _].
      assert (O : originated y p) by (destruct An as [An|An]; eexists; exact An).
      assert (Q : about_effects p).
      { pose proof J as J1. apply in_split in J1 as (a1 & b1 & E1). pose proof (it_run _ _ _ _ _ _ _ _ IT) as R.
        fold tr in R. rewrite E1 in R. destruct (run_split _ _ _ _ _ R) as (n' & H' & _).
        pose proof (announced_is_shown _ _ _ _ _ (ex_intro _ _ H') An) as (Q1 & _).
        assert (KS : says (GetSetEffect (after y)) K) by (apply Kx; [exact J|destruct (Of2 y I); lia]).
        destruct KS as [KS _]. unfold about_effects in *. rewrite <- Q1, KS. exact AK. }
      destruct (it_arrive _ _ _ _ _ _ _ _ IT y p i J O (or_intror Q) Ni Nm ltac:(unfold global; lia)) as (c & q & Ic & Ac & Sq & Lc).
      exists c, q. split; [apply in_or_app; right; apply in_calls_at; exact Ic|]. split; [exact Ac|]. split; [exact Sq|exact Lc].
  - (* and the clocks agree *)
    destruct (st_slave_clock w N m m0 rest g stop P D IT Eg TO Sl P1 D0 PD NoR i Ni Nm tr [] n Hend Hn) as [Q|(L & Lb & Q)].
    + exfalso.
      destruct (st_hist w N m m0 rest g stop P D IT [] m m0 rest eq_refl) as (_ & G0 & S0).
      destruct TO as (p & O & Tp).
      destruct (it_arrive _ _ _ _ _ _ _ _ IT m0 p i (or_introl eq_refl) O (or_introl Tp) Ni Nm ltac:(lia)) as (c & q & Ic & Ac & Sq & _).
      apply (Q c q); [apply in_calls_at; exact Ic|exact Ac|]. destruct Sq as [Sq _]. congruence.
    + exists L. split; [exact Lb|]. intros T. rewrite Q.
      rewrite (master_shows w N m m0 rest g stop P D IT Eg TO Sl P1 D0 PD NoR tr [] nm Hend ltac:(discriminate) Hm).
      unfold u32. lia.
Qed.
Print Assumptions C95_everybody_in_step.

(** The run up to time t. *)
Lemma in_touch_cut w N m pre post g stop P D t : in_touch w N m (pre ++ post) g stop P D -> t <= stop ->
  (forall i ev, In (i, ev) pre -> global w i ev <= t) -> (forall i ev, In (i, ev) post -> t < global w i ev) ->
  in_touch w N m pre g t P D.
Proof.
  intros [R O Bd Past W Fr Arr Prompt] Lt A B.
  assert (Here : forall i ev, In (i, ev) (pre ++ post) -> global w i ev <= t -> In (i, ev) pre).
  { intros i ev I L. apply in_app_or in I as [I|I]; [exact I|]. specialize (B i ev I). lia. }
  constructor.
  - eapply run_prefix. exact R.
  - intros a i u b j v c E. apply (O a i u b j v (c ++ post)). rewrite E, <- app_assoc. cbn. rewrite <- app_assoc. reflexivity.
  - intros i ev I. split; [apply (Bd i ev); apply in_or_app; left; exact I|auto].
  - exact Past.
  - intros i Ni. destruct (W i Ni) as [W1 W2]. split; [exact W1|]. intros z I. apply W2.
    rewrite calls_at_app. apply in_app_or in I as [I|I]; apply in_or_app; [left; exact I|right]. apply in_or_app; left; exact I.
  - intros x L U. destruct (Fr x L ltac:(lia)) as (y & I & F & Ly). exists y. split; [apply Here; [exact I|lia]|auto].
  - intros y p i I Op Tp Ni Nm U.
    destruct (Arr y p i ltac:(apply in_or_app; left; exact I) Op Tp Ni Nm ltac:(lia)) as (c & q & Ic & Ac & Sq & Lc).
    exists c, q. split; [apply Here; [exact Ic|lia]|auto].
  - intros a i ev b p E Ac Lp. apply (Prompt a i ev (b ++ post) p); auto. rewrite E, <- app_assoc. reflexivity.
Qed.

(** The same at every time t from then on. *)
Corollary C95_from_then_on w N m m0 rest g stop P D x K :
  let tr := (m, m0) :: rest in
  in_touch w N m tr g stop P D -> g = global w m m0 -> own_heartbeat m0 ->
  (forall i n, (i < N)%nat -> i <> m -> hist (n_env w i) (n_start w i) (n_past w i) n -> GetCurrentState n = Slave) ->
  0 <= P <= 1000 -> 0 <= D -> 1000 + P + D <= 5000 ->
  (forall i ev, In (i, ev) tr -> i <> m -> global w i ev <= g + D -> ~ took_over ev) ->
  about_effects K -> g <= x ->
  (forall y, In (m, y) tr -> x < global w m y -> says (GetSetEffect (after y)) K) ->
  (forall i ev q, In (i, ev) tr -> i <> m -> x < global w i ev -> call ev = OSetEffect q -> says q K) ->
  forall pre post t, tr = pre ++ post -> x + 2000 + 2 * P + 2 * D < t <= stop ->
  (forall i ev, In (i, ev) pre -> global w i ev <= t) -> (forall i ev, In (i, ev) post -> t < global w i ev) ->
  forall i n nm, (i < N)%nat -> i <> m ->
    hist (n_env w i) (n_start w i) (n_past w i ++ calls_at i pre) n ->
    hist (n_env w m) (n_start w m) (n_past w m ++ calls_at m pre) nm ->
    says (GetSetEffect nm) K /\ says (GetSetEffect n) K /\
    exists L, 0 <= L <= D /\
      forall T, GetNetworkMillis (u32 (T + n_off w i)) n = u32 (GetNetworkMillis (u32 (T + n_off w m)) nm - L).
Proof.
  intros tr IT Eg TO Sl P0 D0 PD NoR AK Gx Kx NoSet pre post t E Lt A B i n nm Ni Nm Hn Hm.
  destruct pre as [|[k z] pre].
  { exfalso. cbn in E. specialize (B m m0). rewrite <- E in B. specialize (B (or_introl eq_refl)). lia. }
  assert (Sub : forall k' z', In (k', z') ((k, z) :: pre) -> In (k', z') tr) by (intros k' z' I; rewrite E; apply in_or_app; left; exact I).
  pose proof E as E'. unfold tr in E'. cbn [app] in E'. injection E' as <- <- E'. 
  assert (IT' : in_touch w N m ((m, m0) :: pre) g t P D).
  { eapply in_touch_cut; [rewrite <- E; exact IT|lia|exact A|exact B]. }
  eapply (C95_everybody_in_step w N m m0 pre g t P D x K IT'); eauto. lia.
Qed.
Print Assumptions C95_from_then_on.

Lemma says_same_request p q K : wf_packet p -> wf_packet q -> about_effects K -> says p K -> says q K ->
  same_request Arduino p q.
Proof.
  intros Wp Wq A [P1 P2] [Q1 Q2].
  assert (Lp : length (pdata p) = 58%nat) by apply Wp. assert (Lq : length (pdata q) = 58%nat) by apply Wq.
  assert (N : forall k j z, (j < k)%nat -> nth j (payload k z) 0 = nth j (pdata z) 0).
  { intros k j z L. unfold payload. revert k j L. induction (pdata z) as [|u d IH]; intros [|k] [|j] L; try lia; cbn; try reflexivity. apply IH. lia. }
  destruct A as [A|A]; rewrite A in *.
  - change (2 =? 2) with true in *. cbv iota in *. left. exists (nth 0 (pdata p) 0), (nth 2 (pdata p) 0).
    split; (split; [assumption|]); (split; [assumption|]); (split; [discriminate|]); split; try reflexivity;
      [rewrite <- (N 3%nat 0%nat q), <- (N 3%nat 0%nat p)|rewrite <- (N 3%nat 2%nat q), <- (N 3%nat 2%nat p)]; try lia; congruence.
  - change (3 =? 2) with false in *. cbv iota in *. right.
    exists (mkRGB (nth 1 (pdata p) 0) (nth 2 (pdata p) 0) (nth 3 (pdata p) 0)).
    split; (split; [assumption|]); (split; [assumption|]); (split; [discriminate|]); cbn [red green blue]; (split; [|split]); try reflexivity;
      [rewrite <- (N 4%nat 1%nat q), <- (N 4%nat 1%nat p)|rewrite <- (N 4%nat 2%nat q), <- (N 4%nat 2%nat p)|rewrite <- (N 4%nat 3%nat q), <- (N 4%nat 3%nat p)]; try lia; congruence.
Qed.

(** Hence a picture computed by any node at global time T + L, on any strip, is
    the one the master computes at time T on the same strip.  [delta r] is when
    the r-th LED of the picture is computed; [o] and [o'] are the random offsets of
    the two nodes, which matter to five effects only. *)
Corollary C95_one_animation w N m m0 rest g stop P D x K :
  let tr := (m, m0) :: rest in
  in_touch w N m tr g stop P D -> g = global w m m0 -> own_heartbeat m0 ->
  (forall i n, (i < N)%nat -> i <> m -> hist (n_env w i) (n_start w i) (n_past w i) n -> GetCurrentState n = Slave) ->
  0 <= P <= 1000 -> 0 <= D -> 1000 + P + D <= 5000 ->
  (forall i ev, In (i, ev) tr -> i <> m -> global w i ev <= g + D -> ~ took_over ev) ->
  about_effects K -> g <= x -> x + 2000 + 2 * P + 2 * D < stop ->
  (forall y, In (m, y) tr -> x < global w m y -> says (GetSetEffect (after y)) K) ->
  (forall i ev q, In (i, ev) tr -> i <> m -> x < global w i ev -> call ev = OSetEffect q -> says q K) ->
  forall i n nm, (i < N)%nat -> i <> m ->
    hist (n_env w i) (n_start w i) (n_past w i ++ calls_at i tr) n ->
    hist (n_env w m) (n_start w m) (n_past w m ++ calls_at m tr) nm ->
    exists L, 0 <= L <= D /\
      forall fl md d o o' T delta buf,
      o = o' \/ (ptype K = 2 -> ~ per_node (nth 0 (pdata K) 0 mod 35)) ->
      Show Arduino fl md d o (GetSetEffect n) (fun r => GetNetworkMillis (u32 (T + L + delta r + n_off w i)) n) buf =
      Show Arduino fl md d o' (GetSetEffect nm) (fun r => GetNetworkMillis (u32 (T + delta r + n_off w m)) nm) buf.
Proof.
  intros tr IT Eg TO Sl P0 D0 PD NoR AK Gx Ux Kx NoSet i n nm Ni Nm Hn Hm.
  destruct (C95_everybody_in_step w N m m0 rest g stop P D x K IT Eg TO Sl P0 D0 PD NoR AK Gx Ux Kx NoSet i n nm Ni Nm Hn Hm)
    as (Sm & Sn & L & Lb & Q).
  exists L. split; [exact Lb|]. intros fl md d o o' T delta buf Off.
  apply C59_same_picture.
  - apply (says_same_request _ _ K); auto; [apply (hist_good _ _ _ _ Hn)|apply (hist_good _ _ _ _ Hm)].
  - intros r. replace (T + L + delta r + n_off w i) with ((T + delta r + L) + n_off w i) by lia. rewrite Q.
    unfold GetNetworkMillis, u32. lia.
  - destruct Off as [Off|Off]; [left; exact Off|right]. intros a b (_ & A1 & _ & A2 & _).
    destruct Sn as [S1 S2]. unfold SET_EFFECT in A1. assert (K2 : ptype K = 2) by congruence. specialize (Off K2).
    replace a with (nth 0 (pdata K) 0); [exact Off|]. rewrite <- A2. rewrite K2 in S2. change (2 =? 2) with true in S2. cbv iota in S2.
    unfold payload in S2. destruct (pdata (GetSetEffect n)), (pdata K); cbn in S2; try discriminate; try reflexivity. inversion S2. reflexivity.
Qed.
Print Assumptions C95_one_animation.

(** Non-vacuous: two nodes whose clocks are 500 ms apart, four seconds, P = 1000,
    D = 100; the second has never heard of effect 9 before and shows it in the end;
    its clock runs 50 ms behind. *)
Example C95_example : exists w m0 rest K n nm,
  let tr := (0%nat, m0) :: rest in
  in_touch w 2 0 tr 7000 11300 1000 100 /\ 7000 = global w 0 m0 /\ own_heartbeat m0 /\
  (forall i n, (i < 2)%nat -> i <> 0%nat -> hist (n_env w i) (n_start w i) (n_past w i) n -> GetCurrentState n = Slave /\ GetEffectIndex n <> 9) /\
  (forall i ev, In (i, ev) tr -> i <> 0%nat -> global w i ev <= 7000 + 100 -> ~ took_over ev) /\
  about_effects K /\ 7000 + 2000 + 2 * 1000 + 2 * 100 < 11300 /\
  (forall y, In (0%nat, y) tr -> 7000 < global w 0 y -> says (GetSetEffect (after y)) K) /\
  (forall i ev q, In (i, ev) tr -> i <> 0%nat -> 7000 < global w i ev -> call ev = OSetEffect q -> says q K) /\
  hist (n_env w 1%nat) (n_start w 1%nat) (n_past w 1%nat ++ calls_at 1 tr) n /\
  hist (n_env w 0%nat) (n_start w 0%nat) (n_past w 0%nat ++ calls_at 0 tr) nm /\
  n_off w 1%nat = 500 /\ GetEffectIndex n = 9 /\ GetNetworkMillis 11850 n = 11300 /\ GetNetworkMillis 11300 nm = 11300.
Proof.
  run_as H0 (env0 Arduino) 0 [(7, OTick (Some (effect_pkt 50 9 3 2))); (7000, OTick None); (7060, OTick (Some (heartbeat_pkt 24 7000)));
    (7900, OTick None); (8100, OTick None); (9050, OTick None); (9200, OTick None); (10100, OTick None); (10300, OTick None);
    (11100, OTick None); (11290, OTick None)].
  run_as H1 (env_const Arduino 0%N) 0 [(4000, OTick (Some (heartbeat_pkt 77 3500)));
    (7550, OTick (Some (heartbeat_pkt 24 7000))); (8650, OTick (Some (heartbeat_pkt 41 8100)));
    (9600, OTick (Some (effect_pkt 58 9 3 2))); (9750, OTick (Some (heartbeat_pkt 75 9200)));
    (10850, OTick (Some (heartbeat_pkt 92 10300))); (11650, OTick (Some (effect_pkt 109 9 3 2)))].
  run_as H2 (env0 Arduino) 0 (@nil (Z * op)).
  match type of H0 with hist _ _ [?z; ?a; ?b; ?c; ?d; ?f; ?g; ?h; ?i; ?j; ?k] ?nm =>
  match type of H1 with hist _ _ [?p; ?q; ?r; ?s; ?t; ?u; ?v] ?n =>
    set (Z0 := z) in *; set (A := a) in *; set (B := b) in *; set (C := c) in *; set (D := d) in *; set (F := f) in *; set (G := g) in *;
    set (HH := h) in *; set (II := i) in *; set (JJ := j) in *; set (KK := k) in *;
    set (PP := p) in *; set (Q := q) in *; set (R := r) in *; set (S := s) in *; set (T := t) in *; set (U := u) in *; set (V := v) in *;
    exists (mkNetwork (fun w0 => match w0 with 1%nat => env_const Arduino 0%N | _ => env0 Arduino end) (fun _ => 0)
      (fun w0 => match w0 with 1%nat => 500 | _ => 0 end) (fun w0 => match w0 with 0%nat => [Z0] | 1%nat => [PP] | _ => [] end)),
      A, [(1%nat, Q); (0%nat, B); (0%nat, C); (0%nat, D); (1%nat, R); (0%nat, F); (1%nat, S); (0%nat, G); (1%nat, T);
          (0%nat, HH); (0%nat, II); (1%nat, U); (0%nat, JJ); (1%nat, V); (0%nat, KK)], (effect_pkt 0 9 3 2), n, nm
  end end.
  cbv zeta.
  split; [constructor|].
  { intros [|[|i]].
    - split; [eexists; exact H0|]. intros x p I K. repeat (destruct I as [<-|I]; [discriminate K|]). destruct I.
    - split; [eexists; exact H1|]. intros x p I K. repeat (destruct I as [<-|I]; [discriminate K|]). destruct I.
    - split; [eexists; exact H2|]. intros x p []. }
  { intros a i u b j v c E.
    repeat (destruct a as [|? a]; [injection E as <- <- E;
       repeat (destruct b as [|? b]; [injection E as <- <- E; vm_compute; congruence|injection E as _ E]);
       try (destruct b; discriminate E)|injection E as _ E]); destruct a; discriminate E. }
  { intros i ev I. repeat (destruct I as [I|I]; [injection I as <- <-; split; [lia|vm_compute; congruence]|]). destruct I. }
  { intros [|[|i]] ev I; [destruct I as [<-|[]]; vm_compute; congruence|destruct I as [<-|[]]; vm_compute; congruence|destruct I]. }
  { intros [|[|i]] L; [| |lia]; (split; [reflexivity|]); intros x I; repeat (destruct I as [<-|I]; [reflexivity|]); destruct I. }
  { intros x L L2.
    assert (X : x < 7900 \/ 7900 <= x < 8100 \/ 8100 <= x < 9050 \/ 9050 <= x < 9200 \/ 9200 <= x < 10100 \/ 10100 <= x) by lia.
    destruct X as [X|[X|[X|[X|[X|X]]]]]; [exists C|exists D|exists F|exists G|exists HH|exists II]; (split; [cbn [In]; auto 30|]);
      (split; [split; [eexists; reflexivity|intros p I; cbn in I; intuition discriminate]|]); unfold global; cbn; lia. }
  { intros y p i I O Ty Ni Nm Ut. destruct i as [|[|i]]; [congruence| |lia].
    destruct O as (s & Ip).
    repeat (destruct I as [I|I]; [first [discriminate I|injection I as <-];
      cbn in Ip; first [exfalso; intuition discriminate|destruct Ip as [Ip|[]]; injection Ip as <- <-];
      first [eexists Q, _; split; [cbn [In]; auto 30|]; split; [split; [reflexivity|left; reflexivity]|]; split; [split; reflexivity|vm_compute; split; congruence]
            |eexists R, _; split; [cbn [In]; auto 30|]; split; [split; [reflexivity|left; reflexivity]|]; split; [split; reflexivity|vm_compute; split; congruence]
            |eexists S, _; split; [cbn [In]; auto 30|]; split; [split; [reflexivity|left; reflexivity]|]; split; [split; reflexivity|vm_compute; split; congruence]
            |eexists T, _; split; [cbn [In]; auto 30|]; split; [split; [reflexivity|left; reflexivity]|]; split; [split; reflexivity|vm_compute; split; congruence]
            |eexists U, _; split; [cbn [In]; auto 30|]; split; [split; [reflexivity|left; reflexivity]|]; split; [split; reflexivity|vm_compute; split; congruence]
            |eexists V, _; split; [cbn [In]; auto 30|]; split; [split; [reflexivity|left; reflexivity]|]; split; [split; reflexivity|vm_compute; split; congruence]]|]).
    destruct I. }
  { intros a i ev b p E [Ca Fw] Tp. exists 0%nat.
    repeat (destruct a as [|? a]; [injection E as <- <- E; first [discriminate Ca|injection Ca as <-; cbn in Fw;
       first [exfalso; intuition discriminate|idtac]];
       first [eexists A, _; split; [discriminate|]; split; [cbn [In]; auto 30|]; split; [eexists; left; reflexivity|]; split; [split; reflexivity|vm_compute; split; congruence]
             |eexists D, _; split; [discriminate|]; split; [cbn [In]; auto 30|]; split; [eexists; left; reflexivity|]; split; [split; reflexivity|vm_compute; split; congruence]
             |eexists F, _; split; [discriminate|]; split; [cbn [In]; auto 30|]; split; [eexists; left; reflexivity|]; split; [split; reflexivity|vm_compute; split; congruence]
             |eexists G, _; split; [discriminate|]; split; [cbn [In]; auto 30|]; split; [eexists; left; reflexivity|]; split; [split; reflexivity|vm_compute; split; congruence]
             |eexists II, _; split; [discriminate|]; split; [cbn [In]; auto 30|]; split; [eexists; left; reflexivity|]; split; [split; reflexivity|vm_compute; split; congruence]
             |eexists JJ, _; split; [discriminate|]; split; [cbn [In]; auto 30|]; split; [eexists; left; reflexivity|]; split; [split; reflexivity|vm_compute; split; congruence]]
       |injection E as ? E; subst]); destruct a; discriminate E. }
  split; [reflexivity|]. split; [eexists; split; [eexists; left; reflexivity|reflexivity]|].
  split.
  { intros [|[|i]] n L N H; [congruence| |lia]. cbn [n_env n_start n_past] in H.
    change [PP] with ([] ++ [PP]) in H. apply hist_last in H as (_ & -> & _). split; [reflexivity|discriminate]. }
  split.
  { intros i ev I N L [TR1 TR2]. repeat (destruct I as [I|I]; [injection I as <- <-; first [congruence|discriminate TR2|vm_compute in L; congruence]|]). destruct I. }
  split; [left; reflexivity|]. split; [lia|].
  split.
  { intros y I L. repeat (destruct I as [I|I]; [first [discriminate I|injection I as <-]; split; reflexivity|]). destruct I. }
  split.
  { intros i ev q I N L C0. repeat (destruct I as [I|I]; [injection I as <- <-; discriminate C0|]). destruct I. }
  split; [exact H1|]. split; [exact H0|]. repeat split.
Qed.
