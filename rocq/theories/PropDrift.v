(** A network whose clocks run at different speeds: C140. *)
From Coq Require Import ZArith Lia List Bool.
From Coq Require Import ZifyBool.
From Verif Require Import CInt CIntFacts Packet SpecPacket PacketFacts NetMgr NetHist SpecNet NetFacts Fastled Palette Device LedMgr SpecLed Effects SpecEffect Show ShowFacts PropShow Rsm RsmStep RsmEval RsmHist SpecRsm RsmFacts RsmTime RoleFacts RsmRun EffectFacts PropRole PropHeartbeat PropEffect PropHold PropPair PropNetTime PropNetwork PropOneMaster PropCatchUp PropInStep.
Import ListNotations.
Open Scope Z_scope.
Ltac Zify.zify_post_hook ::= Z.div_mod_to_equations.

(** A run with the time of every call: (node, (time, call)).  The time is that of
    an ideal clock; the clocks of the nodes are functions of it. *)
Definition timed := list (nat * (Z * event)).
Definition untimed (tr : timed) : run := map (fun x => (fst x, snd (snd x))) tr.

(** [clk i x] is what the clock of node [i] shows at the ideal time [x].  The
    clocks do not go backwards; in [A] ms each of them shows that more than a second has
    passed, and in [B] ms not more than five seconds. *)
Record steady (clk : nat -> Z -> Z) (N : nat) (A B : Z) : Prop := mkSteady {
  sy_forward : forall i x y, (i < N)%nat -> x <= y -> clk i x <= clk i y;
  sy_second : forall i x, (i < N)%nat -> clk i x + 1000 < clk i (x + A);
  sy_five : forall i x, (i < N)%nat -> clk i (x + B) <= clk i x + 5000
}.

(** As [in_touch] of C95, but for the clocks.  The field [n_off] of the network is
    not used. *)
Record in_reach (w : network) (clk : nat -> Z -> Z) (N m : nat) (tr : timed) (g stop P D : Z) : Prop := mkReach {
  ir_run : is_run w (untimed tr);
  ir_ordered : forall a i x u b j y v c, tr = a ++ (i, (x, u)) :: b ++ (j, (y, v)) :: c -> x <= y;
  ir_times : forall i x ev, In (i, (x, ev)) tr -> (i < N)%nat /\ at_ ev = clk i x /\ x <= stop;
  ir_past : forall i ev, In ev (n_past w i) -> at_ ev <= clk i g;
  ir_wrap : forall i, (i < N)%nat -> all_before (wrap - 7000) (n_start w i) (n_past w i ++ calls_at i (untimed tr));
  ir_free : forall x, g <= x -> x + P < stop -> exists y ev, In (m, (y, ev)) tr /\ packet_free ev /\ x < y <= x + P;
  (** heartbeats and orders of m reach every other node within D ms *)
  ir_arrive : forall x ev p i, In (m, (x, ev)) tr -> originated ev p -> ptype p = 0 \/ about_effects p ->
    (i < N)%nat -> i <> m -> x + D < stop ->
    exists y c q, In (i, (y, c)) tr /\ accepted c q /\ says q p /\ x <= y <= x + D;
  (** what a node accepts, another node originated at most D ms ago *)
  ir_prompt : forall a i x ev b p, tr = a ++ (i, (x, ev)) :: b -> accepted ev p -> life_sign p \/ about_effects p ->
    exists k y c q, k <> i /\ In (k, (y, c)) a /\ originated c q /\ says p q /\ y <= x <= y + D
}.

Lemma untimed_app a b : untimed (a ++ b) = untimed a ++ untimed b.
Proof. apply map_app. Qed.
Lemma untimed_cons i x ev b : untimed ((i, (x, ev)) :: b) = (i, ev) :: untimed b.
Proof. reflexivity. Qed.
Lemma in_untimed i ev tr : In (i, ev) (untimed tr) <-> exists x, In (i, (x, ev)) tr.
Proof.
  unfold untimed. rewrite in_map_iff. split.
  - intros ([j [x e]] & E & I). cbn in E. inversion E; subst. eauto.
  - intros (x & I). exists (i, (x, ev)). split; [reflexivity|exact I].
Qed.
Lemma in_calls i ev tr : In ev (calls_at i (untimed tr)) <-> exists x, In (i, (x, ev)) tr.
Proof. rewrite in_calls_at. apply in_untimed. Qed.

Lemma own_heartbeat_dec ev : own_heartbeat ev \/ ~ own_heartbeat ev.
Proof.
  unfold own_heartbeat, originated. induction (sent ev) as [|x l IH].
  - right. intros (p & (s & []) & _).
  - destruct IH as [(p & (s & I) & T)|No]; [left; exists p; split; [exists s; right; exact I|exact T]|].
    destruct x as [p|s p].
    + right. intros (q & (s & [E|I]) & T); [discriminate E|]. apply No. eauto.
    + destruct (Z.eq_dec (ptype p) 0) as [T|T]; [left; exists p; split; [exists s; left; reflexivity|exact T]|].
      right. intros (q & (s' & [E|I]) & Tq); [inversion E; subst; contradiction|]. apply No. eauto.
Qed.

(** A heartbeat not before [x], or none. *)
Lemma beat_window m (tr : timed) (x : Z) :
  (exists y ev, In (m, (y, ev)) tr /\ own_heartbeat ev /\ x <= y) \/
  (forall y ev, In (m, (y, ev)) tr -> own_heartbeat ev -> y < x).
Proof.
  induction tr as [|[j [y ev]] tr IH]; [right; intros ? ? []|].
  destruct IH as [(z & v & I & O & L)|No]; [left; exists z, v; repeat split; auto; right; exact I|].
  destruct (PeanoNat.Nat.eq_dec j m) as [->|Ne].
  - destruct (own_heartbeat_dec ev) as [O|O].
    + destruct (Z_lt_ge_dec y x); [|left; exists y, ev; split; [left; reflexivity|split; [exact O|lia]]].
      right. intros z v [E|I] Ov; [inversion E; subst; exact l|eauto].
    + right. intros z v [E|I] Ov; [inversion E; subst; contradiction|eauto].
  - right. intros z v [E|I] Ov; [inversion E; subst; congruence|eauto].
Qed.

Section Settled.
Variables (w : network) (clk : nat -> Z -> Z) (N m : nat) (m0 : event) (rest : timed) (g stop P D A B : Z).
Let tr : timed := (m, (g, m0)) :: rest.
Hypothesis IR : in_reach w clk N m tr g stop P D.
Hypothesis SY : steady clk N A B.
Hypothesis TO : own_heartbeat m0.
Hypothesis Sl : forall i n, (i < N)%nat -> i <> m -> hist (n_env w i) (n_start w i) (n_past w i) n -> GetCurrentState n = Slave.
Hypothesis P0 : 0 <= P.
Hypothesis D0 : 0 <= D.
Hypothesis PD : A + P + D <= B + 1.
Hypothesis NoR : forall i x ev, In (i, (x, ev)) tr -> i <> m -> x <= g + D -> ~ took_over ev.

Lemma dr_m : (m < N)%nat.
Proof. apply (ir_times _ _ _ _ _ _ _ _ _ IR m g m0). left; reflexivity. Qed.
Lemma dr_A : 0 < A.
Proof.
  clear -IR SY.
  destruct SY as [F S _]. pose proof dr_m as M. destruct (Z_lt_ge_dec 0 A); [assumption|exfalso].
  specialize (S m 0 M). specialize (F m (0 + A) 0 M ltac:(lia)). lia.
Qed.

Lemma dr_split a i x ev b : tr = a ++ (i, (x, ev)) :: b ->
  exists n, hist (n_env w i) (n_start w i) ((n_past w i ++ calls_at i (untimed a)) ++ [ev]) n /\
    api_ok ((n_past w i ++ calls_at i (untimed a)) ++ [ev]).
Proof.
  intros E. pose proof (ir_run _ _ _ _ _ _ _ _ _ IR) as R. rewrite E, untimed_app, untimed_cons in R.
  apply (run_split _ _ _ _ _ R).
Qed.

Lemma dr_wrap i a b : (i < N)%nat -> tr = a ++ b -> all_before (wrap - 7000) (n_start w i) (n_past w i ++ calls_at i (untimed a)).
Proof.
  intros Ni E. destruct (ir_wrap _ _ _ _ _ _ _ _ _ IR i Ni) as [W1 W2]. split; [exact W1|]. intros z I. apply W2.
  rewrite E, untimed_app, calls_at_app. apply in_app_or in I as [I|I]; apply in_or_app; [left; exact I|right; apply in_or_app; left; exact I].
Qed.

Lemma dr_wrap1 i a x ev b : (i < N)%nat -> tr = a ++ (i, (x, ev)) :: b ->
  all_before (wrap - 7000) (n_start w i) ((n_past w i ++ calls_at i (untimed a)) ++ [ev]).
Proof.
  intros Ni E. pose proof (dr_wrap i (a ++ [(i, (x, ev))]) b Ni ltac:(rewrite E, <- app_assoc; reflexivity)) as W.
  rewrite untimed_app, calls_at_app in W. cbn [untimed map fst snd] in W. rewrite calls_at_one, app_assoc in W. exact W.
Qed.

(** The state of [m] after calls that leave it master. *)
Lemma dr_master pre post n : tr = pre ++ post -> pre <> [] ->
  (forall x y, In (m, (x, y)) pre -> role_after y = Master) ->
  hist (n_env w m) (n_start w m) (n_past w m ++ calls_at m (untimed pre)) n -> GetCurrentState n = Master.
Proof.
  intros E Np Q H. destruct (calls_at m (untimed pre)) as [|z l _] eqn:C using rev_ind.
  - exfalso. destruct pre as [|z pre]; [congruence|]. unfold tr in E. inversion E; subst.
    unfold calls_at in C. cbn in C. rewrite PeanoNat.Nat.eqb_refl in C. discriminate C.
  - rewrite app_assoc in H. apply hist_last in H as (_ & -> & _).
    assert (I : In z (calls_at m (untimed pre))) by (rewrite C; apply in_or_app; right; left; reflexivity).
    apply in_calls in I as (x & I). exact (Q x z I).
Qed.

Lemma dr_order a b i x ev j y v : tr = a ++ b -> In (i, (x, ev)) a -> In (j, (y, v)) b -> x <= y.
Proof.
  intros E I J. apply in_split in I as (a1 & a2 & ->). apply in_split in J as (b1 & b2 & ->).
  apply (ir_ordered _ _ _ _ _ _ _ _ _ IR a1 i x ev (a2 ++ b1) j y v b2). rewrite E, <- !app_assoc. cbn. rewrite <- ?app_assoc. reflexivity.
Qed.

(** While [m] is master, at every moment [T] one of its heartbeats is between D
    and S ms old. *)
Lemma beat_in_window pre post T S : tr = pre ++ post ->
  (forall j y v, In (j, (y, v)) post -> T <= y) ->
  (forall x y, In (m, (x, y)) pre -> role_after y = Master) ->
  g + D < T <= stop -> A + P + D <= S + 1 ->
  exists x z, In (m, (x, z)) pre /\ own_heartbeat z /\ T - S <= x /\ x + D < T.
Proof.
  intros E Late Q [T1 T2] AS. pose proof dr_m as M. pose proof dr_A as A0.
  assert (Hd : exists r, pre = (m, (g, m0)) :: r).
  { destruct pre as [|z r]; [|unfold tr in E; cbn in E; inversion E; subst; eauto].
    exfalso. cbn in E. specialize (Late m g m0). rewrite <- E in Late. specialize (Late ltac:(left; reflexivity)). lia. }
  destruct Hd as (r & Er).
  destruct (Z_le_gt_dec T (g + S)) as [Near|Far].
  { exists g, m0. split; [rewrite Er; left; reflexivity|]. split; [exact TO|]. lia. }
  destruct (ir_free _ _ _ _ _ _ _ _ _ IR (T - S + A - 2) ltac:(lia) ltac:(lia)) as (y & ev & Iy & Fy & Ly).
  assert (Ip : In (m, (y, ev)) pre).
  { rewrite E in Iy. apply in_app_or in Iy as [Iy|Iy]; [exact Iy|]. specialize (Late _ _ _ Iy). lia. }
  apply in_split in Ip as (k1 & k2 & Ek).
  assert (E1 : tr = k1 ++ (m, (y, ev)) :: (k2 ++ post)) by (rewrite E, Ek, <- app_assoc; reflexivity).
  assert (K1 : exists r1, k1 = (m, (g, m0)) :: r1).
  { destruct k1 as [|z r1]; [|rewrite Ek in Er; cbn in Er; inversion Er; subst; eauto].
    rewrite Ek in Er. cbn in Er. inversion Er; subst. lia. }
  destruct (beat_window m k1 (T - S)) as [(x & z & I & O & L)|No].
  { exists x, z. split; [rewrite Ek; apply in_or_app; left; exact I|]. split; [exact O|]. split; [exact L|].
    pose proof (dr_order k1 _ m x z m y ev E1 I ltac:(left; reflexivity)). lia. }
  exists y, ev. split; [rewrite Ek; apply in_or_app; right; left; reflexivity|]. split; [|lia].
  destruct (dr_split _ _ _ _ _ E1) as (n & H & Ap).
  destruct (ir_times _ _ _ _ _ _ _ _ _ IR m y ev Iy) as (_ & At & _).
  destruct SY as [F Sec _].
  apply (C20_heartbeat_due_is_sent _ _ _ _ (ex_intro _ _ H) Ap (dr_wrap1 _ _ _ _ _ M E1)); auto.
  - pose proof H as H'. apply hist_last in H' as (H' & _). unfold role_before.
    apply (dr_master k1 ((m, (y, ev)) :: k2 ++ post) _ E1); [destruct K1 as (? & ->); discriminate| |exact H'].
    intros x z I. apply (Q x z). rewrite Ek. apply in_or_app; left; exact I.
  - intros z I O. apply in_app_or in I as [I|I].
    + pose proof (ir_past _ _ _ _ _ _ _ _ _ IR m z I) as L. specialize (Sec m g M). specialize (F m (g + A) y M ltac:(lia)). lia.
    + apply in_calls in I as (x & I). pose proof (No x z I O) as L.
      destruct (ir_times _ _ _ _ _ _ _ _ _ IR m x z ltac:(rewrite E1; apply in_or_app; left; exact I)) as (_ & Az & _).
      specialize (Sec m x M). specialize (F m (x + A) y M ltac:(lia)). lia.
Qed.

Lemma dr_all : forall pre post, tr = pre ++ post ->
  (forall i x ev, In (i, (x, ev)) pre -> role_after ev = (if Nat.eqb i m then Master else Slave) /\ (i <> m -> role_before ev = Slave)) /\
  (forall i n, (i < N)%nat -> i <> m -> hist (n_env w i) (n_start w i) (n_past w i ++ calls_at i (untimed pre)) n -> GetCurrentState n = Slave).
Proof.
  pose proof dr_m as M.
  intros pre. induction pre as [|[i [x ev]] pre IH] using rev_ind; intros post E.
  - split; [intros ? ? ? []|]. intros i n I1 I2 H; cbn in H; rewrite app_nil_r in H; eauto.
  - rewrite <- app_assoc in E. cbn [app] in E. destruct (IH _ E) as (Q & Qs). clear IH.
    destruct (dr_split _ _ _ _ _ E) as (n & H & Ap). pose proof H as H'.
    apply hist_last in H as (H & En & G & Oo & L1 & L2 & S).
    assert (Ii : In (i, (x, ev)) tr) by (rewrite E; apply in_or_app; right; left; reflexivity).
    destruct (ir_times _ _ _ _ _ _ _ _ _ IR i x ev Ii) as (Ni & At & Ti).
    assert (Qm : forall y v, In (m, (y, v)) pre -> role_after v = Master).
    { intros y v I. destruct (Q m y v I) as [K _]. rewrite PeanoNat.Nat.eqb_refl in K. exact K. }
    destruct (PeanoNat.Nat.eq_dec i m) as [->|Ne].
    + assert (Ra : role_after ev = Master).
      { destruct pre as [|z pre'].
        - unfold tr in E. cbn in E. inversion E; subst. apply (heartbeat_call _ _ _ _ (ex_intro _ _ H') Ap TO).
        - apply (no_contact_keeps_master _ _ _ _ (ex_intro _ _ H')).
          + unfold role_before. apply (dr_master _ _ _ E ltac:(discriminate) Qm H).
          + intros p Ac Lp.
            destruct (ir_prompt _ _ _ _ _ _ _ _ _ IR _ _ _ _ _ p E Ac (or_introl Lp)) as (k & y & c & q & Nk & Iy & Oy & Sy & _).
            destruct (Q k y c Iy) as [A1 A2]. specialize (A2 Nk).
            destruct (PeanoNat.Nat.eqb_spec k m); [contradiction|].
            apply in_split in Iy as (a1 & a2 & Ea).
            assert (E1 : tr = a1 ++ (k, (y, c)) :: (a2 ++ (m, (x, ev)) :: post)) by (rewrite E, Ea, <- app_assoc; reflexivity).
            destruct (dr_split _ _ _ _ _ E1) as (n' & Hy & Apy).
            destruct (slave_origin _ _ _ _ q (ex_intro _ _ Hy) A2 A1 Oy) as (q' & Cq & Sq & _).
            assert (ptype q' = 2 \/ ptype q' = 3) by (apply (Apy c q'); [apply in_or_app; right; left; reflexivity|exact Cq]).
            unfold life_sign in Lp. destruct Sy as [Sy _]. destruct Sq as [Sq _]. lia. }
      split.
      * intros j y u I. apply in_app_or in I as [I|[I|[]]]; [eauto|]. inversion I; subst. rewrite PeanoNat.Nat.eqb_refl. split; [exact Ra|congruence].
      * intros j n' Nj Nm Hj. rewrite untimed_app, calls_at_app in Hj. cbn [untimed map fst snd] in Hj.
        rewrite (calls_at_other _ _ _ Nm), app_nil_r in Hj. eauto.
    + assert (Rb : role_before ev = Slave) by (apply (Qs i (before ev)); auto).
      assert (Ra : role_after ev = Slave).
      { destruct (role_after ev) eqn:Era; [reflexivity|exfalso].
        assert (TOs : took_over ev) by (split; assumption).
        destruct (Z_le_gt_dec x (g + D)) as [Near|Far]; [exact (NoR i x ev Ii Ne Near TOs)|].
        destruct (beat_in_window pre ((i, (x, ev)) :: post) x B E) as (y & z & Iz & Oz & Ly1 & Ly2); auto; [|lia|].
        { intros j y v [K|K]; [inversion K; subst; lia|].
          apply in_split in K as (b1 & b2 & ->). exact (ir_ordered _ _ _ _ _ _ _ _ _ IR _ _ _ _ _ _ _ _ _ E). }
        assert (Iz' : In (m, (y, z)) tr) by (rewrite E; apply in_or_app; left; exact Iz).
        destruct Oz as (p & Op & Tp).
        destruct (ir_arrive _ _ _ _ _ _ _ _ _ IR y z p i Iz' Op (or_introl Tp) Ni Ne ltac:(lia)) as (u & c & q & Ic & Ac & Sq & Lc).
        assert (Ic' : In (i, (u, c)) pre).
        { rewrite E in Ic. apply in_app_or in Ic as [Ic|[Ic|Ic]]; [exact Ic|inversion Ic; subst; lia|].
          apply in_split in Ic as (b1 & b2 & ->). pose proof (ir_ordered _ _ _ _ _ _ _ _ _ IR _ _ _ _ _ _ _ _ _ E). lia. }
        destruct (C17_takeover_only_after_silence _ _ _ _ (ex_intro _ _ H') (dr_wrap1 _ _ _ _ _ Ni E) TOs) as [_ Sil].
        specialize (Sil c ltac:(apply in_or_app; right; apply in_calls; eauto)).
        assert (Cc : contact c) by (exists q; split; [exact Ac|left; destruct Sq; congruence]).
        specialize (Sil (or_introl Cc)).
        destruct (ir_times _ _ _ _ _ _ _ _ _ IR i u c Ic) as (_ & Au & _).
        destruct SY as [F _ Five]. specialize (Five i (x - B) Ni). replace (x - B + B) with x in Five by lia.
        specialize (F i (x - B) u Ni ltac:(lia)). lia. }
      split.
      * intros j y u I. apply in_app_or in I as [I|[I|[]]]; [eauto|]. inversion I; subst.
        destruct (PeanoNat.Nat.eqb_spec j m); [contradiction|split; [exact Ra|auto]].
      * intros j n' Nj Nm Hj. rewrite untimed_app, calls_at_app in Hj. cbn [untimed map fst snd] in Hj.
        destruct (PeanoNat.Nat.eq_dec j i) as [->|Nji].
        -- rewrite calls_at_one, app_assoc in Hj. apply hist_last in Hj as (_ & -> & _). exact Ra.
        -- rewrite (calls_at_other _ _ _ Nji), app_nil_r in Hj. eauto.
Qed.

Lemma dr_roles i x ev : In (i, (x, ev)) tr -> role_after ev = if Nat.eqb i m then Master else Slave.
Proof. intros I. apply (proj1 (dr_all tr [] (eq_sym (app_nil_r tr))) i x ev I). Qed.
Lemma dr_slave i x ev : In (i, (x, ev)) tr -> i <> m -> role_before ev = Slave.
Proof. intros I. apply (proj1 (dr_all tr [] (eq_sym (app_nil_r tr))) i x ev I). Qed.
Lemma dr_reign a x ev b : tr = a ++ (m, (x, ev)) :: b -> a <> [] -> role_before ev = Master.
Proof.
  intros E Na. destruct (dr_split _ _ _ _ _ E) as (n & H & _). apply hist_last in H as (H & _).
  apply (dr_master a _ _ E Na); [|exact H].
  intros y v I. pose proof (dr_roles m y v ltac:(rewrite E; apply in_or_app; left; exact I)) as K. rewrite PeanoNat.Nat.eqb_refl in K. exact K.
Qed.

(** The offset of the master does not change. *)
Lemma dr_offset pre post n : tr = pre ++ post -> pre <> [] ->
  hist (n_env w m) (n_start w m) (n_past w m ++ calls_at m (untimed pre)) n -> millis_offset n = millis_offset (after m0).
Proof.
  revert post n. induction pre as [|[i [x ev]] pre IH] using rev_ind; intros post n E Np H; [congruence|].
  rewrite <- app_assoc in E. cbn [app] in E. rewrite untimed_app, calls_at_app in H. cbn [untimed map fst snd] in H.
  destruct pre as [|z pre'].
  - unfold tr in E. cbn in E. inversion E; subst. cbn in H. rewrite PeanoNat.Nat.eqb_refl in H. cbn in H.
    apply hist_last in H as (_ & -> & _). reflexivity.
  - destruct (PeanoNat.Nat.eq_dec i m) as [->|Ne].
    + rewrite calls_at_one, app_assoc in H. apply hist_last in H as (H & -> & G & O & L1 & L2 & S).
      destruct (offset_step _ _ S) as [K|(K & _)].
      * rewrite K. eapply IH; [exact E|discriminate|exact H].
      * pose proof (dr_reign _ _ _ _ E ltac:(discriminate)) as Q. congruence.
    + rewrite (calls_at_other i m ev), app_nil_r in H by auto. eapply IH; [exact E|discriminate|exact H].
Qed.

Let c0 : Z := millis_offset (after m0).

(** Every heartbeat of m carries the time it shows. *)
Lemma dr_value a x y b q : tr = a ++ (m, (x, y)) :: b -> originated y q -> ptype q = 0 ->
  big_endian (payload 4 q) = u32 (clk m x + c0).
Proof.
  intros E O T. destruct (dr_split _ _ _ _ _ E) as (n & H & Ap).
  destruct (C20_heartbeats_carry_network_time _ _ _ _ q (ex_intro _ _ H) Ap O T) as (_ & E1 & E2).
  rewrite E1, <- E2. pose proof H as Hl. apply hist_last in Hl as (_ & -> & _).
  assert (H2 : hist (n_env w m) (n_start w m) (n_past w m ++ calls_at m (untimed (a ++ [(m, (x, y))]))) (after y)).
  { rewrite untimed_app, calls_at_app. cbn [untimed map fst snd]. rewrite calls_at_one, app_assoc. exact H. }
  destruct (ir_times _ _ _ _ _ _ _ _ _ IR m x y ltac:(rewrite E; apply in_or_app; right; left; reflexivity)) as (_ & At & _).
  unfold GetNetworkMillis. rewrite (dr_offset (a ++ [(m, (x, y))]) b _ ltac:(rewrite E, <- app_assoc; reflexivity) ltac:(destruct a; discriminate) H2).
  fold c0. rewrite At. unfold u32. lia.
Qed.

(** What is accepted comes from m, or somebody ordered it. *)
Lemma dr_origin a i x ev b p : tr = a ++ (i, (x, ev)) :: b -> accepted ev p -> life_sign p \/ about_effects p ->
  exists k y c q, k <> i /\ In (k, (y, c)) a /\ originated c q /\ says p q /\ y <= x <= y + D /\
    (k = m \/ exists r, call c = OSetEffect r /\ same_content q r /\ about_effects r).
Proof.
  intros E Ac Lp. destruct (ir_prompt _ _ _ _ _ _ _ _ _ IR _ _ _ _ _ p E Ac Lp) as (k & y & c & q & Nk & Iy & Oy & Sy & Ly).
  exists k, y, c, q. repeat (split; [assumption|]). destruct (PeanoNat.Nat.eq_dec k m) as [->|Nm]; [left; reflexivity|right].
  assert (I : In (k, (y, c)) tr) by (rewrite E; apply in_or_app; left; exact Iy).
  pose proof (dr_slave _ _ _ I Nm) as A2. pose proof (dr_roles _ _ _ I) as A1.
  destruct (PeanoNat.Nat.eqb_spec k m); [contradiction|].
  apply in_split in I as (a1 & a2 & Ea). destruct (dr_split _ _ _ _ _ Ea) as (n' & Hy & Apy).
  destruct (slave_origin _ _ _ _ q (ex_intro _ _ Hy) A2 A1 Oy) as (r & Cr & Sr & _).
  exists r. split; [exact Cr|]. split; [exact Sr|].
  apply (Apy c r); [apply in_or_app; right; left; reflexivity|exact Cr].
Qed.

Lemma dr_beat a i x ev b p : tr = a ++ (i, (x, ev)) :: b -> i <> m -> accepted ev p -> ptype p = 0 ->
  exists y, y <= x <= y + D /\ big_endian (payload 4 p) = u32 (clk m y + c0).
Proof.
  intros E Nm Ac Tp. destruct (dr_origin _ _ _ _ _ p E Ac) as (k & y & c & q & Nk & Iy & Oy & Sy & Ly & Q); [left; left; exact Tp|].
  destruct Q as [->|(r & _ & (Q1 & _) & Q2)]; [|exfalso; unfold about_effects in Q2; destruct Sy as [Sy _]; lia].
  exists y. split; [exact Ly|]. destruct Sy as [Sq1 Sq2]. rewrite Tp in Sq1. symmetry in Sq1. rewrite Sq1 in Sq2.
  change (0 =? 2) with false in Sq2. cbv iota in Sq2. rewrite Sq2.
  apply in_split in Iy as (a1 & a2 & ->). rewrite <- app_assoc in E. cbn [app] in E.
  apply (dr_value _ _ _ _ q E Oy Sq1).
Qed.

Lemma announce_since (h : timed) (x : Z) :
  (exists y ev, In (m, (y, ev)) h /\ rebroadcast ev /\ x < y) \/ (forall y ev, In (m, (y, ev)) h -> rebroadcast ev -> y <= x).
Proof.
  induction h as [|[j [y ev]] h IH]; [right; intros ? ? []|].
  destruct IH as [(z & v & I & O & L)|No]; [left; exists z, v; repeat split; auto; right; exact I|].
  destruct (PeanoNat.Nat.eq_dec j m) as [->|Ne].
  - destruct (rebroadcast_dec ev) as [O|O].
    + destruct (Z_lt_ge_dec x y); [left; exists y, ev; split; [left; reflexivity|split; [exact O|lia]]|].
      right. intros z v [E|I] Ov; [inversion E; subst; lia|eauto].
    + right. intros z v [E|I] Ov; [inversion E; subst; contradiction|eauto].
  - right. intros z v [E|I] Ov; [inversion E; subst; congruence|eauto].
Qed.

(** The master announces its effect at least every 2 A + 2 P ms. *)
Lemma dr_announces x : (forall u, clk m (u + P) <= clk m u + 1000) -> g <= x -> x + 2 * A + 2 * P < stop ->
  exists y ev p, In (m, (y, ev)) tr /\ announces ev p /\ x < y <= x + 2 * A + 2 * P.
Proof.
  intros Short Gx Ux. pose proof dr_m as M. pose proof dr_A as A0.
  assert (Two : forall u, clk m u + 2000 < clk m (u + 2 * A)).
  { intros u. pose proof (sy_second _ _ _ _ SY m u M). pose proof (sy_second _ _ _ _ SY m (u + A) M).
    replace (u + 2 * A) with (u + A + A) by lia. lia. }
  pose proof (sy_forward _ _ _ _ SY m) as F.
  assert (Found : forall y ev, In (m, (y, ev)) tr -> rebroadcast ev -> x < y <= x + 2 * A + 2 * P ->
            exists y ev p, In (m, (y, ev)) tr /\ announces ev p /\ x < y <= x + 2 * A + 2 * P).
  { intros y ev I (p & Q) L. exists y, ev, p. split; [exact I|]. split; [left; exact Q|exact L]. }
  assert (Try : forall z ev, In (m, (z, ev)) tr -> packet_free ev -> x + 2 * A <= z <= x + 2 * A + 2 * P ->
            (exists y ev p, In (m, (y, ev)) tr /\ announces ev p /\ x < y <= x + 2 * A + 2 * P) \/ by_site ByHeartbeat ev).
  { intros z ev Iz Fz Lz. pose proof Iz as Iz0. apply in_split in Iz as (a & b & E).
    destruct (dr_split _ _ _ _ _ E) as (n & H & Ap).
    destruct (ir_times _ _ _ _ _ _ _ _ _ IR m z ev Iz0) as (_ & At & _).
    assert (Na : a <> []).
    { intros ->. unfold tr in E. cbn in E. inversion E; subst. lia. }
    destruct (announce_since a x) as [(v & c & Iv & Rv & Lv)|No].
    - left. apply (Found v c); [rewrite E; apply in_or_app; left; exact Iv|exact Rv|].
      pose proof (dr_order _ _ _ _ _ _ _ _ E Iv (or_introl eq_refl)). lia.
    - destruct (C32_rebroadcast_due_is_sent _ _ _ _ (ex_intro _ _ H)) as [R|[R|(p & R)]]; auto.
      + destruct (dr_wrap1 _ _ _ _ _ M E) as [b1 b2]. split; [unfold wrap in *; lia|].
        intros v I. specialize (b2 v I). unfold wrap in *. lia.
      + apply (dr_reign _ _ _ _ E Na).
      + assert (Old : forall t, t <= clk m x -> t + 2000 < at_ ev).
        { intros t Lt. rewrite At. pose proof (Two x). specialize (F (x + 2 * A) z M ltac:(lia)). lia. }
        intros v Iv K. apply Old. apply in_app_or in Iv as [Iv|Iv].
        * pose proof (ir_past _ _ _ _ _ _ _ _ _ IR m v Iv). specialize (F g x M Gx). lia.
        * apply in_calls in Iv as (u & Iv).
          destruct (ir_times _ _ _ _ _ _ _ _ _ IR m u v ltac:(rewrite E; apply in_or_app; left; exact Iv)) as (_ & -> & _).
          destruct K as [K|[K _]]; [apply F; [exact M|eauto]|].
          apply F; [exact M|].
          apply in_split in Iv as (a1 & a2 & Ea). destruct a1 as [|z1 a1].
          -- rewrite Ea in E. unfold tr in E. cbn in E. inversion E; subst. exact Gx.
          -- exfalso. assert (E1 : tr = (z1 :: a1) ++ (m, (u, v)) :: (a2 ++ (m, (z, ev)) :: b)) by (rewrite E, Ea, <- app_assoc; reflexivity).
             pose proof (dr_reign _ _ _ _ E1 ltac:(discriminate)). congruence.
      + left. apply (Found z ev); [exact Iz0|exact R|lia].
      + left. exists z, ev, p. split; [exact Iz0|]. split; [right; exact R|lia]. }
  destruct (ir_free _ _ _ _ _ _ _ _ _ IR (x + 2 * A - 1) ltac:(lia) ltac:(lia)) as (y & ev & Iy & Fy & Ly).
  destruct (Try y ev Iy Fy ltac:(lia)) as [K|HB]; [exact K|].
  destruct (ir_free _ _ _ _ _ _ _ _ _ IR y ltac:(lia) ltac:(lia)) as (z & v & Iz & Fz & Lz).
  destruct (Try z v Iz Fz ltac:(lia)) as [K|HB2]; [exact K|exfalso].
  destruct (ir_times _ _ _ _ _ _ _ _ _ IR m y ev Iy) as (_ & Ay & _).
  destruct (ir_times _ _ _ _ _ _ _ _ _ IR m z v Iz) as (_ & Az & _).
  pose proof Iz as Iz0. apply in_split in Iz as (a & b & E).
  assert (Ia : In (m, (y, ev)) a).
  { rewrite E in Iy. apply in_app_or in Iy as [Iy|[Iy|Iy]]; [exact Iy|inversion Iy; subst; lia|].
    apply in_split in Iy as (b1 & b2 & ->). pose proof (ir_ordered _ _ _ _ _ _ _ _ _ IR _ _ _ _ _ _ _ _ _ E). lia. }
  destruct (dr_split _ _ _ _ _ E) as (n & H & Ap). pose proof (dr_wrap1 _ _ _ _ _ M E) as W.
  apply in_split in Ia as (a1 & a2 & Ea). rewrite Ea, untimed_app, untimed_cons, calls_at_app in H, Ap, W.
  replace (calls_at m ((m, ev) :: untimed a2)) with (ev :: calls_at m (untimed a2)) in H, Ap, W
    by (unfold calls_at; cbn; rewrite PeanoNat.Nat.eqb_refl; reflexivity).
  rewrite app_assoc, <- app_assoc in H, Ap, W. cbn [app] in H, Ap, W.
  assert (at_ ev + 1000 < at_ v).
  { apply (C20_heartbeats_apart _ _ _ ev _ v (ex_intro _ _ H) Ap W).
    - eapply heartbeat_site_in; [exact H|exact Ap|apply in_or_app; right; left; reflexivity|exact HB].
    - eapply heartbeat_site_in; [exact H|exact Ap| |exact HB2].
      apply in_or_app; right; right; apply in_or_app; right; left; reflexivity. }
  specialize (Short y). specialize (F z (y + P) M ltac:(lia)). lia.
Qed.

(** The time of a slave comes from the last heartbeat it accepted. *)
Lemma dr_slave_clock i : (i < N)%nat -> i <> m -> forall pre post n, tr = pre ++ post ->
  hist (n_env w i) (n_start w i) (n_past w i ++ calls_at i (untimed pre)) n ->
  (forall x ev p, In (i, (x, ev)) pre -> accepted ev p -> ptype p <> 0) \/
  exists y x, y <= x <= y + D /\ x <= stop /\ (forall x' ev p, In (i, (x', ev)) pre -> accepted ev p -> ptype p = 0 -> x' <= x) /\
    forall t, GetNetworkMillis (u32 t) n = u32 (clk m y + c0 + (t - clk i x)).
Proof.
  intros Ni Nm pre. induction pre as [|[j [x ev]] pre IH] using rev_ind; intros post n E H.
  - left. intros ? ? ? [].
  - rewrite <- app_assoc in E. cbn [app] in E. rewrite untimed_app, calls_at_app in H. cbn [untimed map fst snd] in H.
    destruct (PeanoNat.Nat.eq_dec j i) as [->|Ne].
    + rewrite calls_at_one, app_assoc in H. pose proof H as HH.
      apply hist_last in H as (H & -> & G & O & L1 & L2 & S).
      assert (Ii : In (i, (x, ev)) tr) by (rewrite E; apply in_or_app; right; left; reflexivity).
      pose proof (dr_slave _ _ _ Ii Nm) as Rb.
      destruct (ir_times _ _ _ _ _ _ _ _ _ IR i x ev Ii) as (_ & At & Tx).
      destruct (accepts_dec _ _ S) as [(p & Ac)|No].
      * destruct (Z.eq_dec (ptype p) 0) as [Tp|Tp].
        -- right. destruct (dr_beat _ _ _ _ _ p E Nm Ac Tp) as (y & Ly & V). exists y, x. split; [exact Ly|]. split; [exact Tx|]. split.
           ++ intros x' ev' p' I' _ _. apply in_app_or in I' as [I'|[I'|[]]]; [|inversion I'; subst; lia].
              apply (dr_order _ _ i x' ev' i x ev E I'). left; reflexivity.
           ++ intros t. rewrite (C25_network_time_follows_heartbeat _ _ _ _ p [] _ HH Rb Ac Tp) by (intros ? ? []).
              rewrite V, At. unfold u32. lia.
        -- assert (Same : forall t, GetNetworkMillis (u32 t) (after ev) = GetNetworkMillis (u32 t) (before ev)).
           { intros t. destruct (offset_step _ _ S) as [K|(_ & q & Aq & Tq & _)]; [unfold GetNetworkMillis; rewrite K; reflexivity|].
             destruct Ac as [C1 _], Aq as [C2 _]. assert (q = p) by congruence. subst. contradiction. }
           assert (Th : forall q, accepted ev q -> ptype q <> 0).
           { intros q Aq. destruct Ac as [C1 _], Aq as [C2 _]. assert (q = p) by congruence. subst. exact Tp. }
           destruct (IH _ _ E H) as [Q|(y & x0 & Ly & Tx0 & Q1 & Q2)].
           ++ left. intros x' ev' q I Aq. apply in_app_or in I as [I|[I|[]]]; [eauto|]. inversion I; subst. auto.
           ++ right. exists y, x0. split; [exact Ly|]. split; [exact Tx0|]. split; [|intros t; rewrite Same; apply Q2].
              intros x' ev' q I Aq Tq. apply in_app_or in I as [I|[I|[]]]; [eauto|]. inversion I; subst. exfalso; eapply Th; eauto.
      * assert (Same : forall t, GetNetworkMillis (u32 t) (after ev) = GetNetworkMillis (u32 t) (before ev)).
        { intros t. destruct (offset_step _ _ S) as [K|(_ & q & Aq & Tq & _)]; [unfold GetNetworkMillis; rewrite K; reflexivity|].
          exfalso. eapply No. exact Aq. }
        destruct (IH _ _ E H) as [Q|(y & x0 & Ly & Tx0 & Q1 & Q2)].
        -- left. intros x' ev' q I Aq. apply in_app_or in I as [I|[I|[]]]; [eauto|]. inversion I; subst. exfalso; eapply No; eauto.
        -- right. exists y, x0. split; [exact Ly|]. split; [exact Tx0|]. split; [|intros t; rewrite Same; apply Q2].
           intros x' ev' q I Aq Tq. apply in_app_or in I as [I|[I|[]]]; [eauto|]. inversion I; subst. exfalso; eapply No; eauto.
    + rewrite (calls_at_other j i ev), app_nil_r in H by auto.
      destruct (IH _ _ E H) as [Q|(y & x0 & Ly & Tx0 & Q1 & Q2)].
      * left. intros x' ev' q I Aq. apply in_app_or in I as [I|[I|[]]]; [eauto|]. inversion I; subst. congruence.
      * right. exists y, x0. split; [exact Ly|]. split; [exact Tx0|]. split; [|exact Q2].
        intros x' ev' q I Aq Tq. apply in_app_or in I as [I|[I|[]]]; [eauto|]. inversion I; subst. congruence.
Qed.
End Settled.

(** Supplies the hypotheses of the section. *)
Ltac feed H := repeat match type of H with ?X -> _ => let K := fresh in assert (K : X) by assumption; specialize (H K); clear K end.

(** ** C140 *)

(** Node m sends a heartbeat with call m0 at time g; the others are slaves then.
    Whatever the clocks show, as long as A + P + D <= B + 1: m is the only master
    up to [stop].  (With exact clocks A = 1001 and B = 5000, and this is C92.) *)
Theorem C140_one_master w clk N m m0 rest g stop P D A B :
  let tr := (m, (g, m0)) :: rest in
  in_reach w clk N m tr g stop P D -> steady clk N A B -> own_heartbeat m0 ->
  (forall i n, (i < N)%nat -> i <> m -> hist (n_env w i) (n_start w i) (n_past w i) n -> GetCurrentState n = Slave) ->
  0 <= P -> 0 <= D -> A + P + D <= B + 1 ->
  (forall i x ev, In (i, (x, ev)) tr -> i <> m -> x <= g + D -> ~ took_over ev) ->
  forall i x ev, In (i, (x, ev)) tr -> role_after ev = if Nat.eqb i m then Master else Slave.
Proof. intros tr IR SY TO Sl P0 D0 PD NoR i x ev I. exact (dr_roles w clk N m m0 rest g stop P D A B IR SY TO Sl D0 PD NoR i x ev I). Qed.
Print Assumptions C140_one_master.

(** No clock is wrong by more than [E] ms after [S] ms. *)
Definition accurate (clk : nat -> Z -> Z) (N : nat) (S E : Z) : Prop :=
  forall i x y, (i < N)%nat -> x <= y <= x + S -> - E <= (clk i y - clk i x) - (y - x) <= E.

(** However long the run is: at its end the network times of any node and of the
    master differ by at most 2 E ms on one side and D + 2 E ms on the other, where E
    is how wrong a clock can be after A + P + 2 D ms. *)
Theorem C140_times_stay_together w clk N m m0 rest g stop P D A B E :
  let tr := (m, (g, m0)) :: rest in
  in_reach w clk N m tr g stop P D -> steady clk N A B -> own_heartbeat m0 ->
  (forall i n, (i < N)%nat -> i <> m -> hist (n_env w i) (n_start w i) (n_past w i) n -> GetCurrentState n = Slave) ->
  0 <= P -> 0 <= D -> A + P + D <= B + 1 ->
  (forall i x ev, In (i, (x, ev)) tr -> i <> m -> x <= g + D -> ~ took_over ev) ->
  accurate clk N (A + P + 2 * D) E -> g + D < stop ->
  forall i n nm, (i < N)%nat -> i <> m ->
    hist (n_env w i) (n_start w i) (n_past w i ++ calls_at i (untimed tr)) n ->
    hist (n_env w m) (n_start w m) (n_past w m ++ calls_at m (untimed tr)) nm ->
    exists L, - (2 * E) <= L <= D + 2 * E /\
      GetNetworkMillis (u32 (clk i stop)) n = u32 (GetNetworkMillis (u32 (clk m stop)) nm - L).
Proof.
  intros tr IR SY TO Sl P0 D0 PD NoR Acc Late i n nm Ni Nm Hn Hm.
  assert (M : (m < N)%nat) by exact (dr_m w clk N m m0 rest g stop P D IR).
  assert (A0 : 0 < A) by exact (dr_A w clk N m m0 rest g stop P D A B IR SY).
  assert (Hend : tr = tr ++ []) by (symmetry; apply app_nil_r).
  pose proof (dr_roles w clk N m m0 rest g stop P D A B IR SY TO Sl D0 PD NoR) as Roles. fold tr in Roles.
  assert (Qm : forall x y, In (m, (x, y)) tr -> role_after y = Master).
  { intros x y I. specialize (Roles m x y I). rewrite PeanoNat.Nat.eqb_refl in Roles. exact Roles. }
  pose proof (beat_in_window w clk N m m0 rest g stop P D A B) as BW. feed BW.
  destruct (BW tr [] stop (A + P + D - 1) Hend) as (x & z & Iz & (p & Op & Tp) & L1 & L2);
    [intros ? ? ? []|exact Qm|lia|lia|].
  destruct (ir_arrive _ _ _ _ _ _ _ _ _ IR x z p i Iz Op (or_introl Tp) Ni Nm L2) as (y & c & q & Ic & Ac & Sq & Lc).
  assert (Tq : ptype q = 0) by (destruct Sq; congruence).
  destruct (dr_slave_clock w clk N m m0 rest g stop P D A B IR SY TO Sl D0 PD NoR i Ni Nm tr [] n Hend Hn) as [Q|(y1 & x1 & Ly & X1 & Q1 & Q2)].
  { exfalso. exact (Q y c q Ic Ac Tq). }
  pose proof (Q1 y c q Ic Ac Tq) as Last.
  rewrite Q2. unfold GetNetworkMillis at 1.
  rewrite (dr_offset w clk N m m0 rest g stop P D A B IR SY TO Sl D0 PD NoR tr [] nm Hend ltac:(discriminate) Hm).
  set (c0 := millis_offset (after m0)).
  exists ((clk m stop - clk m y1) - (clk i stop - clk i x1)). split.
  - pose proof (Acc m y1 stop M ltac:(lia)). pose proof (Acc i x1 stop Ni ltac:(lia)). lia.
  - unfold u32. lia.
Qed.
Print Assumptions C140_times_stay_together.

(** From time x on the master shows K and nobody orders anything else.  Then from
    2 A + 2 P + 2 D ms later on everybody shows K.  (A clock must not show that
    more than a second has passed between two free ticks of the master.) *)
Theorem C140_everybody_shows_it w clk N m m0 rest g stop P D A B x K :
  let tr := (m, (g, m0)) :: rest in
  in_reach w clk N m tr g stop P D -> steady clk N A B -> own_heartbeat m0 ->
  (forall i n, (i < N)%nat -> i <> m -> hist (n_env w i) (n_start w i) (n_past w i) n -> GetCurrentState n = Slave) ->
  0 <= P -> 0 <= D -> A + P + D <= B + 1 -> (forall u, clk m (u + P) <= clk m u + 1000) ->
  (forall i y ev, In (i, (y, ev)) tr -> i <> m -> y <= g + D -> ~ took_over ev) ->
  about_effects K -> g <= x -> x + 2 * A + 2 * P + 2 * D < stop ->
  (forall y ev, In (m, (y, ev)) tr -> x < y -> says (GetSetEffect (after ev)) K) ->
  (forall i y ev q, In (i, (y, ev)) tr -> i <> m -> x < y -> call ev = OSetEffect q -> says q K) ->
  forall i n, (i < N)%nat ->
    hist (n_env w i) (n_start w i) (n_past w i ++ calls_at i (untimed tr)) n -> says (GetSetEffect n) K.
Proof.
  intros tr IR SY TO Sl P0 D0 PD Short NoR AK Gx Ux Kx NoSet i n Ni Hn.
  assert (A0 : 0 < A) by exact (dr_A w clk N m m0 rest g stop P D A B IR SY).
  assert (Split : forall y j c, In (j, (y, c)) tr -> exists a b, tr = a ++ (j, (y, c)) :: b) by (intros y j c I; apply in_split in I; exact I).
  pose proof (dr_split w clk N m m0 rest g stop P D) as DS. feed DS. fold tr in DS.
  pose proof (dr_origin w clk N m m0 rest g stop P D A B) as DO. feed DO. fold tr in DO.
  pose proof (dr_slave w clk N m m0 rest g stop P D A B) as DL. feed DL. fold tr in DL.
  pose proof (dr_announces w clk N m m0 rest g stop P D A B) as DA. feed DA. fold tr in DA.
  pose proof (ir_ordered _ _ _ _ _ _ _ _ _ IR) as Or. fold tr in Or.
  assert (Own : forall y c p, In (m, (y, c)) tr -> x < y -> originated c p -> about_effects p -> says p K).
  { intros y c p I L (s & O) Ap. destruct (Split _ _ _ I) as (a & b & E). destruct (DS _ _ _ _ _ E) as (n' & H & _).
    apply hist_last in H as (_ & _ & _ & _ & _ & _ & S).
    destruct (own_is_shown _ _ _ _ S O Ap) as (W1 & W2 & W3).
    eapply says_trans; [|apply (Kx y c I L)]. split; [symmetry; exact W1|]. unfold payload. rewrite W3. reflexivity. }
  destruct (PeanoNat.Nat.eq_dec i m) as [->|Nm].
  - (* the last call of the master *)
    destruct (ir_free _ _ _ _ _ _ _ _ _ IR x Gx ltac:(lia)) as (y & ev & Iy & _ & Ly). fold tr in Iy.
    destruct (calls_at m (untimed tr)) as [|z l _] eqn:C using rev_ind.
    + exfalso. assert (I : In ev (calls_at m (untimed tr))) by (apply in_calls; eauto). rewrite C in I. destruct I.
    + rewrite app_assoc in Hn. apply hist_last in Hn as (_ & -> & _).
      assert (X : exists u a b, tr = a ++ (m, (u, z)) :: b /\ forall v c, ~ In (m, (v, c)) b).
      { clear -C. revert l C. induction tr as [|[j [u c]] t IH] using rev_ind; intros l C; [destruct l; discriminate C|].
        rewrite untimed_app, calls_at_app in C. cbn [untimed map fst snd] in C.
        destruct (PeanoNat.Nat.eq_dec j m) as [->|Ne].
        - rewrite calls_at_one in C. apply app_inj_tail in C as [_ ->]. exists u, t, []. split; [reflexivity|]. intros v c [].
        - rewrite (calls_at_other _ _ _ (not_eq_sym Ne)), app_nil_r in C. destruct (IH l C) as (v & a & b & E & Q). exists v, a, (b ++ [(j, (u, c))]).
          split; [rewrite E, <- app_assoc; reflexivity|]. intros v' c' I. apply in_app_or in I as [I|[I|[]]]; [eapply Q; eauto|inversion I; congruence]. }
      destruct X as (u & a & b & E & Q). apply (Kx u z); [fold tr; rewrite E; apply in_or_app; right; left; reflexivity|].
      rewrite E in Iy. apply in_app_or in Iy as [Iy|[Iy|Iy]]; [|inversion Iy; subst; lia|exfalso; eapply Q; eauto].
      apply in_split in Iy as (a1 & a2 & ->). rewrite <- app_assoc in E. cbn in E. pose proof (Or _ _ _ _ _ _ _ _ _ E). lia.
  - destruct (DA (x + D) Short ltac:(lia) ltac:(lia)) as (y & ev & p & Iy & Ap & Ly).
    assert (Op : originated ev p) by (destruct Ap as [Ap|Ap]; eexists; exact Ap).
    assert (Ep : about_effects p).
    { destruct (Split _ _ _ Iy) as (a & b & E). destruct (DS _ _ _ _ _ E) as (n' & H' & _).
      pose proof (announced_is_shown _ _ _ _ _ (ex_intro _ _ H') Ap) as (Q1 & _).
      assert (KS : says (GetSetEffect (after ev)) K) by (apply (Kx y); [exact Iy|lia]).
      destruct KS as [KS _]. unfold about_effects in *. rewrite <- Q1, KS. exact AK. }
    destruct (ir_arrive _ _ _ _ _ _ _ _ _ IR y ev p i Iy Op (or_intror Ep) Ni Nm ltac:(lia)) as (u & c & q & Ic & Ac & Sq & Lc).
    fold tr in Ic.
    assert (SK : says q K) by (eapply says_trans; [exact Sq|]; apply (Own y ev p Iy); auto; lia).
    assert (Tq : about_effects q) by (unfold about_effects in *; destruct SK as [SK _]; rewrite SK; exact AK).
    destruct (Split _ _ _ Ic) as (a & b & E). destruct (DS _ _ _ _ _ E) as (n' & Hc & _).
    assert (Sc : GetSetEffect (after c) = q).
    { destruct Tq as [Tq|Tq]; [apply (C27_set_effect_adopted _ _ _ c q (ex_intro _ _ Hc) Ac Tq)|apply (C27_control_adopted _ _ _ c q (ex_intro _ _ Hc) Ac Tq)]. }
    assert (Eh : n_past w i ++ calls_at i (untimed tr) = ((n_past w i ++ calls_at i (untimed a)) ++ [c]) ++ calls_at i (untimed b)).
    { rewrite E, untimed_app, untimed_cons, calls_at_app, <- !app_assoc. f_equal. f_equal.
      unfold calls_at. cbn. rewrite PeanoNat.Nat.eqb_refl. reflexivity. }
    rewrite Eh in Hn. apply (stays_at_K _ _ K _ _ _ Hn).
    + intros z Hz. apply hist_last in Hz as (_ & -> & _). rewrite Sc. exact SK.
    + intros z Iz. apply in_calls in Iz as (v & Iz).
      assert (Iv : In (i, (v, z)) tr) by (rewrite E; apply in_or_app; right; right; exact Iz).
      assert (Lv : x + D < v).
      { apply in_split in Iz as (b1 & b2 & ->). pose proof (Or _ _ _ _ _ _ _ _ _ E). lia. }
      split; [exact (DL i v z Iv Nm)|]. split; [intros r Cr; apply (NoSet i v z r Iv Nm); [lia|exact Cr]|].
      intros r Ar Er. destruct (Split _ _ _ Iv) as (a1 & b1 & E1).
      destruct (DO _ _ _ _ _ r E1 Ar (or_intror Er)) as (k & y1 & c1 & q1 & Nk & Ik & Ok & Sk & Lk & Qk).
      assert (Ik' : In (k, (y1, c1)) tr) by (rewrite E1; apply in_or_app; left; exact Ik).
      assert (Eq1 : about_effects q1) by (unfold about_effects in *; destruct Sk as [Sk _]; rewrite <- Sk; exact Er).
      eapply says_trans; [exact Sk|].
      destruct (PeanoNat.Nat.eq_dec k m) as [->|Nkm]; [apply (Own y1 c1 q1 Ik'); auto; lia|].
      destruct Qk as [Qk|(r' & Qk & Sr & _)]; [contradiction|].
      eapply says_trans; [apply says_content; exact Sr|]. apply (NoSet k y1 c1 r' Ik' Nkm); [lia|exact Qk].
Qed.
Print Assumptions C140_everybody_shows_it.

(** At the end of the run every node draws, on any strip, the picture the master
    draws at its own network time L ms earlier.  [delta r] is when the r-th LED is
    computed; [o] and [o'] are the random offsets of the two nodes. *)
Corollary C140_one_animation w clk N m m0 rest g stop P D A B E x K :
  let tr := (m, (g, m0)) :: rest in
  in_reach w clk N m tr g stop P D -> steady clk N A B -> own_heartbeat m0 ->
  (forall i n, (i < N)%nat -> i <> m -> hist (n_env w i) (n_start w i) (n_past w i) n -> GetCurrentState n = Slave) ->
  0 <= P -> 0 <= D -> A + P + D <= B + 1 -> (forall u, clk m (u + P) <= clk m u + 1000) ->
  (forall i y ev, In (i, (y, ev)) tr -> i <> m -> y <= g + D -> ~ took_over ev) ->
  accurate clk N (A + P + 2 * D) E ->
  about_effects K -> g <= x -> x + 2 * A + 2 * P + 2 * D < stop ->
  (forall y ev, In (m, (y, ev)) tr -> x < y -> says (GetSetEffect (after ev)) K) ->
  (forall i y ev q, In (i, (y, ev)) tr -> i <> m -> x < y -> call ev = OSetEffect q -> says q K) ->
  forall i n nm, (i < N)%nat -> i <> m ->
    hist (n_env w i) (n_start w i) (n_past w i ++ calls_at i (untimed tr)) n ->
    hist (n_env w m) (n_start w m) (n_past w m ++ calls_at m (untimed tr)) nm ->
    exists L, - (2 * E) <= L <= D + 2 * E /\
      forall fl md d o o' delta buf,
      o = o' \/ (ptype K = 2 -> ~ per_node (nth 0 (pdata K) 0 mod 35)) ->
      Show Arduino fl md d o (GetSetEffect n) (fun r => GetNetworkMillis (u32 (clk i stop + delta r)) n) buf =
      Show Arduino fl md d o' (GetSetEffect nm) (fun r => GetNetworkMillis (u32 (clk m stop - L + delta r)) nm) buf.
Proof.
  intros tr IR SY TO Sl P0 D0 PD Short NoR Acc AK Gx Ux Kx NoSet i n nm Ni Nm Hn Hm.
  assert (A0 : 0 < A) by exact (dr_A w clk N m m0 rest g stop P D A B IR SY).
  assert (M : (m < N)%nat) by exact (dr_m w clk N m m0 rest g stop P D IR).
  pose proof (C140_everybody_shows_it w clk N m m0 rest g stop P D A B x K IR SY TO Sl P0 D0 PD Short NoR AK Gx Ux Kx NoSet) as Sh.
  pose proof (Sh i n Ni Hn) as Sn. pose proof (Sh m nm M Hm) as Sm.
  destruct (C140_times_stay_together w clk N m m0 rest g stop P D A B E IR SY TO Sl P0 D0 PD NoR Acc ltac:(lia) i n nm Ni Nm Hn Hm) as (L & Lb & Q).
  exists L. split; [exact Lb|]. intros fl md d o o' delta buf Off.
  apply C59_same_picture.
  - apply (says_same_request _ _ K); auto; [apply (hist_good _ _ _ _ Hn)|apply (hist_good _ _ _ _ Hm)].
  - intros r. revert Q. unfold GetNetworkMillis, u32. lia.
  - destruct Off as [Off|Off]; [left; exact Off|right]. intros a b (_ & A1 & _ & A2 & _).
    destruct Sn as [S1 S2]. unfold SET_EFFECT in A1. assert (K2 : ptype K = 2) by congruence. specialize (Off K2).
    replace a with (nth 0 (pdata K) 0); [exact Off|]. rewrite <- A2. rewrite K2 in S2. change (2 =? 2) with true in S2. cbv iota in S2.
    unfold payload in S2. destruct (pdata (GetSetEffect n)), (pdata K); cbn in S2; try discriminate; try reflexivity. inversion S2. reflexivity.
Qed.
Print Assumptions C140_one_animation.

(** Clocks with crystals: wrong by at most 100 parts per million and the
    millisecond they count in. *)
Definition crystals (clk : nat -> Z -> Z) (N : nat) : Prop :=
  forall i x y, (i < N)%nat -> x <= y -> 9999 * (y - x) - 10000 <= 10000 * (clk i y - clk i x) <= 10001 * (y - x) + 10000 /\ clk i x <= clk i y.

Lemma crystals_steady clk N : crystals clk N -> steady clk N 1002 4998.
Proof.
  intros C. constructor.
  - intros i x y Ni L. apply (C i x y Ni L).
  - intros i x Ni. destruct (C i x (x + 1002) Ni ltac:(lia)) as [K _]. lia.
  - intros i x Ni. destruct (C i x (x + 4998) Ni ltac:(lia)) as [K _]. lia.
Qed.
Lemma crystals_accurate clk N S : crystals clk N -> S < 10000 -> accurate clk N S 1.
Proof. intros C L i x y Ni [L1 L2]. destruct (C i x y Ni L1) as [K _]. lia. Qed.

(** Then 3997 ms may pass between a free tick of the master and the next, and the
    arrival of a heartbeat; m stays the only master, and the network times differ by at most
    2 ms beyond the time packets travel, however long the run is. *)
Corollary C140_crystals w clk N m m0 rest g stop P D :
  let tr := (m, (g, m0)) :: rest in
  in_reach w clk N m tr g stop P D -> crystals clk N -> own_heartbeat m0 ->
  (forall i n, (i < N)%nat -> i <> m -> hist (n_env w i) (n_start w i) (n_past w i) n -> GetCurrentState n = Slave) ->
  0 <= P -> 0 <= D -> P + D <= 3997 ->
  (forall i x ev, In (i, (x, ev)) tr -> i <> m -> x <= g + D -> ~ took_over ev) -> g + D < stop ->
  (forall i x ev, In (i, (x, ev)) tr -> role_after ev = if Nat.eqb i m then Master else Slave) /\
  forall i n nm, (i < N)%nat -> i <> m ->
    hist (n_env w i) (n_start w i) (n_past w i ++ calls_at i (untimed tr)) n ->
    hist (n_env w m) (n_start w m) (n_past w m ++ calls_at m (untimed tr)) nm ->
    exists L, -2 <= L <= D + 2 /\
      GetNetworkMillis (u32 (clk i stop)) n = u32 (GetNetworkMillis (u32 (clk m stop)) nm - L).
Proof.
  intros tr IR C TO Sl P0 D0 PD NoR Late. pose proof (crystals_steady _ _ C) as SY. split.
  - apply (C140_one_master w clk N m m0 rest g stop P D 1002 4998 IR SY TO Sl P0 D0 ltac:(lia) NoR).
  - apply (C140_times_stay_together w clk N m m0 rest g stop P D 1002 4998 1 IR SY TO Sl P0 D0 ltac:(lia) NoR); [|exact Late].
    apply (crystals_accurate _ _ _ C). lia.
Qed.
Print Assumptions C140_crystals.

(** A run can be cut at any time; so all of this holds at every time. *)
Lemma in_reach_cut w clk N m pre post g stop P D t : in_reach w clk N m (pre ++ post) g stop P D -> t <= stop ->
  (forall i x ev, In (i, (x, ev)) pre -> x <= t) -> (forall i x ev, In (i, (x, ev)) post -> t < x) ->
  in_reach w clk N m pre g t P D.
Proof.
  intros [R O Bd Past W Fr Arr Prompt] Lt QA QB.
  assert (Here : forall i x ev, In (i, (x, ev)) (pre ++ post) -> x <= t -> In (i, (x, ev)) pre).
  { intros i x ev I L. apply in_app_or in I as [I|I]; [exact I|]. specialize (QB i x ev I). lia. }
  constructor.
  - rewrite untimed_app in R. eapply run_prefix. exact R.
  - intros a i x u b j y v c E. apply (O a i x u b j y v (c ++ post)). rewrite E, <- app_assoc. cbn. rewrite <- app_assoc. reflexivity.
  - intros i x ev I. destruct (Bd i x ev) as (B1 & B2 & _); [apply in_or_app; left; exact I|]. repeat split; eauto.
  - exact Past.
  - intros i Ni. destruct (W i Ni) as [W1 W2]. split; [exact W1|]. intros z I. apply W2.
    rewrite untimed_app, calls_at_app. apply in_app_or in I as [I|I]; apply in_or_app; [left; exact I|right]. apply in_or_app; left; exact I.
  - intros x L U. destruct (Fr x L ltac:(lia)) as (y & ev & I & F & Ly). exists y, ev. split; [apply Here; [exact I|lia]|auto].
  - intros x ev p i I Op Tp Ni Nm U.
    destruct (Arr x ev p i ltac:(apply in_or_app; left; exact I) Op Tp Ni Nm ltac:(lia)) as (y & c & q & Ic & Ac & Sq & Lc).
    exists y, c, q. split; [apply Here; [exact Ic|lia]|auto].
  - intros a i x ev b p E Ac Lp. apply (Prompt a i x ev (b ++ post) p); auto. rewrite E, <- app_assoc. reflexivity.
Qed.

(** As in the example of C95, but the clock of the second node is one percent
    fast: its network time, 50 ms behind when it accepts a heartbeat, has come up
    to 40 ms a second later. *)
Definition fast_clock (i : nat) (x : Z) : Z := match i with 1%nat => 500 + x + x / 100 | _ => x end.

Example C140_example : exists w m0 rest K n nm,
  let tr := (0%nat, (7000, m0)) :: rest in
  in_reach w fast_clock 2 0 tr 7000 11300 1000 100 /\ steady fast_clock 2 1001 4950 /\ accurate fast_clock 2 (1001 + 1000 + 2 * 100) 23 /\
  (forall u, fast_clock 0 (u + 1000) <= fast_clock 0 u + 1000) /\ own_heartbeat m0 /\
  (forall i n, (i < 2)%nat -> i <> 0%nat -> hist (n_env w i) (n_start w i) (n_past w i) n -> GetCurrentState n = Slave /\ GetEffectIndex n <> 9) /\
  1001 + 1000 + 100 <= 4950 + 1 /\
  (forall i x ev, In (i, (x, ev)) tr -> i <> 0%nat -> x <= 7000 + 100 -> ~ took_over ev) /\
  about_effects K /\ 7000 + 2 * 1001 + 2 * 1000 + 2 * 100 < 11300 /\
  (forall y ev, In (0%nat, (y, ev)) tr -> 7000 < y -> says (GetSetEffect (after ev)) K) /\
  (forall i y ev q, In (i, (y, ev)) tr -> i <> 0%nat -> 7000 < y -> call ev = OSetEffect q -> says q K) /\
  hist (n_env w 1%nat) (n_start w 1%nat) (n_past w 1%nat ++ calls_at 1 (untimed tr)) n /\
  hist (n_env w 0%nat) (n_start w 0%nat) (n_past w 0%nat ++ calls_at 0 (untimed tr)) nm /\
  GetEffectIndex n = 9 /\ GetNetworkMillis (u32 (fast_clock 1 11300)) n = 11260 /\ GetNetworkMillis (u32 (fast_clock 0 11300)) nm = 11300.
Proof.
  run_as H0 (env0 Arduino) 0 [(7, OTick (Some (effect_pkt 50 9 3 2))); (7000, OTick None); (7060, OTick (Some (heartbeat_pkt 24 7000)));
    (7900, OTick None); (8100, OTick None); (9050, OTick None); (9200, OTick None); (10100, OTick None); (10300, OTick None);
    (11100, OTick None); (11290, OTick None)].
  run_as H1 (env_const Arduino 0%N) 0 [(4000, OTick (Some (heartbeat_pkt 77 3500)));
    (7620, OTick (Some (heartbeat_pkt 24 7000))); (8731, OTick (Some (heartbeat_pkt 41 8100)));
    (9691, OTick (Some (effect_pkt 58 9 3 2))); (9842, OTick (Some (heartbeat_pkt 75 9200)));
    (10953, OTick (Some (heartbeat_pkt 92 10300))); (11761, OTick (Some (effect_pkt 109 9 3 2)))].
  run_as H2 (env0 Arduino) 0 (@nil (Z * op)).
  match type of H0 with hist _ _ [?z; ?a; ?b; ?c; ?d; ?f; ?g; ?h; ?i; ?j; ?k] ?nm =>
  match type of H1 with hist _ _ [?p; ?q; ?r; ?s; ?t; ?u; ?v] ?n =>
    set (Z0 := z) in *; set (A := a) in *; set (B := b) in *; set (C := c) in *; set (D := d) in *; set (F := f) in *; set (G := g) in *;
    set (HH := h) in *; set (II := i) in *; set (JJ := j) in *; set (KK := k) in *;
    set (PP := p) in *; set (Q := q) in *; set (R := r) in *; set (S := s) in *; set (T := t) in *; set (U := u) in *; set (V := v) in *;
    exists (mkNetwork (fun w0 => match w0 with 1%nat => env_const Arduino 0%N | _ => env0 Arduino end) (fun _ => 0)
      (fun _ => 0) (fun w0 => match w0 with 0%nat => [Z0] | 1%nat => [PP] | _ => [] end)),
      A, [(1%nat, (7050, Q)); (0%nat, (7060, B)); (0%nat, (7900, C)); (0%nat, (8100, D)); (1%nat, (8150, R)); (0%nat, (9050, F)); (1%nat, (9100, S));
          (0%nat, (9200, G)); (1%nat, (9250, T)); (0%nat, (10100, HH)); (0%nat, (10300, II)); (1%nat, (10350, U)); (0%nat, (11100, JJ));
          (1%nat, (11150, V)); (0%nat, (11290, KK))], (effect_pkt 0 9 3 2), n, nm
  end end.
  cbv zeta.
  split; [constructor|].
  { intros [|[|i]].
    - split; [eexists; exact H0|]. intros x p I K. repeat (destruct I as [<-|I]; [discriminate K|]). destruct I.
    - split; [eexists; exact H1|]. intros x p I K. repeat (destruct I as [<-|I]; [discriminate K|]). destruct I.
    - split; [eexists; exact H2|]. intros x p []. }
  { intros a i x u b j y v c E.
    repeat (destruct a as [|? a]; [injection E as <- <- <- E;
       repeat (destruct b as [|? b]; [injection E as <- <- <- E; lia|injection E as _ E]);
       try (destruct b; discriminate E)|injection E as _ E]); destruct a; discriminate E. }
  { intros i x ev I. repeat (destruct I as [I|I]; [injection I as <- <- <-; split; [lia|split; [reflexivity|lia]]|]). destruct I. }
  { intros [|[|i]] ev I; [destruct I as [<-|[]]; vm_compute; congruence|destruct I as [<-|[]]; vm_compute; congruence|destruct I]. }
  { intros [|[|i]] L; [| |lia]; (split; [reflexivity|]); intros x I; repeat (destruct I as [<-|I]; [reflexivity|]); destruct I. }
  { intros x L L2.
    assert (X : x < 7900 \/ 7900 <= x < 8100 \/ 8100 <= x < 9050 \/ 9050 <= x < 9200 \/ 9200 <= x < 10100 \/ 10100 <= x) by lia.
    destruct X as [X|[X|[X|[X|[X|X]]]]]; [exists 7900, C|exists 8100, D|exists 9050, F|exists 9200, G|exists 10100, HH|exists 10300, II]; (split; [cbn [In]; auto 30|]);
      (split; [split; [eexists; reflexivity|intros p I; cbn in I; intuition discriminate]|]); lia. }
  { intros x y p i I O Ty Ni Nm Ut. destruct i as [|[|i]]; [congruence| |lia].
    destruct O as (s & Ip).
    repeat (destruct I as [I|I]; [first [discriminate I|injection I as <- <-];
      cbn in Ip; first [exfalso; intuition discriminate|destruct Ip as [Ip|[]]; injection Ip as <- <-];
      first [eexists 7050, Q, _; split; [cbn [In]; auto 30|]; split; [split; [reflexivity|left; reflexivity]|]; split; [split; reflexivity|lia]
            |eexists 8150, R, _; split; [cbn [In]; auto 30|]; split; [split; [reflexivity|left; reflexivity]|]; split; [split; reflexivity|lia]
            |eexists 9100, S, _; split; [cbn [In]; auto 30|]; split; [split; [reflexivity|left; reflexivity]|]; split; [split; reflexivity|lia]
            |eexists 9250, T, _; split; [cbn [In]; auto 30|]; split; [split; [reflexivity|left; reflexivity]|]; split; [split; reflexivity|lia]
            |eexists 10350, U, _; split; [cbn [In]; auto 30|]; split; [split; [reflexivity|left; reflexivity]|]; split; [split; reflexivity|lia]
            |eexists 11150, V, _; split; [cbn [In]; auto 30|]; split; [split; [reflexivity|left; reflexivity]|]; split; [split; reflexivity|lia]]|]).
    destruct I. }
  { intros a i x ev b p E [Ca Fw] Tp. exists 0%nat.
    repeat (destruct a as [|? a]; [injection E as <- <- <- E; first [discriminate Ca|injection Ca as <-; cbn in Fw;
       first [exfalso; intuition discriminate|idtac]];
       first [eexists 7000, A, _; split; [discriminate|]; split; [cbn [In]; auto 30|]; split; [eexists; left; reflexivity|]; split; [split; reflexivity|lia]
             |eexists 8100, D, _; split; [discriminate|]; split; [cbn [In]; auto 30|]; split; [eexists; left; reflexivity|]; split; [split; reflexivity|lia]
             |eexists 9050, F, _; split; [discriminate|]; split; [cbn [In]; auto 30|]; split; [eexists; left; reflexivity|]; split; [split; reflexivity|lia]
             |eexists 9200, G, _; split; [discriminate|]; split; [cbn [In]; auto 30|]; split; [eexists; left; reflexivity|]; split; [split; reflexivity|lia]
             |eexists 10300, II, _; split; [discriminate|]; split; [cbn [In]; auto 30|]; split; [eexists; left; reflexivity|]; split; [split; reflexivity|lia]
             |eexists 11100, JJ, _; split; [discriminate|]; split; [cbn [In]; auto 30|]; split; [eexists; left; reflexivity|]; split; [split; reflexivity|lia]]
       |injection E as ? E; subst]); destruct a; discriminate E. }
  split.
  { constructor; intros [|[|i]]; intros; unfold fast_clock; lia. }
  split.
  { intros [|[|i]] x y Ni L; unfold fast_clock; lia. }
  split; [intros u; unfold fast_clock; lia|].
  split; [eexists; split; [eexists; left; reflexivity|reflexivity]|].
  split.
  { intros [|[|i]] n L N H; [congruence| |lia]. cbn [n_env n_start n_past] in H.
    change [PP] with ([] ++ [PP]) in H. apply hist_last in H as (_ & -> & _). split; [reflexivity|discriminate]. }
  split; [lia|].
  split.
  { intros i x ev I N L [TR1 TR2]. repeat (destruct I as [I|I]; [injection I as <- <- <-; first [congruence|discriminate TR2|lia]|]). destruct I. }
  split; [left; reflexivity|]. split; [lia|].
  split.
  { intros y ev I L. repeat (destruct I as [I|I]; [first [discriminate I|injection I as <- <-]; split; reflexivity|]). destruct I. }
  split.
  { intros i y ev q I N L C0. repeat (destruct I as [I|I]; [injection I as <- <- <-; discriminate C0|]). destruct I. }
  split; [exact H1|]. split; [exact H0|]. repeat split.
Qed.

(** Crystals: the second one is a ten-thousandth fast. *)
Example C140_ex_crystals : crystals (fun i x => match i with 1%nat => x + x / 10000 | _ => x end) 2.
Proof. intros [|[|i]] x y Ni L; [lia| |lia]. split; [split|]; lia. Qed.
