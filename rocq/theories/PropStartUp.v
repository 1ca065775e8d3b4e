(** How a network starts: C104. *)
From Coq Require Import ZArith Lia List Bool.
From Coq Require Import ZifyBool.
From Verif Require Import CInt CIntFacts Packet SpecPacket PacketFacts NetMgr NetHist SpecNet NetFacts Rsm RsmStep RsmEval RsmHist SpecRsm RsmFacts RsmTime RoleFacts RsmRun EffectFacts PropRole PropHeartbeat PropPair PropNetTime PropNetwork PropOneMaster.
Import ListNotations.
Open Scope Z_scope.
Ltac Zify.zify_post_hook ::= Z.div_mod_to_equations.

(** When a node powered up at local time t0 loses its patience: 5 seconds and a
    fraction of two more, which is the first number of its random source. *)
Definition patience_ends (e : env) (t0 : Z) : Z := t0 + 5000 + Z.of_N (draw e 0%nat) mod 2000.

Lemma patience_timer e t0 h n : hist e t0 h n -> all_before (wrap - 7000) t0 h ->
  (forall ev, In ev h -> ~ contact ev) -> state n = Slave -> t_hb n = patience_ends e t0.
Proof.
  intros H. pattern h, n. revert h n H. apply (hist_ind2 e t0).
  - intros ty1 ty2 d1 d2 P0 W1 W2 [T0 _] _ _. unfold wrap in T0. cbn [t_hb]. unfold patience_ends.
    pose proof (Z.mod_pos_bound (Z.of_N (draw e 0%nat)) 2000 ltac:(lia)).
    rewrite (u32_small t0 _ (wrap - 7000)) by (unfold wrap; lia). lia.
  - intros h ev H IH G O L1 L2 S B Nc St. apply all_before_last in B as [B Bt].
    assert (Nh : forall ev', In ev' h -> ~ contact ev') by (intros; apply Nc; apply in_or_app; auto).
    assert (Ne : ~ contact ev) by (apply Nc; apply in_or_app; right; left; reflexivity).
    specialize (IH B Nh).
    destruct ev as [t o n n' out]; cbn [at_ call before after sent] in *.
    destruct S as [inc out n' T|p R|v|v].
    + pose proof T as T0. destruct T; proj;
      try (apply IH; congruence); try discriminate; try congruence;
      try (exfalso; apply Ne; ct).
    + proj. apply IH. exact St.
    + proj. apply IH. exact St.
    + proj. apply IH. exact St.
Qed.

(** A node that never heard a master takes over at its first packet-free tick
    after its patience ends, and not before. *)
Theorem C104_a_lonely_node_takes_over e t0 h ev :
  history e t0 (h ++ [ev]) -> all_before (wrap - 7000) t0 (h ++ [ev]) ->
  (forall x, In x h -> ~ contact x) -> role_before ev = Slave ->
  (took_over ev <-> packet_free ev /\ patience_ends e t0 < at_ ev).
Proof.
  intros [n H] B Nc R1. apply hist_last in H as (H & -> & G & O & L1 & L2 & S).
  apply all_before_last in B as [B Bt].
  pose proof (patience_timer _ _ _ _ H B Nc R1) as I. pose proof (hist_t0 _ _ _ _ H) as P0.
  assert (Du : timer_due (u32 (at_ ev)) (t_hb (before ev)) = true <-> patience_ends e t0 < at_ ev).
  { rewrite timer_due_iff by apply G. rewrite u32_id by (unfold wrap in *; lia). rewrite I. unfold patience_ends. pose proof (Z.mod_pos_bound (Z.of_N (draw e 0%nat)) 2000 ltac:(lia)). lia. }
  rewrite <- Du. rewrite (step_packet_free e ev S).
  unfold took_over. split.
  - intros [_ R2]. unfold role_before, role_after, GetCurrentState in *.
    destruct ev as [t o m m' out]; proj. destruct S as [inc out m' T|p R|v|v]; proj; try congruence.
    destruct T; proj; try congruence. split; [|assumption]. exists inc. auto.
  - intros ((inc & C & Hh) & D). split; [exact R1|]. pose proof (tick_step _ _ _ C S) as T.
    unfold role_before, role_after, GetCurrentState in *.
    destruct ev as [t o m m' out]; proj. destruct T; proj; try congruence; intuition congruence.
Qed.
Print Assumptions C104_a_lonely_node_takes_over.

Lemma no_contact_slave e t0 h ev : history e t0 (h ++ [ev]) -> (forall x, In x h -> ~ contact x) ->
  took_over ev -> forall x, In x h -> role_after x = Slave.
Proof.
  intros H Nc [R1 _] x I. destruct (role_after x) eqn:E; [reflexivity|exfalso].
  apply in_split in I as (a & b & ->).
  assert (X : forall b' c, b = b' ++ c -> forall n, hist e t0 (a ++ x :: b') n -> state n = Master).
  { intros b'. induction b' as [|y b' IH] using rev_ind; intros c Eb n Hn.
    - apply hist_last in Hn as (_ & -> & _). exact E.
    - rewrite <- app_assoc in Eb. cbn [app] in Eb.
      assert (Hn' : hist e t0 ((a ++ x :: b') ++ [y]) n) by (rewrite <- app_assoc; exact Hn).
      pose proof Hn' as H2. apply hist_last in H2 as (H2 & -> & _).
      apply (no_contact_keeps_master e t0 (a ++ x :: b') y (ex_intro _ _ Hn')).
      + apply (IH _ Eb _ H2).
      + intros p A L. apply (Nc y); [|exists p; split; [exact A|exact L]].
        apply in_or_app; right; right. rewrite Eb. apply in_or_app; right; left; reflexivity. }
  destruct H as [n H]. apply hist_last in H as (H & _).
  specialize (X b [] (eq_sym (app_nil_r b)) _ H). unfold role_before, GetCurrentState in R1. congruence.
Qed.

(** The run from a given moment on, as a run of the same network with a longer
    past. *)
Definition later (w : network) (pre : run) : network :=
  mkNetwork (n_env w) (n_start w) (n_off w) (fun i => n_past w i ++ calls_at i pre).

Lemma later_run w pre tr : is_run w (pre ++ tr) -> is_run (later w pre) tr.
Proof.
  intros R i. cbn [later n_env n_start n_past]. rewrite <- app_assoc, <- calls_at_app. apply R.
Qed.

Lemma took_over_dec ev : {took_over ev} + {~ took_over ev}.
Proof.
  unfold took_over. destruct (role_before ev), (role_after ev);
    first [left; split; reflexivity | right; intros [? ?]; congruence].
Defined.

Lemma first_takeover (tr : run) :
  (exists a j u b, tr = a ++ (j, u) :: b /\ took_over u /\ forall i ev, In (i, ev) a -> ~ took_over ev) \/
  (forall i ev, In (i, ev) tr -> ~ took_over ev).
Proof.
  induction tr as [|[i ev] tr IH].
  - right. intros i ev [].
  - destruct (took_over_dec ev) as [T|T].
    + left. exists [], i, ev, tr. split; [reflexivity|]. split; [exact T|]. intros ? ? [].
    + destruct IH as [(a & j & u & b & -> & Tu & Na)|Na].
      * left. exists ((i, ev) :: a), j, u, b. split; [reflexivity|]. split; [exact Tu|].
        intros k x [I|I]; [inversion I; subst; exact T|eauto].
      * right. intros k x [I|I]; [inversion I; subst; exact T|eauto].
Qed.

(** When a slave will lose its patience, given its past: the value its timer has. *)
Definition ends (w : network) (i : nat) : Z :=
  match rev (n_past w i) with
  | [] => patience_ends (n_env w i) (n_start w i)
  | ev :: _ => t_hb (after ev)
  end.

(** There is no master among the first N nodes. *)
Definition leaderless (w : network) (N : nat) : Prop :=
  forall i n, (i < N)%nat -> hist (n_env w i) (n_start w i) (n_past w i) n -> GetCurrentState n = Slave.

Lemma ends_new w i : n_past w i = [] -> ends w i = patience_ends (n_env w i) (n_start w i).
Proof. intros E. unfold ends. rewrite E. reflexivity. Qed.

Lemma new_leaderless w N : (forall i, n_past w i = []) -> leaderless w N.
Proof.
  intros New i n _ H. rewrite New in H.
  assert (X : forall h n0, hist (n_env w i) (n_start w i) h n0 -> h = [] -> state n0 = Slave).
  { apply (hist_ind2 (n_env w i) (n_start w i) (fun h n0 => h = [] -> state n0 = Slave)); [reflexivity|].
    intros h ev _ _ _ _ _ _ _ Q. destruct h; discriminate Q. }
  exact (X _ _ H eq_refl).
Qed.

Lemma ends_timer w i h n : hist (n_env w i) (n_start w i) (n_past w i ++ h) n ->
  all_before (wrap - 7000) (n_start w i) (n_past w i ++ h) ->
  (forall n0, hist (n_env w i) (n_start w i) (n_past w i) n0 -> state n0 = Slave) ->
  (forall ev, In ev h -> ~ contact ev) -> state n = Slave -> t_hb n = ends w i.
Proof.
  revert n. induction h as [|ev h IH] using rev_ind; intros n H B Sl Nc St.
  - rewrite app_nil_r in H, B. unfold ends. destruct (rev (n_past w i)) as [|z l] eqn:E.
    + assert (Ep : n_past w i = []) by (rewrite <- (rev_involutive (n_past w i)), E; reflexivity).
      apply (patience_timer _ _ _ _ H B); [rewrite Ep; intros ? []|exact St].
    + assert (Ep : n_past w i = rev l ++ [z]) by (rewrite <- (rev_involutive (n_past w i)), E; reflexivity).
      rewrite Ep in H. apply hist_last in H as (_ & -> & _). reflexivity.
  - rewrite app_assoc in H, B. pose proof H as H'. apply hist_last in H as (H & -> & G & O & L1 & L2 & S).
    apply all_before_last in B as [B Bt].
    assert (Nh : forall ev', In ev' h -> ~ contact ev') by (intros; apply Nc; apply in_or_app; auto).
    assert (Ne : ~ contact ev) by (apply Nc; apply in_or_app; right; left; reflexivity).
    assert (Sb : state (before ev) = Slave).
    { destruct (state (before ev)) eqn:Eb; [reflexivity|exfalso].
      assert (role_after ev = Master).
      { apply (no_contact_keeps_master _ _ _ _ (ex_intro _ _ H')); [exact Eb|].
        intros p A L. apply Ne. exists p. split; [exact A|exact L]. }
      unfold role_after, GetCurrentState in *. congruence. }
    specialize (IH _ H B Sl Nh Sb). rewrite <- IH. clear IH.
    destruct ev as [t o m m' out]; cbn [at_ call before after sent] in *.
    destruct S as [inc out m' T|p R|v|v]; try reflexivity.
    pose proof T as T0. destruct T; proj; try reflexivity; try discriminate; try congruence; try (exfalso; apply Ne; ct).
Qed.

(** A slave that hears no master takes over at its first packet-free tick after
    its patience ends, and not before. *)
Lemma lonely_node w i h ev :
  history (n_env w i) (n_start w i) ((n_past w i ++ h) ++ [ev]) ->
  all_before (wrap - 7000) (n_start w i) ((n_past w i ++ h) ++ [ev]) ->
  (forall n0, hist (n_env w i) (n_start w i) (n_past w i) n0 -> state n0 = Slave) ->
  (forall x, In x h -> ~ contact x) -> role_before ev = Slave ->
  (took_over ev <-> packet_free ev /\ ends w i < at_ ev).
Proof.
  intros [n H] B Sl Nc R1. apply hist_last in H as (H & -> & G & O & L1 & L2 & S).
  apply all_before_last in B as [B Bt].
  pose proof (ends_timer _ _ _ _ H B Sl Nc R1) as I. pose proof (hist_t0 _ _ _ _ H) as P0.
  pose proof (timer_inv _ _ _ _ H B) as TI. unfold role_before, GetCurrentState in R1. rewrite R1 in TI.
  destruct TI as (c & (Ca & Cb & Cc) & Dc).
  assert (Du : timer_due (u32 (at_ ev)) (t_hb (before ev)) = true <-> ends w i < at_ ev).
  { rewrite timer_due_iff by apply G. rewrite u32_id by (unfold wrap in *; lia). rewrite I in *. lia. }
  rewrite <- Du. rewrite (step_packet_free _ ev S).
  unfold took_over. split.
  - intros [_ R2]. unfold role_before, role_after, GetCurrentState in *.
    destruct ev as [t o m m' out]; proj. destruct S as [inc out m' T|p R|v|v]; proj; try congruence.
    destruct T; proj; try congruence. split; [|assumption]. exists inc. auto.
  - intros ((inc & C & Hh) & D). split; [exact R1|]. pose proof (tick_step _ _ _ C S) as T.
    unfold role_before, role_after, GetCurrentState in *.
    destruct ev as [t o m m' out]; proj. destruct T; proj; try congruence; intuition congruence.
Qed.

Section StartUp.
Variables (w : network) (tr : run).
Variable (N : nat).
Hypothesis (Ll : leaderless w N).
Hypothesis (R : is_run w tr).
Hypothesis (In_N : forall i ev, In (i, ev) tr -> (i < N)%nat).
(** heartbeats and claims that are accepted were transmitted by somebody *)
Hypothesis (Ge : forall a i ev b p, tr = a ++ (i, ev) :: b -> accepted ev p -> life_sign p ->
  exists j ev' x, In (j, ev') a /\ In x (sent ev') /\ ptype (rtx_packet x) = ptype p).

(** As long as nobody took over, all are slaves and there is nothing to hear. *)
Lemma before_first_takeover pre post : tr = pre ++ post ->
  (forall i ev, In (i, ev) pre -> ~ took_over ev) ->
  (forall i ev, In (i, ev) pre -> role_before ev = Slave /\ role_after ev = Slave /\ ~ contact ev /\
     forall x, In x (sent ev) -> ~ life_sign (rtx_packet x)) /\
  (forall i n, (i < N)%nat -> hist (n_env w i) (n_start w i) (n_past w i ++ calls_at i pre) n -> state n = Slave).
Proof using Ll R In_N Ge.
  revert post. induction pre as [|[i ev] pre IH] using rev_ind; intros post E Nt.
  - split; [intros ? ? []|]. intros i n Ni H. cbn in H. rewrite app_nil_r in H. exact (Ll i n Ni H).
  - rewrite <- app_assoc in E. cbn [app] in E.
    destruct (IH _ E ltac:(intros k x I; apply (Nt k); apply in_or_app; auto)) as [A B]. clear IH.
    assert (Rp : is_run w (pre ++ (i, ev) :: post)) by (rewrite <- E; exact R).
    destruct (run_split _ _ _ _ _ Rp) as (n & H & Ap). pose proof H as H'.
    assert (Ni : (i < N)%nat) by (apply (In_N i ev); rewrite E; apply in_or_app; right; left; reflexivity).
    apply hist_last in H as (H & En & G & Oo & L1 & L2 & S).
    assert (Rb : role_before ev = Slave) by (apply (B i); [exact Ni|exact H]).
    assert (Ra : role_after ev = Slave).
    { destruct (role_after ev) eqn:Er; [reflexivity|exfalso].
      apply (Nt i ev); [apply in_or_app; right; left; reflexivity|split; assumption]. }
    assert (Nl : forall p, accepted ev p -> ~ life_sign p).
    { intros p C L. destruct (Ge pre i ev post p E C L) as (j & u & x & J1 & J2 & J3).
      destruct (A j u J1) as (_ & _ & _ & Q). apply (Q x J2). unfold life_sign in *. rewrite J3. exact L. }
    assert (Nc : ~ contact ev) by (intros (p & Ac & L); exact (Nl p Ac L)).
    assert (Ns : forall x, In x (sent ev) -> ~ life_sign (rtx_packet x)).
    { intros [p|s p] Ix Lx; cbn [rtx_packet] in Lx.
      - pose proof (forwarded_accepted _ _ _ S Ix) as Ac. exact (Nl p Ac Lx).
      - pose proof (C39_slaves_are_quiet _ _ _ _ (ex_intro _ _ H') Rb) as Q.
        destruct (call ev) as [inc|q|v|v] eqn:Ca.
        + destruct Q as [[Q _]|[(q & Q & _)|(q & _ & _ & Q)]]; [rewrite Q in Ix; destruct Ix|rewrite Q in Ix; destruct Ix as [Ix|[]]; discriminate Ix|congruence].
        + destruct Q as (q' & Q & (Q1 & _) & _). rewrite Q in Ix. destruct Ix as [Ix|[]]. inversion Ix; subst.
          assert (ptype q = 2 \/ ptype q = 3) by (apply (Ap ev q); [apply in_or_app; right; left; reflexivity|exact Ca]).
          unfold life_sign in Lx. lia.
        + destruct Q as [Q _]. rewrite Q in Ix. destruct Ix.
        + destruct Q as [Q _]. rewrite Q in Ix. destruct Ix. }
    split.
    + intros k x I. apply in_app_or in I as [I|[I|[]]]; [eauto|]. inversion I; subst. auto.
    + intros k n' Nk' Hk. rewrite calls_at_app in Hk. destruct (PeanoNat.Nat.eq_dec k i) as [->|Nk].
      * rewrite calls_at_one, app_assoc in Hk. apply hist_last in Hk as (_ & -> & _). exact Ra.
      * rewrite (calls_at_other _ _ _ Nk), app_nil_r in Hk. eauto.
Qed.
Variables (m : nat) (stop P D : Z).
Let first i := ends w i - n_off w i.
Hypothesis (O : ordered w tr).
Hypothesis (Bd : forall i ev, In (i, ev) tr -> (i < N)%nat /\ global w i ev <= stop).
Hypothesis (W : forall i, (i < N)%nat -> all_before (wrap - 7000) (n_start w i) (n_past w i ++ calls_at i tr)).
Hypothesis (P0 : 0 <= P) (D0 : 0 <= D) (PD : 1000 + P + D <= 5000).
Hypothesis (Margin : forall i, (i < N)%nat -> i <> m -> first m + P + D < first i).

(** The first takeover happens when the patience of a node ends. *)
Lemma first_takeover_when pre j u b : tr = pre ++ (j, u) :: b -> (forall i ev, In (i, ev) pre -> ~ took_over ev) ->
  (took_over u <-> packet_free u /\ first j < global w j u).
Proof using All.
  intros E Nt.
  destruct (before_first_takeover pre _ E Nt) as [A B].
  assert (Rp : is_run w (pre ++ (j, u) :: b)) by (rewrite <- E; exact R).
  destruct (run_split _ _ _ _ _ Rp) as (n & H & Ap).
  pose proof H as H1. apply hist_last in H1 as (H1 & _).
  assert (Ij : In (j, u) tr) by (rewrite E; apply in_or_app; right; left; reflexivity).
  assert (Nj : (j < N)%nat) by (apply (In_N j u Ij)).
  rewrite (lonely_node w j (calls_at j pre) u (ex_intro _ _ H)).
  - unfold first, global. intuition lia.
  - destruct (W j Nj) as [W1 W2]. split; [exact W1|]. intros x I. apply W2. rewrite <- app_assoc in I.
    apply in_app_or in I as [I|I]; apply in_or_app; [left; exact I|right]. apply in_calls_at.
    apply in_app_or in I as [I|[<-|[]]]; [|exact Ij]. apply in_calls_at in I. rewrite E. apply in_or_app; auto.
  - intros n0 Hn. exact (Ll j n0 Nj Hn).
  - intros x I. apply in_calls_at in I. apply (A j x I).
  - apply (B j _ Nj H1).
Qed.

(** Nobody but m takes over early. *)
Lemma others_wait i ev : In (i, ev) tr -> i <> m -> took_over ev -> first m + P + D < global w i ev.
Proof using All.
  intros It Ne TOe. destruct (Bd i ev It) as [Ni _].
  destruct (first_takeover tr) as [(pre & j & u & rest & E & TO & Nt)|Nt]; [|destruct (Nt i ev It TOe)].
  destruct (proj1 (first_takeover_when _ _ _ _ E Nt) TO) as [_ L0].
  destruct (before_first_takeover pre _ E Nt) as [A _].
  assert (Ij : In (j, u) tr) by (rewrite E; apply in_or_app; right; left; reflexivity).
  assert (Fj : first m <= first j).
  { destruct (PeanoNat.Nat.eq_dec j m) as [->|Nj]; [lia|]. specialize (Margin j (proj1 (Bd j u Ij)) Nj). lia. }
  apply in_split in It as (a & b & Et).
  assert (Rp : is_run w (a ++ (i, ev) :: b)) by (rewrite <- Et; exact R).
  destruct (run_split _ _ _ _ _ Rp) as (n & H & Ap).
  assert (AB : all_before (wrap - 7000) (n_start w i) ((n_past w i ++ calls_at i a) ++ [ev])).
  { destruct (W i Ni) as [W1 W2]. split; [exact W1|]. intros x J. apply W2. rewrite <- app_assoc in J.
    apply in_app_or in J as [J|J]; apply in_or_app; [left; exact J|right]. apply in_calls_at.
    rewrite Et. apply in_app_or in J as [J|[<-|[]]]; apply in_or_app; [left; apply in_calls_at; exact J|right; left; reflexivity]. }
  destruct (Z_lt_ge_dec (first m + P + D) (global w i ev)) as [L|L]; [exact L|exfalso].
  assert (Nc : forall c, In c (calls_at i a) -> ~ contact c).
  { intros c Ic Cc. destruct (C17_takeover_only_after_silence _ _ _ _ (ex_intro _ _ H) AB TOe) as [_ Q].
    specialize (Q c ltac:(apply in_or_app; right; exact Ic) (or_introl Cc)). apply in_calls_at in Ic.
    assert (Ic' : In (i, c) tr) by (rewrite Et; apply in_or_app; auto).
    rewrite E in Ic'. apply in_app_or in Ic' as [Ic'|[Ic'|Ic']].
    - destruct (A i c Ic') as (_ & _ & X & _). contradiction.
    - inversion Ic'; subst. unfold global in *. lia.
    - apply in_split in Ic' as (b1 & b2 & Eb). pose proof (O pre j u b1 i c b2 ltac:(rewrite E, Eb; reflexivity)) as Q2.
      unfold global in *. lia. }
  pose proof (proj1 (lonely_node w i (calls_at i a) ev (ex_intro _ _ H) AB (fun n0 => Ll i n0 Ni) Nc (proj1 TOe)) TOe) as [_ Q].
  specialize (Margin i Ni Ne). unfold first, global in *. lia.
Qed.

Hypothesis (Fs : first m + P < stop) (Fr : free_ticks w m tr (first m) stop P).

Lemma the_first_takeover : exists pre m0 rest, tr = pre ++ (m, m0) :: rest /\
  took_over m0 /\ first m < global w m m0 <= first m + P /\
  (forall i ev, In (i, ev) pre -> ~ took_over ev) /\
  (forall i ev, In (i, ev) pre -> global w i ev <= global w m m0) /\
  (forall i ev, In (i, ev) ((m, m0) :: rest) -> global w m m0 <= global w i ev) /\
  (forall i ev, In (i, ev) ((m, m0) :: rest) -> i <> m -> global w i ev <= global w m m0 + D -> ~ took_over ev).
Proof using All.
  (* the call at which m would take over at the latest *)
  destruct (Fr (first m) ltac:(lia) Fs) as (y & Iy & Fy & Ly).
  pose proof first_takeover_when as Key.
  destruct (first_takeover tr) as [(pre & j & m0 & rest & E & TO & Nt)|Nt].
  2:{ exfalso. apply in_split in Iy as (a & b & E).
      assert (Na : forall i ev, In (i, ev) a -> ~ took_over ev) by (intros i ev I; apply (Nt i); rewrite E; apply in_or_app; auto).
      apply (Nt m y); [rewrite E; apply in_or_app; right; left; reflexivity|].
      apply (Key _ _ _ _ E Na). split; [exact Fy|lia]. }
  destruct (proj1 (Key _ _ _ _ E Nt) TO) as [F0 L0].
  assert (Gj : global w j m0 <= first m + P).
  { destruct (Z_le_gt_dec (global w j m0) (first m + P)) as [L|L]; [exact L|exfalso].
    assert (Iy' : In (m, y) pre) by (eapply ordered_before; [rewrite <- E; exact O|rewrite <- E; exact Iy|lia]).
    apply (Nt m y Iy'). apply in_split in Iy' as (a & b & Ep).
    apply (Key a m y (b ++ (j, m0) :: rest)).
    - rewrite E, Ep, <- app_assoc. reflexivity.
    - intros i ev I. apply (Nt i). rewrite Ep. apply in_or_app; auto.
    - split; [exact Fy|lia]. }
  assert (Ij : In (j, m0) tr) by (rewrite E; apply in_or_app; right; left; reflexivity).
  assert (j = m) as ->.
  { destruct (PeanoNat.Nat.eq_dec j m) as [->|Nj]; [reflexivity|exfalso].
    specialize (Margin j (proj1 (Bd j m0 Ij)) Nj). lia. }
  destruct (before_first_takeover pre _ E Nt) as [A B].
  assert (Sub : forall z, In z ((m, m0) :: rest) -> In z tr) by (intros z I; rewrite E; apply in_or_app; auto).
  assert (Past : forall i ev, In (i, ev) pre -> global w i ev <= global w m m0).
  { intros i ev I. apply in_split in I as (a & b & Ep). apply (O a i ev b m m0 rest). rewrite E, Ep, <- app_assoc. reflexivity. }
  assert (Later : forall i ev, In (i, ev) ((m, m0) :: rest) -> global w m m0 <= global w i ev).
  { intros i ev [I|I]; [inversion I; subst; lia|]. apply in_split in I as (a & b & Er).
    apply (O pre m m0 a i ev b). rewrite E, Er. reflexivity. }
  exists pre, m0, rest. split; [exact E|]. split; [exact TO|]. split; [lia|]. split; [exact Nt|].
  split; [exact Past|]. split; [exact Later|].
  intros i ev I Ne Lv TOe. pose proof (others_wait i ev (Sub _ I) Ne TOe). lia.
Qed.
End StartUp.

Lemma leaderless_starts w N m tr stop P D :
  let first i := ends w i - n_off w i in
  leaderless w N ->
  is_run w tr -> ordered w tr ->
  (forall i ev, In (i, ev) tr -> (i < N)%nat /\ global w i ev <= stop) ->
  (forall i, (i < N)%nat -> all_before (wrap - 7000) (n_start w i) (n_past w i ++ calls_at i tr)) ->
  signs_genuine tr -> echoes_early w m tr ->
  0 <= P -> 0 <= D -> 1000 + P + D <= 5000 ->
  (m < N)%nat -> (forall i, (i < N)%nat -> i <> m -> first m + P + D < first i) ->
  first m + P < stop ->
  free_ticks w m tr (first m) stop P -> heartbeats_arrive w N m tr stop D ->
  exists pre m0 rest, tr = pre ++ (m, m0) :: rest /\
    took_over m0 /\ first m < global w m m0 <= first m + P /\
    (forall i ev, In (i, ev) pre -> role_after ev = Slave) /\
    (forall i ev, In (i, ev) ((m, m0) :: rest) -> role_after ev = if Nat.eqb i m then Master else Slave).
Proof.
  intros first Ll R O Bd W Ge Ec P0 D0 PD Nm Margin Fs Fr Hb.
  assert (Ge' : forall a i ev b p, tr = a ++ (i, ev) :: b -> accepted ev p -> life_sign p ->
     exists j ev' x, In (j, ev') a /\ In x (sent ev') /\ ptype (rtx_packet x) = ptype p).
  { intros a i ev b p E Ac L. destruct (Ge a i ev b p E (proj1 Ac) L) as (j & u & x & J1 & J2 & J3 & _). eauto 10. }
  assert (In_N : forall i ev, In (i, ev) tr -> (i < N)%nat) by (intros i ev I; apply (Bd i ev I)).
  destruct (the_first_takeover w tr N Ll R In_N Ge' m stop P D O Bd W P0 D0 PD Margin Fs Fr)
    as (pre & m0 & rest & E & TO & Gb & Nt & Past & Later & NoR).
  destruct (before_first_takeover w tr N Ll R In_N Ge' pre _ E Nt) as [A B].
  assert (Sub : forall z, In z ((m, m0) :: rest) -> In z tr) by (intros z I; rewrite E; apply in_or_app; auto).
  exists pre, m0, rest. split; [exact E|]. split; [exact TO|]. split; [exact Gb|].
  split; [intros i ev I; apply (A i ev I)|].
  assert (R' : is_run (later w pre) ((m, m0) :: rest)) by (apply later_run; rewrite <- E; exact R).
  assert (TH : own_heartbeat m0) by (eapply run_takeover; [exact R'|left; reflexivity|exact TO]).
  apply (C92_one_master_for_ever (later w pre) N m m0 rest (global w m m0) stop P D); auto.
  - intros a i u b k v c Er. apply (O (pre ++ a) i u b k v c). rewrite E, Er, <- app_assoc. reflexivity.
  - intros i ev I. apply (Bd i ev). auto.
  - intros i Ni. cbn [later n_past n_start]. rewrite <- app_assoc, <- calls_at_app, <- E. auto.
  - intros i n Ni Ne H. cbn [later n_past n_start n_env] in H. exact (B i n Ni H).
  - intros a i ev b p Er C L.
    destruct (Ge (pre ++ a) i ev b p ltac:(rewrite E, Er, <- app_assoc; reflexivity) C L) as (k & u & x & J1 & J2 & J3 & J4).
    exists k, u, x. split; [|auto]. apply in_app_or in J1 as [J1|J1]; [exfalso|exact J1].
    destruct (A k u J1) as (_ & _ & _ & Q). apply (Q x J2). unfold life_sign in *. rewrite J3. exact L.
  - intros a ev b p Er C L I.
    specialize (Ec (pre ++ a) ev b p ltac:(rewrite E, Er, <- app_assoc; reflexivity) C L).
    cbn [later n_past]. rewrite calls_at_app in Ec. rewrite <- app_assoc. apply Ec.
    unfold all_ids in *. rewrite map_app, concat_app, map_app. apply in_or_app; right; exact I.
  - intros x Lx Ux. destruct (Fr x ltac:(unfold first in *; lia) Ux) as (z & Iz & Fz & Lz). exists z. split; [|auto].
    rewrite E in Iz. apply in_app_or in Iz as [Iz|Iz]; [|exact Iz]. specialize (Past m z Iz). lia.
  - intros z i Iz Oz Ni Ne Uz. destruct (Hb z i (Sub _ Iz) Oz Ni Ne Uz) as (c & Ic & Cc & Lc). exists c. split; [|auto].
    rewrite E in Ic. apply in_app_or in Ic as [Ic|Ic]; [|exact Ic]. destruct (A i c Ic) as (_ & _ & Q & _). contradiction.
Qed.

(** N nodes are powered up, each at its own time, with nothing on the air but
    what they transmit.  The patience of node m ends first, more than P + D ms
    before that of any other; m looks at its timers every P ms, and its
    heartbeats reach everybody within D ms.  Then m takes over within P ms of
    that moment; until then there is no master; and from then on m is the only
    master. *)
Theorem C104_a_network_starts w N m tr stop P D :
  let first i := patience_ends (n_env w i) (n_start w i) - n_off w i in
  (forall i, n_past w i = []) ->
  is_run w tr -> ordered w tr ->
  (forall i ev, In (i, ev) tr -> (i < N)%nat /\ global w i ev <= stop) ->
  (forall i, (i < N)%nat -> all_before (wrap - 7000) (n_start w i) (calls_at i tr)) ->
  signs_genuine tr -> echoes_early w m tr ->
  0 <= P -> 0 <= D -> 1000 + P + D <= 5000 ->
  (m < N)%nat -> (forall i, (i < N)%nat -> i <> m -> first m + P + D < first i) ->
  first m + P < stop ->
  free_ticks w m tr (first m) stop P -> heartbeats_arrive w N m tr stop D ->
  exists pre m0 rest, tr = pre ++ (m, m0) :: rest /\
    took_over m0 /\ first m < global w m m0 <= first m + P /\
    (forall i ev, In (i, ev) pre -> role_after ev = Slave) /\
    (forall i ev, In (i, ev) ((m, m0) :: rest) -> role_after ev = if Nat.eqb i m then Master else Slave).
Proof.
  intros first New R O Bd W Ge Ec P0 D0 PD Nm Margin Fs Fr Hb.
  assert (Ef : forall i, ends w i = patience_ends (n_env w i) (n_start w i)) by (intros i; apply ends_new; apply New).
  destruct (leaderless_starts w N m tr stop P D) as (pre & m0 & rest & Q); auto.
  - apply new_leaderless. exact New.
  - intros i Ni. rewrite New. exact (W i Ni).
  - intros i Ni Ne. rewrite !Ef. apply (Margin i Ni Ne).
  - rewrite Ef. exact Fs.
  - rewrite Ef. exact Fr.
  - exists pre, m0, rest. rewrite !Ef in Q. exact Q.
Qed.
Print Assumptions C104_a_network_starts.

(** Non-vacuous: node 1 is powered up 300 ms later and draws a long patience; an
    echo of the first heartbeat comes back to node 0; P = 900, D = 100. *)
Example C104_example : exists w tr,
  let first i := patience_ends (n_env w i) (n_start w i) - n_off w i in
  (forall i, n_past w i = []) /\ is_run w tr /\ ordered w tr /\
  (forall i ev, In (i, ev) tr -> (i < 2)%nat /\ global w i ev <= 8000) /\
  (forall i, (i < 2)%nat -> all_before (wrap - 7000) (n_start w i) (calls_at i tr)) /\
  signs_genuine tr /\ echoes_early w 0 tr /\
  first 0%nat = 5005 /\ first 1%nat = 7299 /\ n_off w 1%nat = 500 /\
  free_ticks w 0 tr 5005 8000 900 /\ heartbeats_arrive w 2 0 tr 8000 100 /\
  length (calls_at 0 tr) = 5%nat /\ length (calls_at 1 tr) = 3%nat.
Proof.
  run_as H0 (env0 Arduino) 0 [(100, OTick None); (5800, OTick None); (5900, OTick (Some (heartbeat_pkt 24 5800)));
    (6700, OTick None); (7600, OTick None)].
  run_as H1 (env_const Arduino 1999%N) 800 [(6000, OTick None); (6350, OTick (Some (heartbeat_pkt 24 5800)));
    (8150, OTick (Some (heartbeat_pkt 41 7600)))].
  run_as H2 (env0 Arduino) 0 (@nil (Z * op)).
  match type of H0 with hist _ _ [?a; ?b; ?c; ?d; ?f] _ =>
  match type of H1 with hist _ _ [?p; ?q; ?r] _ =>
    set (A := a) in *; set (B := b) in *; set (C := c) in *; set (D := d) in *; set (F := f) in *;
    set (PP := p) in *; set (Q := q) in *; set (R := r) in *
  end end.
  exists (mkNetwork (fun i => match i with 1%nat => env_const Arduino 1999%N | _ => env0 Arduino end)
    (fun i => match i with 1%nat => 800 | _ => 0 end)
    (fun i => match i with 1%nat => 500 | _ => 0 end) (fun _ => [])),
    [(0%nat, A); (1%nat, PP); (0%nat, B); (1%nat, Q); (0%nat, C); (0%nat, D); (0%nat, F); (1%nat, R)].
  cbv zeta.
  split; [reflexivity|].
  split.
  { intros [|[|i]].
    - split; [eexists; exact H0|]. intros x p I K. repeat (destruct I as [<-|I]; [discriminate K|]). destruct I.
    - split; [eexists; exact H1|]. intros x p I K. repeat (destruct I as [<-|I]; [discriminate K|]). destruct I.
    - split; [eexists; exact H2|]. intros x p []. }
  split.
  { intros a i u b j v c E.
    repeat (destruct a as [|? a]; [injection E as <- <- E;
       repeat (destruct b as [|? b]; [injection E as <- <- E; vm_compute; congruence|injection E as _ E]);
       try (destruct b; discriminate E)|injection E as _ E]); destruct a; discriminate E. }
  split.
  { intros i ev I. repeat (destruct I as [I|I]; [injection I as <- <-; split; [lia|vm_compute; congruence]|]). destruct I. }
  split.
  { intros [|[|i]] L; [| |lia]; (split; [reflexivity|]); intros x I; repeat (destruct I as [<-|I]; [reflexivity|]); destruct I. }
  split.
  { intros a i ev b p E K L.
    repeat (destruct a as [|? a]; [injection E as <- <- E; first [discriminate K|
       injection K as <-;
       first [eexists 0%nat, B, _; split; [cbn [In]; auto 20|]; split; [left; reflexivity|]; split; reflexivity
             |eexists 0%nat, F, _; split; [cbn [In]; auto 20|]; split; [left; reflexivity|]; split; reflexivity]]
       |injection E as ? E; subst]); destruct a; discriminate E. }
  split.
  { intros a ev b p E K L _.
    repeat (destruct a as [|? a]; [injection E; intros; subst; first [discriminate K|discriminate|
       injection K as <-; vm_compute; auto 20]
       |injection E as ? E; subst]); destruct a; discriminate E. }
  split; [reflexivity|]. split; [reflexivity|]. split; [reflexivity|].
  split.
  { intros x L U. destruct (Z_lt_ge_dec x 5800); [exists B|destruct (Z_lt_ge_dec x 6700); [exists D|exists F]]; (split; [cbn [In]; auto 20|]);
      (split; [split; [eexists; reflexivity|intros p I; cbn in I; try destruct I as [I|[]]; try discriminate I; destruct I]|]); unfold global; cbn; lia. }
  split.
  { intros y i I O Ni Nm U. destruct i as [|[|i]]; [congruence| |lia].
    repeat (destruct I as [I|I]; [first [discriminate I|injection I as <-];
      first [exists Q; split; [cbn [In]; auto 20|]; split; [eexists; split; [split; [reflexivity|left; reflexivity]|left; reflexivity]|vm_compute; split; congruence]
            |exists R; split; [cbn [In]; auto 20|]; split; [eexists; split; [split; [reflexivity|left; reflexivity]|left; reflexivity]|vm_compute; split; congruence]
            |exfalso; destruct O as (p & (s & Ip) & Tp); cbn in Ip; repeat (destruct Ip as [Ip|Ip]; [inversion Ip; subst; discriminate Tp|]); destruct Ip]|]).
    destruct I. }
  split; reflexivity.
Qed.

(** The margin is needed: when the patience of two nodes ends within the time a
    heartbeat travels, both take over. *)
Theorem C104_two_masters_at_start_refuted : exists w u v,
  (forall i, n_past w i = []) /\ is_run w [(0%nat, u); (1%nat, v)] /\ ordered w [(0%nat, u); (1%nat, v)] /\
  patience_ends (n_env w 0%nat) (n_start w 0%nat) - n_off w 0%nat = 5005 /\
  patience_ends (n_env w 1%nat) (n_start w 1%nat) - n_off w 1%nat = 5009 /\
  global w 0 u = 5010 /\ global w 1 v = 5010 /\ took_over u /\ took_over v.
Proof.
  run_as H0 (env0 Arduino) 0 [(5010, OTick None)].
  run_as H1 (env_const Arduino 9%N) 0 [(5010, OTick None)].
  run_as H2 (env0 Arduino) 0 (@nil (Z * op)).
  match type of H0 with hist _ _ [?a] _ => match type of H1 with hist _ _ [?p] _ =>
    exists (mkNetwork (fun i => match i with 1%nat => env_const Arduino 9%N | _ => env0 Arduino end) (fun _ => 0) (fun _ => 0) (fun _ => [])), a, p
  end end.
  split; [reflexivity|].
  split.
  { intros [|[|i]].
    - split; [eexists; exact H0|]. intros x p I K. repeat (destruct I as [<-|I]; [discriminate K|]). destruct I.
    - split; [eexists; exact H1|]. intros x p I K. repeat (destruct I as [<-|I]; [discriminate K|]). destruct I.
    - split; [eexists; exact H2|]. intros x p []. }
  split.
  { intros a i u b j v c E.
    destruct a as [|z1 a]; [injection E as <- <- E; destruct b as [|z2 b]; [injection E as <- <- E; vm_compute; congruence|]|].
    - exfalso. apply (f_equal (@length _)) in E. rewrite app_length in E. cbn in E. lia.
    - exfalso. apply (f_equal (@length _)) in E. cbn in E. rewrite app_length in E. cbn in E. rewrite app_length in E. cbn in E. lia. }
  repeat split; reflexivity.
Qed.
Print Assumptions C104_two_masters_at_start_refuted.
