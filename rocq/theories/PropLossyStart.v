(** How a network starts, or goes on without its master, when packets get lost and clocks
    differ: C143. *)
From Coq Require Import ZArith Lia List Bool.
From Coq Require Import ZifyBool.
From Verif Require Import CInt CIntFacts Packet SpecPacket PacketFacts NetMgr NetHist SpecNet NetFacts Rsm RsmStep RsmEval RsmHist SpecRsm RsmFacts RsmTime RoleFacts RsmRun EffectFacts PropRole PropHeartbeat PropEffect PropHold PropApi PropPair PropNetTime PropNetwork PropOneMaster PropCatchUp PropInStep PropStartUp Fastled Palette Device LedMgr SpecLed Effects SpecEffect Show ShowFacts PropShow PropDrift Settled PropLossy.
Import ListNotations.
Open Scope Z_scope.
Ltac Zify.zify_post_hook ::= Z.div_mod_to_equations.

(** The first take-over of a run, if there is one. *)
Lemma first_takeover_timed (tr : timed) :
  (exists pre i x ev rest, tr = pre ++ (i, (x, ev)) :: rest /\ took_over ev /\ forall j y u, In (j, (y, u)) pre -> ~ took_over u) \/
  (forall i x ev, In (i, (x, ev)) tr -> ~ took_over ev).
Proof.
  induction tr as [|[i [x ev]] tr IH]; [right; intros ? ? ? []|].
  destruct (took_over_dec ev) as [T|T]; [left; exists [], i, x, ev, tr; split; [reflexivity|split; [exact T|intros ? ? ? []]]|].
  destruct IH as [(pre & j & y & u & rest & -> & U & Q)|Q].
  - left. exists ((i, (x, ev)) :: pre), j, y, u, rest. split; [reflexivity|]. split; [exact U|].
    intros k z v [I|I]; [inversion I; subst; exact T|eauto].
  - right. intros k z v [I|I]; [inversion I; subst; exact T|eauto].
Qed.

(** A run of N nodes none of which is master yet, on the air: what a node accepts as a
    heartbeat or claim, another node originated at most D ms ago. *)
Record on_air (w : network) (clk : nat -> Z -> Z) (N : nat) (tr : timed) (stop D : Z) : Prop := mkAir {
  oa_leaderless : forall i n, (i < N)%nat -> hist (n_env w i) (n_start w i) (n_past w i) n -> GetCurrentState n = Slave;
  oa_run : is_run w (untimed tr);
  oa_ordered : forall a i x u b j y v c, tr = a ++ (i, (x, u)) :: b ++ (j, (y, v)) :: c -> x <= y;
  oa_times : forall i x ev, In (i, (x, ev)) tr -> (i < N)%nat /\ at_ ev = clk i x /\ x <= stop;
  oa_wrap : forall i, (i < N)%nat -> all_before (wrap - 7000) (n_start w i) (n_past w i ++ calls_at i (untimed tr));
  oa_prompt : forall a i x ev b p, tr = a ++ (i, (x, ev)) :: b -> accepted ev p -> life_sign p -> sent_before a i x p D
}.

(** The wait of node i is over when its clock shows more than this: five seconds and what it
    drew at power-up; for a node that has been called before, what is left of its wait. *)
Definition wait_over (w : network) (i : nat) : Z :=
  match rev (n_past w i) with
  | [] => n_start w i + 5000 + Z.of_N (draw (n_env w i) 0%nat) mod 2000
  | ev :: _ => t_hb (after ev)
  end.
Lemma wait_over_ends w i : wait_over w i = ends w i.
Proof. reflexivity. Qed.

Section Start.
Variables (w : network) (clk : nat -> Z -> Z) (N : nat) (tr : timed) (stop D : Z).
Hypothesis OA : on_air w clk N tr stop D.

Lemma st_split a i x ev b : tr = a ++ (i, (x, ev)) :: b ->
  exists n, hist (n_env w i) (n_start w i) ((n_past w i ++ calls_at i (untimed a)) ++ [ev]) n /\
    api_ok ((n_past w i ++ calls_at i (untimed a)) ++ [ev]).
Proof.
  intros E. pose proof (oa_run _ _ _ _ _ _ OA) as R. rewrite E, untimed_app, untimed_cons in R. apply (run_split _ _ _ _ _ R).
Qed.

(** As long as nobody took over, all are slaves and there is nothing to hear. *)
Lemma st_quiet pre post : tr = pre ++ post -> (forall i x ev, In (i, (x, ev)) pre -> ~ took_over ev) ->
  (forall i x ev, In (i, (x, ev)) pre -> role_before ev = Slave /\ role_after ev = Slave /\ ~ contact ev) /\
  (forall i n, (i < N)%nat -> hist (n_env w i) (n_start w i) (n_past w i ++ calls_at i (untimed pre)) n -> GetCurrentState n = Slave).
Proof.
  revert post. induction pre as [|[i [x ev]] pre IH] using rev_ind; intros post E Nt.
  - split; [intros ? ? ? []|]. intros i n Ni H. cbn in H. rewrite app_nil_r in H. exact (oa_leaderless _ _ _ _ _ _ OA i n Ni H).
  - rewrite <- app_assoc in E. cbn [app] in E.
    destruct (IH _ E ltac:(intros k y z I; apply (Nt k y); apply in_or_app; auto)) as [A B]. clear IH.
    destruct (st_split _ _ _ _ _ E) as (n & H & Ap). apply hist_last in H as (H & En & _).
    assert (Ii : In (i, (x, ev)) tr) by (rewrite E; apply in_or_app; right; left; reflexivity).
    destruct (oa_times _ _ _ _ _ _ OA i x ev Ii) as (Ni & _).
    assert (Rb : role_before ev = Slave) by (apply (B i); [exact Ni|exact H]).
    assert (Ra : role_after ev = Slave).
    { destruct (role_after ev) eqn:Er; [reflexivity|exfalso].
      apply (Nt i x ev); [apply in_or_app; right; left; reflexivity|split; assumption]. }
    assert (Nc : ~ contact ev).
    { intros (p & Ac & L).
      destruct (oa_prompt _ _ _ _ _ _ OA pre i x ev post p E Ac L) as (k & y & c & q & Nk & Iy & Oy & Sy & _).
      destruct (A k y c Iy) as (A1 & A2 & _).
      apply in_split in Iy as (a1 & a2 & Ea).
      assert (E1 : tr = a1 ++ (k, (y, c)) :: (a2 ++ (i, (x, ev)) :: post)) by (rewrite E, Ea, <- app_assoc; reflexivity).
      destruct (st_split _ _ _ _ _ E1) as (n' & Hy & Apy).
      destruct (slave_origin _ _ _ _ q (ex_intro _ _ Hy) A1 A2 Oy) as (q' & Cq & Sq & _).
      assert (ptype q' = 2 \/ ptype q' = 3) by (apply (Apy c q'); [apply in_or_app; right; left; reflexivity|exact Cq]).
      unfold life_sign in L. destruct Sy as [Sy _]. destruct Sq as [Sq _]. lia. }
    split.
    + intros k y z I. apply in_app_or in I as [I|[I|[]]]; [eauto|]. inversion I; subst. auto.
    + intros k n' Nk' Hk. rewrite untimed_app, calls_at_app in Hk. cbn [untimed map fst snd] in Hk.
      destruct (PeanoNat.Nat.eq_dec k i) as [->|Nk].
      * rewrite calls_at_one, app_assoc in Hk. apply hist_last in Hk as (_ & -> & _). exact Ra.
      * rewrite (calls_at_other _ _ _ Nk), app_nil_r in Hk. eauto.
Qed.

Lemma st_wrap a i x ev b : tr = a ++ (i, (x, ev)) :: b ->
  all_before (wrap - 7000) (n_start w i) ((n_past w i ++ calls_at i (untimed a)) ++ [ev]).
Proof.
  intros E. assert (Ii : In (i, (x, ev)) tr) by (rewrite E; apply in_or_app; right; left; reflexivity).
  destruct (oa_wrap _ _ _ _ _ _ OA i (proj1 (oa_times _ _ _ _ _ _ OA i x ev Ii))) as [W1 W2].
  split; [exact W1|]. intros z I. apply W2. rewrite <- app_assoc in I.
  apply in_app_or in I as [I|I]; apply in_or_app; [left; exact I|right].
  apply in_app_or in I as [I|[<-|[]]]; [|apply in_calls; eauto].
  apply in_calls in I as (y & I). apply in_calls. exists y. rewrite E. apply in_or_app; auto.
Qed.

(** The first take-over happens when the wait of a node is over. *)
Lemma st_when pre j x u b : tr = pre ++ (j, (x, u)) :: b -> (forall i y ev, In (i, (y, ev)) pre -> ~ took_over ev) ->
  (took_over u <-> packet_free u /\ wait_over w j < at_ u).
Proof.
  intros E Nt. destruct (st_quiet pre _ E Nt) as [A B].
  destruct (st_split _ _ _ _ _ E) as (n & H & Ap). pose proof H as H1. apply hist_last in H1 as (H1 & _).
  assert (Ij : In (j, (x, u)) tr) by (rewrite E; apply in_or_app; right; left; reflexivity).
  assert (Nj : (j < N)%nat) by apply (oa_times _ _ _ _ _ _ OA j x u Ij).
  apply (lonely_node w j (calls_at j (untimed pre)) u (ex_intro _ _ H) (st_wrap _ _ _ _ _ E)).
  - intros n0 Hn. exact (oa_leaderless _ _ _ _ _ _ OA j n0 Nj Hn).
  - intros z I. apply in_calls in I as (y & I). apply (A j y z I).
  - apply (B j _ Nj H1).
Qed.

(** A node that has heard nothing so far does not take over before its wait is over. *)
Lemma st_early a i x ev b : tr = a ++ (i, (x, ev)) :: b -> took_over ev ->
  (forall y c, In (i, (y, c)) a -> ~ contact c) -> wait_over w i < at_ ev.
Proof.
  intros E TO Nc. destruct (st_split _ _ _ _ _ E) as (n & H & _).
  assert (Ii : In (i, (x, ev)) tr) by (rewrite E; apply in_or_app; right; left; reflexivity).
  assert (Ni : (i < N)%nat) by apply (oa_times _ _ _ _ _ _ OA i x ev Ii).
  apply (lonely_node w i (calls_at i (untimed a)) ev (ex_intro _ _ H) (st_wrap _ _ _ _ _ E)
    (fun n0 => oa_leaderless _ _ _ _ _ _ OA i n0 Ni)); [|apply TO|exact TO].
  intros c I. apply in_calls in I as (y & I). exact (Nc y c I).
Qed.
End Start.

(** ** C143 *)

(** N nodes, none of them master.  Node m gets a free tick when its wait is over, by time T
    at the latest, and the waits of the others are not over before T + Gap.  From the moment
    m takes over nobody else goes without a heartbeat for more than [Gap] ms, in which no clock
    counts more than five seconds.  Then m takes over by T, there is no master before, and m is
    the only one from then on; the network is one of those of C141 from then on. *)
Theorem C143_a_network_starts w clk N m tr stop D Gap T :
  on_air w clk N tr stop D -> patient clk N Gap -> 0 <= Gap -> (m < N)%nat ->
  (exists x ev, In (m, (x, ev)) tr /\ packet_free ev /\ wait_over w m < at_ ev /\ x <= T) ->
  (forall i, (i < N)%nat -> i <> m -> clk i (T + Gap) <= wait_over w i) ->
  (forall g ev i x, In (m, (g, ev)) tr -> took_over ev -> (i < N)%nat -> i <> m -> g <= x -> x + Gap < stop ->
     exists y c q, In (i, (y, c)) tr /\ accepted c q /\ ptype q = 0 /\ x < y <= x + Gap) ->
  exists pre g m0 rest, tr = pre ++ (m, (g, m0)) :: rest /\
    took_over m0 /\ own_heartbeat m0 /\ g <= T /\
    (forall i x ev, In (i, (x, ev)) pre -> role_after ev = Slave /\ x <= g) /\
    (forall i x ev, In (i, (x, ev)) ((m, (g, m0)) :: rest) -> role_after ev = if Nat.eqb i m then Master else Slave) /\
    in_earshot (later w (untimed pre)) clk N m ((m, (g, m0)) :: rest) g stop D Gap.
Proof.
  intros OA PT G0 Nm (x1 & e1 & I1 & F1 & L1 & B1) Others Hears.
  pose proof (pt_forward _ _ _ PT) as Fw.
  pose proof (st_when w clk N tr stop D OA) as Key.
  destruct (first_takeover_timed tr) as [(pre & j & g & m0 & rest & E & TO & Nt)|Nt].
  2:{ exfalso. apply in_split in I1 as (a & b & E).
      assert (Na : forall i y ev, In (i, (y, ev)) a -> ~ took_over ev) by (intros i y ev I; apply (Nt i y); rewrite E; apply in_or_app; auto).
      apply (Nt m x1 e1); [rewrite E; apply in_or_app; right; left; reflexivity|].
      apply (Key _ _ _ _ _ E Na). split; [exact F1|exact L1]. }
  destruct (proj1 (Key _ _ _ _ _ E Nt) TO) as [F0 L0].
  assert (Ij : In (j, (g, m0)) tr) by (rewrite E; apply in_or_app; right; left; reflexivity).
  destruct (oa_times _ _ _ _ _ _ OA j g m0 Ij) as (Nj & At & Bs).
  assert (Gj : g <= T).
  { destruct (Z_le_gt_dec g T) as [L|L]; [exact L|exfalso].
    assert (Iy' : In (m, (x1, e1)) pre).
    { rewrite E in I1. apply in_app_or in I1 as [I1|[I1|I1]]; [exact I1|inversion I1; subst; lia|].
      apply in_split in I1 as (b1 & b2 & ->). pose proof (oa_ordered _ _ _ _ _ _ OA _ _ _ _ _ _ _ _ _ E). lia. }
    apply (Nt m x1 e1 Iy'). apply in_split in Iy' as (a & b & Ep).
    apply (Key a m x1 e1 (b ++ (j, (g, m0)) :: rest)).
    - rewrite E, Ep, <- app_assoc. reflexivity.
    - intros i y ev I. apply (Nt i y). rewrite Ep. apply in_or_app; auto.
    - split; [exact F1|exact L1]. }
  assert (j = m) as ->.
  { destruct (PeanoNat.Nat.eq_dec j m) as [->|Ne]; [reflexivity|exfalso].
    specialize (Others j Nj Ne). specialize (Fw j g (T + Gap) Nj ltac:(lia)). lia. }
  destruct (st_quiet w clk N tr stop D OA pre _ E Nt) as [A B].
  assert (Own : own_heartbeat m0).
  { destruct (st_split w clk N tr stop D OA _ _ _ _ _ E) as (n & H & Ap). apply hist_last in H as (_ & _ & _ & _ & _ & _ & S).
    exact (takeover_heartbeat _ _ S TO). }
  set (tr2 := (m, (g, m0)) :: rest).
  assert (Sub : forall z, In z tr2 -> In z tr) by (intros z I; rewrite E; apply in_or_app; auto).
  assert (Later : forall i x ev, In (i, (x, ev)) tr2 -> g <= x).
  { intros i x ev [I|I]; [inversion I; subst; lia|]. apply in_split in I as (a & b & Er).
    apply (oa_ordered _ _ _ _ _ _ OA pre m g m0 a i x ev b). rewrite E, Er. reflexivity. }
  assert (Past : forall i x ev, In (i, (x, ev)) pre -> x <= g).
  { intros i x ev I. apply in_split in I as (a & b & Ep). apply (oa_ordered _ _ _ _ _ _ OA a i x ev b m g m0 rest). rewrite E, Ep, <- app_assoc. reflexivity. }
  (* who hears something after g finds it in tr2 *)
  assert (ES : in_earshot (later w (untimed pre)) clk N m tr2 g stop D Gap).
  { constructor.
    - apply later_run. rewrite <- untimed_app. unfold tr2. rewrite <- E. apply OA.
    - intros a i x u b k y v c E2. apply (oa_ordered _ _ _ _ _ _ OA (pre ++ a) i x u b k y v c). rewrite E, <- app_assoc. f_equal. exact E2.
    - intros i x ev I. apply (oa_times _ _ _ _ _ _ OA i x ev (Sub _ I)).
    - intros i Ni. cbn [later n_start n_past]. rewrite <- app_assoc, <- calls_at_app, <- untimed_app. unfold tr2. rewrite <- E. apply (oa_wrap _ _ _ _ _ _ OA i Ni).
    - intros i x Ni Ne Gx Ux. destruct (Hears g m0 i x Ij TO Ni Ne Gx Ux) as (y & c & q & Iy & Ac & Tq & Ly).
      exists y, c, q. split; [|auto]. rewrite E in Iy. apply in_app_or in Iy as [Iy|Iy]; [|exact Iy].
      specialize (Past i y c Iy). lia.
    - intros a i x ev b p E2 Ac Lp.
      destruct (oa_prompt _ _ _ _ _ _ OA (pre ++ a) i x ev b p ltac:(rewrite E, <- app_assoc; f_equal; exact E2) Ac Lp) as (k & y & c & q & Nk & Iy & Oy & Sy & Ly).
      exists k, y, c, q. split; [exact Nk|]. split; [|auto].
      apply in_app_or in Iy as [Iy|Iy]; [exfalso|exact Iy].
      destruct (A k y c Iy) as (A1 & A2 & _). apply in_split in Iy as (a1 & a2 & Ea).
      assert (E1 : tr = a1 ++ (k, (y, c)) :: (a2 ++ tr2)) by (rewrite E, Ea, <- app_assoc; reflexivity).
      destruct (st_split w clk N tr stop D OA _ _ _ _ _ E1) as (n' & Hy & Apy).
      destruct (slave_origin _ _ _ _ q (ex_intro _ _ Hy) A1 A2 Oy) as (q' & Cq & Sq & _).
      assert (ptype q' = 2 \/ ptype q' = 3) by (apply (Apy c q'); [apply in_or_app; right; left; reflexivity|exact Cq]).
      unfold life_sign in Lp. destruct Sy as [Sy _]. destruct Sq as [Sq _]. lia. }
  assert (Sl : forall i n, (i < N)%nat -> i <> m -> hist (n_env (later w (untimed pre)) i) (n_start (later w (untimed pre)) i) (n_past (later w (untimed pre)) i) n -> GetCurrentState n = Slave).
  { intros i n Ni _ H. exact (B i n Ni H). }
  assert (NoR : forall i x ev, In (i, (x, ev)) tr2 -> i <> m -> x <= g + Gap -> ~ took_over ev).
  { intros i x ev I Ne Lx TOe.
    destruct (oa_times _ _ _ _ _ _ OA i x ev (Sub _ I)) as (Ni & Ai & _).
    apply in_split in I as (a & b & Ea).
    assert (Et : tr = (pre ++ a) ++ (i, (x, ev)) :: b) by (rewrite E, <- app_assoc; f_equal; exact Ea).
    assert (Nc : forall y c, In (i, (y, c)) (pre ++ a) -> ~ contact c).
    { intros y c Ic Cc. apply in_app_or in Ic as [Ic|Ic]; [apply (A i y c Ic); exact Cc|].
      destruct (st_split w clk N tr stop D OA _ _ _ _ _ Et) as (n & H & _).
      destruct (C17_takeover_only_after_silence _ _ _ _ (ex_intro _ _ H) (st_wrap w clk N tr stop D OA _ _ _ _ _ Et) TOe) as [_ Q].
      specialize (Q c ltac:(apply in_or_app; right; apply in_calls; exists y; apply in_or_app; right; exact Ic) (or_introl Cc)).
      assert (Ic2 : In (i, (y, c)) tr2) by (rewrite Ea; apply in_or_app; left; exact Ic).
      pose proof (Later i y c Ic2) as Ly.
      destruct (oa_times _ _ _ _ _ _ OA i y c (Sub _ Ic2)) as (_ & Ac & _).
      pose proof (Fw i g y Ni Ly). pose proof (Fw i x (g + Gap) Ni Lx). pose proof (pt_five _ _ _ PT i g Ni). lia. }
    pose proof (st_early w clk N tr stop D OA _ _ _ _ _ Et TOe Nc) as K.
    specialize (Others i Ni Ne). pose proof (Fw i x (T + Gap) Ni ltac:(lia)). lia. }
  exists pre, g, m0, rest. split; [exact E|]. split; [exact TO|]. split; [exact Own|]. split; [exact Gj|]. split.
  - intros i x ev I. split; [apply (A i x ev I)|exact (Past i x ev I)].
  - split; [|exact ES].
    exact (C141_one_master _ clk N m m0 rest g stop D Gap ES PT Own Sl NoR).
Qed.
Print Assumptions C143_a_network_starts.

(** From power-up to one animation: when the master has shown K since a time x after T, and
    nobody has ordered anything else, every node that has heard an announcement since x + D draws,
    on any strip, the picture the master draws at its own network time L ms earlier. *)
Corollary C143_from_power_up_to_one_animation w clk N m tr stop D Gap T E x K i n nm :
  on_air w clk N tr stop D -> patient clk N Gap -> 0 <= Gap -> (m < N)%nat ->
  (exists x ev, In (m, (x, ev)) tr /\ packet_free ev /\ wait_over w m < at_ ev /\ x <= T) ->
  (forall i, (i < N)%nat -> i <> m -> clk i (T + Gap) <= wait_over w i) ->
  (forall g ev i x, In (m, (g, ev)) tr -> took_over ev -> (i < N)%nat -> i <> m -> g <= x -> x + Gap < stop ->
     exists y c q, In (i, (y, c)) tr /\ accepted c q /\ ptype q = 0 /\ x < y <= x + Gap) ->
  accurate clk N (Gap + D) E -> T + Gap < stop -> about_effects K -> T <= x -> news_prompt tr (x + D) D ->
  (forall y ev, In (m, (y, ev)) tr -> x < y -> says (GetSetEffect (after ev)) K) -> says (GetSetEffect nm) K ->
  (forall j y ev q, In (j, (y, ev)) tr -> j <> m -> x < y -> call ev = OSetEffect q -> says q K) ->
  (i < N)%nat -> i <> m ->
  (exists y c q, In (i, (y, c)) tr /\ accepted c q /\ about_effects q /\ x + D < y) -> 0 <= D ->
  hist (n_env w i) (n_start w i) (n_past w i ++ calls_at i (untimed tr)) n ->
  hist (n_env w m) (n_start w m) (n_past w m ++ calls_at m (untimed tr)) nm ->
  GetCurrentState nm = Master /\ GetCurrentState n = Slave /\
  exists L, - (2 * E) <= L <= D + 2 * E /\
    forall fl md d o o' delta buf,
    o = o' \/ (ptype K = 2 -> ~ per_node (nth 0 (pdata K) 0 mod 35)) ->
    Show Arduino fl md d o (GetSetEffect n) (fun r => GetNetworkMillis (u32 (clk i stop + delta r)) n) buf =
    Show Arduino fl md d o' (GetSetEffect nm) (fun r => GetNetworkMillis (u32 (clk m stop - L + delta r)) nm) buf.
Proof.
  intros OA PT G0 Nm Fm Others Hears Acc Late AK Tx NP Kx Sm NoSet Ni Ne (y & c & q & Iy & Ac & Aq & Ly) D0 Hn Hm.
  destruct (C143_a_network_starts w clk N m tr stop D Gap T OA PT G0 Nm Fm Others Hears)
    as (pre & g & m0 & rest & Et & TO & Own & Gj & Qpre & Qrest & ES).
  set (tr2 := (m, (g, m0)) :: rest) in *.
  assert (Sub : forall z, In z tr2 -> In z tr) by (intros z I; rewrite Et; apply in_or_app; auto).
  assert (In2 : forall k z u, In (k, (z, u)) tr -> g < z -> In (k, (z, u)) tr2).
  { intros k z u I L. rewrite Et in I. apply in_app_or in I as [I|I]; [|exact I]. destruct (Qpre k z u I). lia. }
  assert (Calls : forall k, n_past (later w (untimed pre)) k ++ calls_at k (untimed tr2) = n_past w k ++ calls_at k (untimed tr)).
  { intros k. cbn [later n_past]. rewrite <- app_assoc, <- calls_at_app, <- untimed_app, <- Et. reflexivity. }
  assert (Nt : forall k z u, In (k, (z, u)) pre -> ~ took_over u).
  { intros k z u I [_ K0]. destruct (Qpre k z u I) as [K1 _]. congruence. }
  assert (Sl : forall k n0, (k < N)%nat -> k <> m -> hist (n_env (later w (untimed pre)) k) (n_start (later w (untimed pre)) k) (n_past (later w (untimed pre)) k) n0 -> GetCurrentState n0 = Slave).
  { intros k n0 Nk _ H. exact (proj2 (st_quiet w clk N tr stop D OA pre _ Et Nt) k n0 Nk H). }
  assert (NoR : forall k z u, In (k, (z, u)) tr2 -> k <> m -> z <= g + Gap -> ~ took_over u).
  { intros k z u I Nk _ [_ K0]. specialize (Qrest k z u I). destruct (PeanoNat.Nat.eqb_spec k m); [contradiction|congruence]. }
  split; [|split].
  - apply (es_master (later w (untimed pre)) clk N m m0 rest g stop D (earshot_aired _ _ _ _ _ _ _ _ _ ES) (earshot_quiet _ _ _ _ _ _ _ _ _ ES PT NoR) tr2 [] nm (eq_sym (app_nil_r tr2))); [discriminate| |rewrite Calls; exact Hm].
    intros z u I. specialize (Qrest m z u I). rewrite PeanoNat.Nat.eqb_refl in Qrest. exact Qrest.
  - rewrite <- Calls in Hn. cbn [later n_env n_start] in *.
    destruct (es_all (later w (untimed pre)) clk N m m0 rest g stop D (earshot_aired _ _ _ _ _ _ _ _ _ ES) Own Sl (earshot_quiet _ _ _ _ _ _ _ _ _ ES PT NoR) tr2 [] (eq_sym (app_nil_r tr2))) as [_ Q].
    exact (Q i n Ni Ne Hn).
  - apply (C141_one_animation (later w (untimed pre)) clk N m m0 rest g stop D Gap E x (y - (x + D)) K i n nm ES PT Own Sl NoR Acc); auto; fold tr2.
    + lia.
    + intros a k z u b p E2 Lz Au Pu.
      destruct (NP (pre ++ a) k z u b p ltac:(rewrite Et, <- app_assoc; f_equal; exact E2) Lz Au Pu) as (k' & y' & c' & q' & Nk & Iy' & Oy' & Sy' & Ly').
      exists k', y', c', q'. split; [exact Nk|]. split; [|auto].
      apply in_app_or in Iy' as [Iy'|Iy']; [|exact Iy']. destruct (Qpre k' y' c' Iy'). lia.
    + intros z u I L. apply (Kx z u (Sub _ I) L).
    + intros j z u r I. apply (NoSet j z u r (Sub _ I)).
    + exists y, c, q. split; [apply In2; [exact Iy|lia]|]. split; [exact Ac|]. split; [exact Aq|lia].
    + rewrite Calls. exact Hn.
    + rewrite Calls. exact Hm.
Qed.
Print Assumptions C143_from_power_up_to_one_animation.

Ltac find := repeat match goal with |- In ?x (?x :: _) => left; reflexivity | |- In _ (_ :: _) => right end.

(** Non-vacuous: node 1 is switched on 300 ms after node 0, its clock runs one percent fast,
    and it draws a long wait.  It misses the heartbeat with which node 0 takes over (5900) and the
    first announcement (7950). *)
Example C143_example : exists w tr n nm,
  let K := effect_pkt 0 1 0 0 in
  (forall i, n_past w i = []) /\ n_start w 1%nat = fast_clock 1 300 /\
  on_air w fast_clock 2 tr 10300 100 /\ patient fast_clock 2 1300 /\ accurate fast_clock 2 (1300 + 100) 15 /\
  (exists x ev, In (0%nat, (x, ev)) tr /\ packet_free ev /\ wait_over w 0 < at_ ev /\ x <= 5900) /\
  (forall i, (i < 2)%nat -> i <> 0%nat -> fast_clock i (5900 + 1300) <= wait_over w i) /\
  (forall g ev i x, In (0%nat, (g, ev)) tr -> took_over ev -> (i < 2)%nat -> i <> 0%nat -> g <= x -> x + 1300 < 10300 ->
     exists y c q, In (i, (y, c)) tr /\ accepted c q /\ ptype q = 0 /\ x < y <= x + 1300) /\
  about_effects K /\ news_prompt tr (6000 + 100) 100 /\
  (forall y ev, In (0%nat, (y, ev)) tr -> 6000 < y -> says (GetSetEffect (after ev)) K) /\ says (GetSetEffect nm) K /\
  (forall i y ev q, In (i, (y, ev)) tr -> i <> 0%nat -> 6000 < y -> call ev = OSetEffect q -> says q K) /\
  (exists y c q, In (1%nat, (y, c)) tr /\ accepted c q /\ about_effects q /\ 6000 + 100 < y) /\
  hist (n_env w 1%nat) (n_start w 1%nat) (n_past w 1%nat ++ calls_at 1 (untimed tr)) n /\
  hist (n_env w 0%nat) (n_start w 0%nat) (n_past w 0%nat ++ calls_at 0 (untimed tr)) nm /\
  GetNetworkMillis (u32 (fast_clock 1 10300)) n = 10261 /\ GetNetworkMillis (u32 (fast_clock 0 10300)) nm = 10300.
Proof.
  run_as H0 (env0 Arduino) 0 [(100, OTick None); (5900, OTick None); (6800, OTick None); (7000, OTick None); (7950, OTick None);
    (8100, OTick None); (9050, OTick None); (9200, OTick None); (10000, OTick None)].
  run_as H1 (env_const Arduino 1999%N) 803 [(7620, OTick (Some (heartbeat_pkt 41 7000)));
    (8731, OTick (Some (heartbeat_pkt 75 8100))); (9842, OTick (Some (heartbeat_pkt 92 9200)));
    (10650, OTick (Some (effect_pkt 109 1 0 0)))].
  run_as H2 (env0 Arduino) 0 (@nil (Z * op)).
  match type of H0 with hist _ _ [?a; ?b; ?c; ?d; ?f; ?g; ?h; ?i; ?j] ?nm =>
  match type of H1 with hist _ _ [?q; ?r; ?s; ?t] ?n =>
    set (A := a) in *; set (B := b) in *; set (C := c) in *; set (D := d) in *; set (F := f) in *; set (G := g) in *;
    set (HH := h) in *; set (II := i) in *; set (JJ := j) in *;
    set (Q := q) in *; set (R := r) in *; set (S := s) in *; set (T := t) in *;
    exists (mkNetwork (fun w0 => match w0 with 1%nat => env_const Arduino 1999%N | _ => env0 Arduino end)
      (fun w0 => match w0 with 1%nat => 803 | _ => 0 end) (fun _ => 0) (fun _ => [])),
      [(0%nat, (100, A)); (0%nat, (5900, B)); (0%nat, (6800, C)); (0%nat, (7000, D)); (1%nat, (7050, Q)); (0%nat, (7950, F)); (0%nat, (8100, G));
       (1%nat, (8150, R)); (0%nat, (9050, HH)); (0%nat, (9200, II)); (1%nat, (9250, S)); (0%nat, (10000, JJ)); (1%nat, (10050, T))], n, nm
  end end.
  cbv zeta. split; [reflexivity|]. split; [reflexivity|]. split; [constructor|].
  { apply new_leaderless. reflexivity. }
  { intros [|[|i]].
    - split; [eexists; exact H0|]. intros x p I K. repeat (destruct I as [<-|I]; [discriminate K|]). destruct I.
    - split; [eexists; exact H1|]. intros x p I K. repeat (destruct I as [<-|I]; [discriminate K|]). destruct I.
    - split; [eexists; exact H2|]. intros x p []. }
  { intros a i x u b j y v c E.
    repeat (destruct a as [|? a]; [injection E as <- <- <- E;
       repeat (destruct b as [|? b]; [injection E as <- <- <- E; lia|injection E as _ E]);
       try (destruct b; discriminate E)|injection E as _ E]); destruct a; discriminate E. }
  { intros i x ev I. repeat (destruct I as [I|I]; [injection I as <- <- <-; split; [lia|split; [reflexivity|lia]]|]). destruct I. }
  { intros [|[|i]] L; [| |lia]; (split; [reflexivity|]); intros x I; repeat (destruct I as [<-|I]; [reflexivity|]); destruct I. }
  { intros a i x ev b p E [Ca Fw] Tp.
    repeat (destruct a as [|? a]; [injection E as <- <- <- E; first [discriminate Ca|injection Ca as <-; cbn in Fw;
       first [exfalso; intuition discriminate|idtac]];
       let go z X := (eexists 0%nat, z, X, _; split; [discriminate|]; split; [find|]; split; [eexists; left; reflexivity|]; split; [split; reflexivity|lia]) in
       first [go 7000 D|go 8100 G|go 9200 II|go 10000 JJ]
       |injection E as ? E; subst]); destruct a; discriminate E. }
  split; [constructor; intros [|[|i]]; intros; unfold fast_clock; lia|].
  split; [intros [|[|i]] x y Ni L; unfold fast_clock; lia|].
  split.
  { exists 5900, B. split; [find|]. split; [split; [eexists; reflexivity|intros p I; cbn in I; intuition discriminate]|].
    split; [vm_compute; reflexivity|lia]. }
  split; [intros [|[|i]] Ni Ne; [congruence|vm_compute; congruence|lia]|].
  split.
  { intros g ev [|[|i]] x I TO Ni Ne L1 L2; [congruence| |lia].
    assert (Gx : 5900 <= x).
    { repeat (destruct I as [I|I]; [first [discriminate I|injection I as <- <-]; first [lia|destruct TO as [_ TO]; discriminate TO]|]). destruct I. }
    assert (X : x < 7050 \/ 7050 <= x < 8150 \/ 8150 <= x) by lia.
    destruct X as [X|[X|X]]; [exists 7050, Q|exists 8150, R|exists 9250, S]; eexists; (split; [find|]);
      (split; [split; [reflexivity|left; reflexivity]|]); (split; [reflexivity|lia]). }
  split; [left; reflexivity|].
  split.
  { intros a i x ev b p E _ [Ca Fw] Tp.
    repeat (destruct a as [|? a]; [injection E as <- <- <- E; first [discriminate Ca|injection Ca as <-; cbn in Fw;
       first [exfalso; intuition discriminate|idtac]];
       let go z X := (eexists 0%nat, z, X, _; split; [discriminate|]; split; [find|]; split; [eexists; left; reflexivity|]; split; [split; reflexivity|lia]) in
       first [go 7000 D|go 8100 G|go 9200 II|go 10000 JJ]
       |injection E as ? E; subst]); destruct a; discriminate E. }
  split.
  { intros y ev I L. repeat (destruct I as [I|I]; [first [discriminate I|injection I as <- <-]; split; reflexivity|]). destruct I. }
  split; [split; reflexivity|].
  split.
  { intros i y ev q I N L C0. repeat (destruct I as [I|I]; [injection I as <- <- <-; discriminate C0|]). destruct I. }
  split.
  { eexists 10050, T, _. split; [find|]. split; [split; [reflexivity|left; reflexivity]|]. split; [left; reflexivity|lia]. }
  split; [exact H1|]. split; [exact H0|]. split; reflexivity.
Qed.
