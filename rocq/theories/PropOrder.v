(** An order is obeyed everywhere for its hold time: C96. *)
From Coq Require Import ZArith Lia List Bool.
From Coq Require Import ZifyBool.
From Verif Require Import CInt CIntFacts Packet SpecPacket PacketFacts NetMgr NetHist SpecNet NetFacts Rsm RsmStep RsmEval RsmHist SpecRsm RsmFacts RsmTime RoleFacts RsmRun EffectFacts PropRole PropHeartbeat PropEffect PropHold PropApi PropPair PropNetTime PropNetwork PropOneMaster PropCatchUp PropInStep.
Import ListNotations.
Open Scope Z_scope.
Ltac Zify.zify_post_hook ::= Z.div_mod_to_equations.

Lemma says_hold q K : says q K -> ptype K = 2 -> wf_packet q -> wf_packet K -> ptype q = 2 /\ nth 1 (pdata q) 0 = nth 1 (pdata K) 0.
Proof.
  intros [A B] T Wq WK. split; [congruence|]. rewrite T in B. change (2 =? 2) with true in B. cbv iota in B.
  unfold payload in B. destruct Wq as (_ & _ & _ & Lq & _), WK as (_ & _ & _ & LK & _).
  destruct (pdata q) as [|a0 [|a1 d]], (pdata K) as [|b0 [|b1 d']]; cbn in *; try discriminate; inversion B; reflexivity.
Qed.

Lemma api_timer e ev p : stepR e (u32 (at_ ev)) (before ev) (call ev) (sent ev) (after ev) ->
  call ev = OSetEffect p -> ptype p = 2 -> wf_packet p -> nth 1 (pdata p) 0 <> 0 ->
  t_ce (after ev) = u32 (u32 (at_ ev) + 1000 * nth 1 (pdata p) 0).
Proof.
  intros S C P W NZ. destruct ev as [t o m m' out]; proj.
  destruct S as [inc out m' T|q R|v|v]; try discriminate. inversion C; subst q.
  unfold api_after, api_delay, byte_at; proj.
  destruct (Z.eqb_spec (nth 1 (pdata p) 0) 0); [contradiction|]. f_equal; f_equal; lia.
Qed.

(** What a master shows and when it will change, while it is told nothing but K. *)
Definition holds (K : packet) (due : Z) (n : node) : Prop :=
  says (GetSetEffect n) K /\ if nth 1 (pdata K) 0 =? 0 then t_ce n = 0 else due <= t_ce n < wrap.

Lemma holds_step e ev K due t0 : wf_packet K -> ptype K = 2 ->
  stepR e (u32 (at_ ev)) (before ev) (call ev) (sent ev) (after ev) -> good (before ev) -> op_ok (call ev) ->
  0 <= t0 <= at_ ev -> at_ ev + 255000 < wrap -> role_before ev = Master -> role_after ev = Master ->
  due <= at_ ev + 1000 * nth 1 (pdata K) 0 ->
  holds K due (before ev) \/ (exists q, accepted ev q /\ says q K) \/
    (exists q, call ev = OSetEffect q /\ says q K /\ nth 1 (pdata K) 0 <> 0) ->
  (nth 1 (pdata K) 0 <> 0 -> at_ ev <= due) ->
  (forall q, accepted ev q -> about_effects q -> says q K) ->
  (forall q, call ev = OSetEffect q -> says q K /\ nth 1 (pdata K) 0 <> 0) ->
  holds K due (after ev).
Proof.
  intros WK TK S G Oo T0 W Rb Ra Ld Hb Lt Q1 Q2. pose proof S as S0.
  pose proof (wf_byte K 1 WK) as BK. unfold byte_at, is_byte in BK. set (h := nth 1 (pdata K) 0) in *.
  assert (U : u32 (at_ ev) = at_ ev) by (apply u32_id; unfold wrap in *; lia).
  (* an accepted effect packet *)
  assert (Acc : forall q, accepted ev q -> says q K -> holds K due (after ev)).
  { intros q Ac Sq.
    assert (Wq : wf_packet q) by (destruct Ac as [C _]; rewrite C in Oo; exact Oo).
    destruct (says_hold q K Sq TK Wq WK) as [Tq Hq]. fold h in Hq.
    destruct (master_packet_timer e ev q S Rb Ac (or_introl Tq)) as [Et _].
    split.
    - destruct (shown_step _ _ S0 G) as [E|[(p & Ap & _ & E)|[(p & I & E)|(p & C & E)]]].
      + destruct Ac as [C I]. pose proof (proj1 (step_accepted _ _ _ S0) (conj C I)) as (inc & Ci & Hh).
        assert (H2 : GetSetEffect (after ev) = q).
        { pose proof (tick_step _ _ _ Ci S0) as T. destruct ev as [t o n n' out]; proj. unfold GetSetEffect.
          destruct T; proj; try congruence;
          match goal with X : heard _ _ = Some ?p', Y : heard _ _ = Some q |- _ => assert (p' = q) by congruence; subst p' end;
          try reflexivity; types; try congruence; lia. }
        rewrite H2. exact Sq.
      + destruct Ac as [C _], Ap as [C' _]. assert (Epq : p = q) by congruence. rewrite E, Epq. exact Sq.
      + exfalso. destruct Ac as [C I'].
        destruct ev as [t o n n' out]; proj. subst o. inversion S0; subst.
        match goal with X : tick _ _ _ _ _ _ |- _ => destruct X; own_in I; own_in I' end.
      + destruct Ac as [C' _]. congruence.
    - rewrite Et. unfold hold_seconds. rewrite Tq. change (2 =? 2) with true. cbv iota. rewrite Hq. fold h. unfold timer_of.
      destruct (Z.eqb_spec h 0) as [Z0|NZ].
      + rewrite Z0. reflexivity.
      + destruct (Z.eqb_spec (h * 1000) 0); [lia|]. rewrite U. rewrite u32_id by (unfold wrap in *; lia). lia. }
  assert (Api : forall q, call ev = OSetEffect q -> says q K -> h <> 0 -> holds K due (after ev)).
  { intros q C Sq NZ.
    assert (Wq : wf_packet q) by (rewrite C in Oo; exact Oo).
    destruct (says_hold q K Sq TK Wq WK) as [Tq Hq]. fold h in Hq.
    split.
    - destruct (shown_step _ _ S0 G) as [E|[(p & [C' _] & _ & E)|[(p & I & E)|(p & C' & E)]]]; try congruence.
      + destruct ev as [t o n n' out]; proj. subst o. inversion S0; subst. unfold GetSetEffect in *. unfold api_after in *; proj.
        eapply says_trans; [|exact Sq]. apply says_content. repeat split.
      + exfalso. destruct ev as [t o n n' out]; proj. subst o. inversion S0; subst. own_in I.
      + assert (p = q) by congruence. subst. eapply says_trans; [apply says_content; exact E|exact Sq].
    - fold h. destruct (Z.eqb_spec h 0); [contradiction|].
      rewrite (api_timer e ev q S C Tq Wq) by congruence. rewrite Hq, U. rewrite u32_id by (unfold wrap in *; lia). lia. }
  destruct Hb as [Hb|[(q & Ac & Sq)|(q & C & Sq & NZ)]]; [|eauto|eauto].
  destruct (accepts_dec _ _ S) as [(q & Ac)|No].
  - destruct (Z.eq_dec (ptype q) 2) as [T2|N2]; [apply (Acc q Ac), (Q1 q Ac); left; exact T2|].
    destruct (Z.eq_dec (ptype q) 3) as [T3|N3].
    { exfalso. destruct (Q1 q Ac (or_intror T3)) as [X _]. congruence. }
    destruct (shown_step _ _ S0 G) as [E|[(p & Ap & Bp & E)|[(p & I & E)|(p & C & E)]]].
    + destruct Hb as [Hb1 Hb2]. split; [eapply says_trans; [apply says_content; exact E|exact Hb1]|].
      rewrite (ce_step _ _ S); [exact Hb2| |].
      * split; [exact Rb|]. split; [exact Ra|]. split.
        -- intros p Ap. destruct Ac as [C _], Ap as [C' _]. assert (p = q) by congruence. subst. auto.
        -- intros p C. destruct Ac as [C' _]. congruence.
      * intros (p & I). destruct Ac as [C I']. destruct ev as [t o n n' out]; proj. subst o. inversion S0; subst.
        match goal with X : tick _ _ _ _ _ _ |- _ => destruct X; own_in I; own_in I' end.
    + exfalso. destruct Ac as [C _], Ap as [C' _]. assert (p = q) by congruence. subst. unfold about_effects in Bp. lia.
    + exfalso. destruct Ac as [C I']. destruct ev as [t o n n' out]; proj. subst o. inversion S0; subst.
      match goal with X : tick _ _ _ _ _ _ |- _ => destruct X; own_in I; own_in I' end.
    + destruct Ac as [C' _]. congruence.
  - assert (NS : (exists q, call ev = OSetEffect q) \/ forall q, call ev <> OSetEffect q)
      by (clear; destruct (call ev); [right; discriminate|left; eauto|right; discriminate..]).
    destruct NS as [(q & C)|NS]; [destruct (Q2 q C); eauto|].
    assert (NC : ~ own_change ev).
    { intros OC. destruct (own_change_iff e ev S) as [A1 _]. apply A1 in OC. destruct Hb as [_ Hb2]. fold h in Hb2.
      destruct (Z.eqb_spec h 0) as [Z0|NZ]; [rewrite Hb2 in OC; unfold timer_due in OC; cbn in OC; discriminate OC|].
      specialize (Lt NZ). apply timer_due_iff in OC; lia. }
    destruct (shown_step _ _ S0 G) as [E|[(p & Ap & Bp & E)|[(p & I & E)|(p & C' & E)]]].
    + destruct Hb as [Hb1 Hb2]. split; [eapply says_trans; [apply says_content; exact E|exact Hb1]|].
      rewrite (ce_step _ _ S); [exact Hb2| |exact NC].
      split; [exact Rb|]. split; [exact Ra|]. split; [intros p Ap; exfalso; apply (No p Ap)|exact NS].
    + exfalso; apply (No p Ap).
    + exfalso; apply NC; exists p; exact I.
    + exfalso; apply (NS p C').
Qed.

(** ** C96: an order is obeyed everywhere for its hold time *)

(** In a network with a settled master m (as in C95), somebody orders effect K
    (at node j, global time x0), and nobody orders anything else from D ms before
    that on.  The order reaches m within D ms, if j is not m.  Then 2000 + 2 P +
    3 D ms after x0, and as long as the hold time lasts, every node shows K, and the
    clocks are in step.  A hold time of zero lasts for ever, if the order is not
    given at m itself. *)
Theorem C96_order_obeyed w N m m0 rest g stop P D j ev0 x0 K :
  let tr := (m, m0) :: rest in
  in_touch w N m tr g stop P D -> g = global w m m0 -> own_heartbeat m0 ->
  (forall i n, (i < N)%nat -> i <> m -> hist (n_env w i) (n_start w i) (n_past w i) n -> GetCurrentState n = Slave) ->
  0 <= P <= 1000 -> 0 <= D -> 1000 + P + D <= 5000 ->
  (forall i ev, In (i, ev) tr -> i <> m -> global w i ev <= g + D -> ~ took_over ev) ->
  In (j, ev0) tr -> call ev0 = OSetEffect K -> ptype K = 2 -> x0 = global w j ev0 ->
  (j = m \/ exists c q, In (m, c) tr /\ accepted c q /\ says q K /\ x0 <= global w m c <= x0 + D) ->
  (forall i ev q, In (i, ev) tr -> x0 - D <= global w i ev -> call ev = OSetEffect q -> says q K) ->
  (forall ev, In (m, ev) tr -> at_ ev + 255000 < wrap) ->
  (0 < nth 1 (pdata K) 0 /\ stop <= x0 + 1000 * nth 1 (pdata K) 0 \/
   nth 1 (pdata K) 0 = 0 /\ j <> m /\ (forall ev q, In (m, ev) tr -> x0 <= global w m ev -> call ev <> OSetEffect q)) ->
  x0 + 2000 + 2 * P + 3 * D < stop ->
  forall i n nm, (i < N)%nat -> i <> m ->
    hist (n_env w i) (n_start w i) (n_past w i ++ calls_at i tr) n ->
    hist (n_env w m) (n_start w m) (n_past w m ++ calls_at m tr) nm ->
    says (GetSetEffect nm) K /\ says (GetSetEffect n) K /\
    exists L, 0 <= L <= D /\
      forall T, GetNetworkMillis (u32 (T + n_off w i)) n = u32 (GetNetworkMillis (u32 (T + n_off w m)) nm - L).
Proof.
  intros tr IT Eg TO Sl P0 D0 PD NoR I0 C0 TK Ex Arr NoO Wr Hold Ux.
  assert (P1 : 0 <= P) by lia.
  pose proof (it_run _ _ _ _ _ _ _ _ IT) as R. fold tr in R.
  assert (Hist0 : forall k ev, In (k, ev) tr -> exists a b n, tr = a ++ (k, ev) :: b /\
    hist (n_env w k) (n_start w k) ((n_past w k ++ calls_at k a) ++ [ev]) n).
  { intros k ev I. apply in_split in I as (a & b & E). pose proof R as R1. rewrite E in R1.
    destruct (run_split _ _ _ _ _ R1) as (n & H & _). eauto. }
  assert (WK : wf_packet K).
  { destruct (Hist0 _ _ I0) as (a & b & n & _ & H). apply hist_last in H as (_ & _ & _ & O & _). rewrite C0 in O. exact O. }
  pose proof (wf_byte K 1 WK) as BK. unfold byte_at, is_byte in BK.
  assert (Gx0 : g <= x0).
  { unfold tr in I0. destruct I0 as [I0|I0]; [inversion I0; subst; lia|].
    apply in_split in I0 as (a & b & E). pose proof (it_ordered _ _ _ _ _ _ _ _ IT [] m m0 a j ev0 b) as Q.
    rewrite Eg, Ex. apply Q. unfold tr. rewrite E. reflexivity. }
  (* the call with which m adopts K *)
  assert (Ad : exists c, In (m, c) tr /\ x0 <= global w m c <= x0 + D /\
            ((exists q, accepted c q /\ says q K) \/ (exists q, call c = OSetEffect q /\ says q K /\ nth 1 (pdata K) 0 <> 0))).
  { destruct Arr as [->|(c & q & Ic & Ac & Sq & Lc)]; [|exists c; eauto 10].
    exists ev0. split; [exact I0|]. split; [lia|]. right. exists K. split; [exact C0|]. split; [apply says_refl|].
    destruct Hold as [[Hh _]|(_ & Hh & _)]; [lia|congruence]. }
  destruct Ad as (c & Ic & Lc & Hc).
  assert (Inm : forall a y b, tr = a ++ (m, y) :: b -> a <> [] -> x0 <= global w m y ->
    role_before y = Master /\ role_after y = Master /\
    (forall q, accepted y q -> about_effects q -> says q K) /\
    (forall q, call y = OSetEffect q -> says q K /\ nth 1 (pdata K) 0 <> 0)).
  { intros a y b E Na Ly. assert (Iy : In (m, y) tr) by (rewrite E; apply in_or_app; right; left; reflexivity).
    pose proof (st_before w N m m0 rest g stop P D IT Eg TO Sl P1 D0 PD NoR a m y b E Na) as Rb.
    pose proof (st_roles w N m m0 rest g stop P D IT Eg TO Sl P1 D0 PD NoR m y Iy) as Ra.
    rewrite PeanoNat.Nat.eqb_refl in Rb, Ra. split; [exact Rb|]. split; [exact Ra|]. split.
    - intros q Ac Aq.
      destruct (st_origin w N m m0 rest g stop P D IT Eg TO Sl P1 D0 PD NoR a m y b q E Ac (or_intror Aq))
        as (k & z & q' & Nk & Iz & Oz & Sq & Lz & [Qk|(r & Cr & Sr & _)]); [contradiction|].
      eapply says_trans; [exact Sq|]. eapply says_trans; [apply says_content; exact Sr|].
      apply (NoO k z r); [rewrite E; apply in_or_app; left; exact Iz|lia|exact Cr].
    - intros q Cq. split; [apply (NoO m y q Iy); [lia|exact Cq]|].
      destruct Hold as [[Hh _]|(_ & _ & Hh)]; [lia|]. exfalso. apply (Hh y q Iy Ly Cq). }
  assert (Free : packet_free m0).
  { destruct (run_split w [] m m0 rest R) as (n & H & Ap). exact (proj2 (heartbeat_call _ _ _ _ (ex_intro _ _ H) Ap TO)). }
  (* from then on *)
  destruct (Hist0 m c Ic) as (a & b & nc & Etr & Hc0).
  set (due := at_ c + 1000 * nth 1 (pdata K) 0).
  assert (Nc : c <> m0).
  { intros ->. destruct Free as [[inc F1] F2].
    destruct Hc as [(q & Ac & Sq)|(q & Cq & _)]; [exact (F2 q (proj2 Ac))|congruence]. }
  assert (Na : a <> []) by (intros ->; unfold tr in Etr; cbn in Etr; inversion Etr; congruence).
  assert (After : forall h2 h3 n2, b = h2 ++ h3 ->
    hist (n_env w m) (n_start w m) (n_past w m ++ calls_at m (a ++ (m, c) :: h2)) n2 -> holds K due n2).
  { induction h2 as [|[k y] h2 IH] using rev_ind; intros h3 n2 E2 H2.
    - replace (calls_at m (a ++ [(m, c)])) with (calls_at m a ++ [c]) in H2 by (rewrite calls_at_app, calls_at_one; reflexivity).
      rewrite app_assoc in H2. apply hist_last in H2 as (H2 & -> & G & O & L1 & L2 & S).
      destruct (Inm a c b Etr Na ltac:(lia)) as (Rb & Ra & Q1 & Q2).
      eapply (holds_step _ c K due (n_start w m)); eauto.
      + pose proof (hist_t0 _ _ _ _ H2). lia.
      + unfold due. lia.
      + intros. unfold due. lia.
    - rewrite <- app_assoc in E2. cbn [app] in E2.
      replace (a ++ (m, c) :: h2 ++ [(k, y)]) with ((a ++ (m, c) :: h2) ++ [(k, y)]) in H2 by (rewrite <- app_assoc; reflexivity).
      rewrite calls_at_app in H2.
      destruct (PeanoNat.Nat.eq_dec k m) as [->|Nk].
      + rewrite calls_at_one, app_assoc in H2. apply hist_last in H2 as (H2 & -> & G & O & L1 & L2 & S).
        assert (Iy : In (m, y) tr) by (rewrite Etr, E2; apply in_or_app; right; right; apply in_or_app; right; left; reflexivity).
        assert (Ly : global w m c <= global w m y).
        { apply (it_ordered _ _ _ _ _ _ _ _ IT a m c h2 m y h3). fold tr. rewrite Etr, E2. reflexivity. }
        destruct (Inm (a ++ (m, c) :: h2) y h3 ltac:(rewrite Etr, E2, <- app_assoc; reflexivity) ltac:(destruct a; discriminate) ltac:(lia)) as (Rb & Ra & Q1 & Q2).
        assert (Ty : global w m y <= stop) by (apply (it_times _ _ _ _ _ _ _ _ IT m y Iy)).
        eapply (holds_step _ y K due (n_start w m)); eauto.
        * pose proof (hist_t0 _ _ _ _ H2). lia.
        * unfold due. unfold global in Ly. lia.
        * intros. unfold due. destruct Hold as [[Hh Hs]|(Hh & _)]; [|lia]. unfold global in *. lia.
      + rewrite (calls_at_other k m y), app_nil_r in H2 by auto. eapply IH; eauto. }
  assert (Kx : forall y, In (m, y) tr -> x0 + D < global w m y -> says (GetSetEffect (after y)) K).
  { intros y Iy Ly. rewrite Etr in Iy. apply in_app_or in Iy as [Iy|[Iy|Iy]].
    - exfalso. apply in_split in Iy as (a1 & a2 & ->).
      pose proof (it_ordered _ _ _ _ _ _ _ _ IT a1 m y a2 m c b ltac:(fold tr; rewrite Etr, <- app_assoc; reflexivity)). lia.
    - exfalso. inversion Iy; subst. lia.
    - apply in_split in Iy as (h2 & h3 & Eb). apply (After (h2 ++ [(m, y)]) h3); [rewrite Eb, <- app_assoc; reflexivity|].
      replace (a ++ (m, c) :: h2 ++ [(m, y)]) with ((a ++ (m, c) :: h2) ++ [(m, y)]) by (rewrite <- app_assoc; reflexivity).
      rewrite calls_at_app, calls_at_one, app_assoc. pose proof R as R1.
      replace tr with ((a ++ (m, c) :: h2) ++ (m, y) :: h3) in R1 by (rewrite Etr, Eb, <- app_assoc; reflexivity).
      destruct (run_split _ _ _ _ _ R1) as (n & H & _). pose proof H as H'. apply hist_last in H' as (_ & -> & _). exact H. }
  apply (C95_everybody_in_step w N m m0 rest g stop P D (x0 + D) K IT Eg TO Sl P0 D0 PD NoR (or_introl TK)); try lia; [exact Kx|].
  intros i ev q I _ L C. apply (NoO i ev q I); [lia|exact C].
Qed.
Print Assumptions C96_order_obeyed.

Ltac find := repeat match goal with |- In ?x (?x :: _) => left; reflexivity | |- In _ (_ :: _) => right end.

(** Non-vacuous: three nodes with clocks 500 and 300 ms apart, P = 1000, D = 100.
    Effect 9 for 10 s is ordered at node 1, a slave, at time 7500.  The master hears
    of it 50 ms later, node 2 only through the master's repetition at 9050. *)
Example C96_example : exists w m0 rest ev0 n,
  let tr := (0%nat, m0) :: rest in
  let K := effect_pkt 0 9 10 2 in
  in_touch w 3 0 tr 7000 12000 1000 100 /\ 7000 = global w 0 m0 /\ own_heartbeat m0 /\
  (forall i n, (i < 3)%nat -> i <> 0%nat -> hist (n_env w i) (n_start w i) (n_past w i) n -> GetCurrentState n = Slave) /\
  (forall i ev, In (i, ev) tr -> i <> 0%nat -> global w i ev <= 7000 + 100 -> ~ took_over ev) /\
  In (1%nat, ev0) tr /\ call ev0 = OSetEffect K /\ ptype K = 2 /\ 7500 = global w 1 ev0 /\
  (exists c q, In (0%nat, c) tr /\ accepted c q /\ says q K /\ 7500 <= global w 0 c <= 7500 + 100) /\
  (forall i ev q, In (i, ev) tr -> 7500 - 100 <= global w i ev -> call ev = OSetEffect q -> says q K) /\
  (forall ev, In (0%nat, ev) tr -> at_ ev + 255000 < wrap) /\
  0 < nth 1 (pdata K) 0 /\ 12000 <= 7500 + 1000 * nth 1 (pdata K) 0 /\ 7500 + 2000 + 2 * 1000 + 3 * 100 < 12000 /\
  hist (n_env w 2%nat) (n_start w 2%nat) (n_past w 2%nat ++ calls_at 2 tr) n /\ GetEffectIndex n = 9.
Proof.
  run_as H0 (env0 Arduino) 0 [(7000, OTick None); (7550, OTick (Some (effect_pkt 2 9 10 2))); (7900, OTick None); (8100, OTick None);
    (9050, OTick None); (9200, OTick None); (10100, OTick None); (10300, OTick None); (11100, OTick None); (11390, OTick None); (11700, OTick None)].
  run_as H1 (env_const Arduino 0%N) 0 [(4000, OTick (Some (heartbeat_pkt 77 3500)));
    (7550, OTick (Some (heartbeat_pkt 24 7000))); (8000, OSetEffect (effect_pkt 0 9 10 2)); (8650, OTick (Some (heartbeat_pkt 41 8100)));
    (9600, OTick (Some (effect_pkt 58 9 10 2))); (9750, OTick (Some (heartbeat_pkt 75 9200)));
    (10850, OTick (Some (heartbeat_pkt 92 10300))); (11650, OTick (Some (effect_pkt 109 9 10 2))); (11940, OTick (Some (heartbeat_pkt 126 11390)))].
  run_as H2 (env_const Arduino 5%N) 0 [(4000, OTick (Some (heartbeat_pkt 77 3500)));
    (7360, OTick (Some (heartbeat_pkt 24 7000))); (8460, OTick (Some (heartbeat_pkt 41 8100)));
    (9410, OTick (Some (effect_pkt 58 9 10 2))); (9560, OTick (Some (heartbeat_pkt 75 9200)));
    (10660, OTick (Some (heartbeat_pkt 92 10300))); (11460, OTick (Some (effect_pkt 109 9 10 2))); (11750, OTick (Some (heartbeat_pkt 126 11390)))].
  run_as H3 (env0 Arduino) 0 (@nil (Z * op)).
  match type of H0 with hist _ _ [?a; ?b; ?c; ?d; ?f; ?g; ?h; ?i; ?j; ?k; ?l] _ =>
  match type of H1 with hist _ _ [?p; ?q; ?r; ?s; ?t; ?u; ?v; ?x; ?y] _ =>
  match type of H2 with hist _ _ [?p'; ?q'; ?s'; ?t'; ?u'; ?v'; ?x'; ?y'] ?n =>
    set (A := a) in *; set (B := b) in *; set (C := c) in *; set (D := d) in *; set (F := f) in *; set (G := g) in *;
    set (HH := h) in *; set (II := i) in *; set (JJ := j) in *; set (KK := k) in *; set (LL := l) in *;
    set (P1 := p) in *; set (Q1 := q) in *; set (R1 := r) in *; set (S1 := s) in *; set (T1 := t) in *; set (U1 := u) in *; set (V1 := v) in *; set (X1 := x) in *; set (Y1 := y) in *;
    set (P2 := p') in *; set (Q2 := q') in *; set (S2 := s') in *; set (T2 := t') in *; set (U2 := u') in *; set (V2 := v') in *; set (X2 := x') in *; set (Y2 := y') in *;
    exists (mkNetwork (fun w0 => match w0 with 1%nat => env_const Arduino 0%N | 2%nat => env_const Arduino 5%N | _ => env0 Arduino end) (fun _ => 0)
      (fun w0 => match w0 with 1%nat => 500 | 2%nat => 300 | _ => 0 end) (fun w0 => match w0 with 1%nat => [P1] | 2%nat => [P2] | _ => [] end)),
      A, [(1%nat, Q1); (2%nat, Q2); (1%nat, R1); (0%nat, B); (0%nat, C); (0%nat, D); (1%nat, S1); (2%nat, S2); (0%nat, F); (1%nat, T1); (2%nat, T2);
          (0%nat, G); (1%nat, U1); (2%nat, U2); (0%nat, HH); (0%nat, II); (1%nat, V1); (2%nat, V2); (0%nat, JJ); (1%nat, X1); (2%nat, X2);
          (0%nat, KK); (1%nat, Y1); (2%nat, Y2); (0%nat, LL)], R1, n
  end end end.
  cbv zeta.
  split; [constructor|].
  { intros [|[|[|i]]].
    - change (history (env0 Arduino) 0 [A; B; C; D; F; G; HH; II; JJ; KK; LL] /\ api_ok [A; B; C; D; F; G; HH; II; JJ; KK; LL]). split; [eexists; exact H0|]. intros x p I K. repeat (destruct I as [<-|I]; [discriminate K|]). destruct I.
    - change (history (env_const Arduino 0%N) 0 [P1; Q1; R1; S1; T1; U1; V1; X1; Y1] /\ api_ok [P1; Q1; R1; S1; T1; U1; V1; X1; Y1]). split; [eexists; exact H1|]. intros x p I K. repeat (destruct I as [<-|I]; [first [discriminate K|injection K as <-; left; reflexivity]|]). destruct I.
    - change (history (env_const Arduino 5%N) 0 [P2; Q2; S2; T2; U2; V2; X2; Y2] /\ api_ok [P2; Q2; S2; T2; U2; V2; X2; Y2]). split; [eexists; exact H2|]. intros x p I K. repeat (destruct I as [<-|I]; [discriminate K|]). destruct I.
    - split; [eexists; exact H3|]. intros x p []. }
  { intros a i u b j v c E.
    repeat (destruct a as [|? a]; [injection E as <- <- E;
       repeat (destruct b as [|? b]; [injection E as <- <- E; vm_compute; congruence|injection E as _ E]);
       try (destruct b; discriminate E)|injection E as _ E]); destruct a; discriminate E. }
  { intros i ev I. repeat (destruct I as [I|I]; [injection I as <- <-; split; [lia|vm_compute; congruence]|]). destruct I. }
  { intros [|[|[|i]]] ev I; [destruct I|destruct I as [<-|[]]; vm_compute; congruence|destruct I as [<-|[]]; vm_compute; congruence|destruct I]. }
  { intros [|[|[|i]]] L; [| | |lia];
    [change (all_before (wrap - 7000) 0 [A; B; C; D; F; G; HH; II; JJ; KK; LL])|change (all_before (wrap - 7000) 0 [P1; Q1; R1; S1; T1; U1; V1; X1; Y1])|change (all_before (wrap - 7000) 0 [P2; Q2; S2; T2; U2; V2; X2; Y2])];
    (split; [reflexivity|]); intros x I; repeat (destruct I as [<-|I]; [reflexivity|]); destruct I. }
  { intros x L L2.
    assert (X : x < 7900 \/ 7900 <= x < 8100 \/ 8100 <= x < 9050 \/ 9050 <= x < 9200 \/ 9200 <= x < 10100 \/ 10100 <= x < 10300 \/ 10300 <= x) by lia.
    destruct X as [X|[X|[X|[X|[X|[X|X]]]]]]; [exists C|exists D|exists F|exists G|exists HH|exists II|exists JJ]; (split; [find|]);
      (split; [split; [eexists; reflexivity|intros p I; cbn in I; intuition discriminate]|]); unfold global; cbn; lia. }
  { intros y p i I O Ty Ni Nm Ut. destruct i as [|[|[|i]]]; [congruence| | |lia];
    destruct O as (s & Ip);
    repeat (destruct I as [I|I]; [first [discriminate I|injection I as <-];
      cbn in Ip; first [exfalso; intuition discriminate|destruct Ip as [Ip|[]]; injection Ip as <- <-];
      let go X := (eexists X, _; split; [find|]; split; [split; [reflexivity|left; reflexivity]|]; split; [split; reflexivity|vm_compute; split; congruence]) in
      first [go Q1|go S1|go T1|go U1|go V1|go X1|go Y1|go Q2|go S2|go T2|go U2|go V2|go X2|go Y2]|]);
    destruct I. }
  { intros a i ev b p E [Ca Fw] Tp.
    repeat (destruct a as [|? a]; [injection E as <- <- E; first [discriminate Ca|injection Ca as <-; cbn in Fw;
       first [exfalso; intuition discriminate|idtac]];
       let go k X := (eexists k, X, _; split; [discriminate|]; split; [find|]; split; [eexists; left; reflexivity|]; split; [split; reflexivity|vm_compute; split; congruence]) in
       first [go 0%nat A|go 0%nat D|go 0%nat F|go 0%nat G|go 0%nat II|go 0%nat JJ|go 0%nat KK|go 1%nat R1]
       |injection E as ? E; subst]); destruct a; discriminate E. }
  split; [reflexivity|]. split; [eexists; split; [eexists; left; reflexivity|reflexivity]|].
  split.
  { intros [|[|[|i]]] n L N H; [congruence| | |lia]; cbn [n_env n_start n_past] in H.
    - change [P1] with ([] ++ [P1]) in H. apply hist_last in H as (_ & -> & _). reflexivity.
    - change [P2] with ([] ++ [P2]) in H. apply hist_last in H as (_ & -> & _). reflexivity. }
  split.
  { intros i ev I N L [TR1 TR2]. repeat (destruct I as [I|I]; [injection I as <- <-; first [congruence|discriminate TR2|vm_compute in L; congruence]|]). destruct I. }
  split; [find|]. split; [reflexivity|]. split; [reflexivity|]. split; [reflexivity|].
  split; [exists B; eexists; split; [find|]; split; [split; [reflexivity|left; reflexivity]|]; split; [split; reflexivity|vm_compute; split; congruence]|].
  split.
  { intros i ev q I N C0. repeat (destruct I as [I|I]; [injection I as <- <-; first [discriminate C0|injection C0 as <-; split; reflexivity]|]). destruct I. }
  split; [intros ev I; repeat (destruct I as [I|I]; [first [discriminate I|injection I as <-; reflexivity]|]); destruct I|].
  split; [reflexivity|]. split; [vm_compute; congruence|]. split; [lia|].
  split; [exact H2|reflexivity].
Qed.
