(** How much a settled network says: C147 for all nodes together. *)
From Coq Require Import ZArith Lia List Bool.
From Coq Require Import ZifyBool.
From Verif Require Import CInt CIntFacts Packet SpecPacket PacketFacts NetMgr NetHist SpecNet NetFacts Rsm RsmStep RsmEval RsmHist SpecRsm RsmFacts RsmTime RoleFacts RsmRun EffectFacts PropNetTime PropNetwork PropOneMaster PropDrift PropApi PropOrder PropInStep Settled PropLossy PropTraffic.
Import ListNotations.
Open Scope Z_scope.
Ltac Zify.zify_post_hook ::= Z.div_mod_to_equations.

Lemma own_none ev : (forall q, ~ originated ev q) -> filter is_own (sent ev) = [].
Proof.
  unfold originated. intros No. induction (sent ev) as [|x l IH]; [reflexivity|]. cbn. destruct x as [p|s p]; cbn.
  - apply IH. intros q (s & I). apply (No q). exists s. right. exact I.
  - exfalso. apply (No p). exists s. left. reflexivity.
Qed.

Lemma originals_of m (win : timed) :
  (forall i x ev, In (i, (x, ev)) win -> i <> m -> forall q, ~ originated ev q) ->
  originals (map (fun x => snd (snd x)) win) = originals (calls_at m (untimed win)).
Proof.
  induction win as [|[i [x ev]] win IH]; intros No; [reflexivity|].
  rewrite untimed_cons. change ((i, ev) :: untimed win) with ([(i, ev)] ++ untimed win). rewrite calls_at_app.
  change (map (fun x => snd (snd x)) ((i, (x, ev)) :: win)) with ([ev] ++ map (fun x : nat * (Z * event) => snd (snd x)) win).
  rewrite !originals_app, IH by (intros j y v I; apply (No j y v); right; exact I).
  destruct (PeanoNat.Nat.eq_dec i m) as [->|Ne].
  - rewrite calls_at_one. reflexivity.
  - rewrite (calls_at_other i m ev) by auto. unfold originals at 1. cbn [map concat]. rewrite app_nil_r.
    rewrite own_none by (apply (No i x ev); [left; reflexivity|exact Ne]). reflexivity.
Qed.

(** In a settled network in which nobody sets an effect, all nodes together send, in any
    [T] ms by the clock of the master, at most T/1001 + T/2001 + T/60001 + 4 packets of their own;
    everything else on the air is relayed. *)
Theorem C147_settled_network w clk N m m0 rest g stop D Gap pre win post a T :
  let tr := (m, (g, m0)) :: rest in
  in_earshot w clk N m tr g stop D Gap -> patient clk N Gap -> own_heartbeat m0 ->
  (forall i n, (i < N)%nat -> i <> m -> hist (n_env w i) (n_start w i) (n_past w i) n -> GetCurrentState n = Slave) ->
  (forall i x ev, In (i, (x, ev)) tr -> i <> m -> x <= g + Gap -> ~ took_over ev) ->
  news_prompt tr (g - 1) D ->
  all_before (wrap - 60000) (n_start w m) (n_past w m ++ calls_at m (untimed tr)) ->
  (forall i x ev q, In (i, (x, ev)) tr -> call ev <> OSetEffect q) ->
  tr = pre ++ win ++ post -> 0 <= T ->
  (forall x ev, In (m, (x, ev)) win -> a <= at_ ev <= a + T) ->
  originals (map (fun x => snd (snd x)) win) <= T / 1001 + T / 2001 + T / 60001 + 4.
Proof.
  intros tr IR SY TO Sl NoR NP Wr NoSet E T0 W.
  pose proof (earshot_aired _ _ _ _ _ _ _ _ _ IR) as AI.
  pose proof (earshot_quiet _ _ _ _ _ _ _ _ _ IR SY NoR) as NoT.
  assert (Sub : forall x, In x win -> In x tr) by (intros x I; rewrite E; apply in_or_app; right; apply in_or_app; left; exact I).
  rewrite (originals_of m win).
  2:{ intros i x ev I Ne q O. apply Sub in I. pose proof I as I0. apply in_split in I as (b1 & b2 & E1).
      destruct (es_hist w clk N m m0 rest g stop D AI _ _ _ _ _ E1) as (n & H & _).
      pose proof (es_slave w clk N m m0 rest g stop D AI TO Sl NoT i x ev I0 Ne) as Rb.
      pose proof (es_roles w clk N m m0 rest g stop D AI TO Sl NoT i x ev I0) as Ra.
      destruct (PeanoNat.Nat.eqb_spec i m); [contradiction|].
      destruct (slave_origin _ _ _ _ q (ex_intro _ _ H) Rb Ra O) as (q' & Cq & _). exact (NoSet i x ev q' I0 Cq). }
  pose proof (es_run _ _ _ _ _ _ _ _ _ IR m) as [Hm _].
  rewrite E, !untimed_app, !calls_at_app, !app_assoc in Hm, Wr.
  destruct Hm as [n Hm]. apply hist_prefix in Hm as (n1 & Hm). apply all_before_app in Wr.
  pose proof (C147_originals_bounded _ _ _ _ a T (ex_intro _ _ Hm) Wr) as X.
  assert (Q : forall ev, In ev (calls_at m (untimed win)) -> news ev = false /\ told ev = false /\ a <= at_ ev <= a + T).
  { intros ev I. apply in_calls in I as (x & I). pose proof (W x ev I) as Wx. apply Sub in I.
    assert (Td : told ev = false).
    { unfold told. destruct (call ev) eqn:C; try reflexivity. exfalso. exact (NoSet m x ev _ I C). }
    split; [|split; [exact Td|exact Wx]].
    destruct (news ev) eqn:Nw; [exfalso|reflexivity]. unfold news in Nw. apply andb_prop in Nw as [N1 N2].
    destruct (call ev) as [[p|]|p|v|v] eqn:C; try discriminate N2.
    pose proof I as I0. apply in_split in I as (b1 & b2 & E1).
    destruct (es_hist w clk N m m0 rest g stop D AI _ _ _ _ _ E1) as (n2 & H2 & _).
    apply hist_last in H2 as (_ & _ & _ & Op & _ & _ & St).
    assert (Ac : accepted ev p).
    { split; [exact C|]. clear - N1 St C. destruct ev as [t o b af out]; cbn in *. subst o. inversion St as [inc out' n' Tk| | |]; subst.
      remember (Some p) as ip eqn:Ep.
      destruct Tk; cbn in N1; try discriminate N1;
      match goal with X : heard _ _ = Some _ |- _ => apply heard_some in X; rewrite X in Ep; inversion Ep; subst end; left; reflexivity. }
    rewrite C in Op. cbn in Op.
    assert (Kind : life_sign p \/ about_effects p).
    { unfold life_sign, about_effects. destruct Op as [? ?]. lia. }
    assert (SB : sent_before b1 m x p D).
    { destruct Kind as [K|K]; [exact (ai_prompt _ _ _ _ _ _ AI _ _ _ _ _ p E1 Ac K)|].
      apply (NP b1 m x ev b2 p E1); [|exact Ac|exact K].
      assert (g <= x); [|lia]. destruct b1 as [|z b1]; [inversion E1; lia|]. inversion E1; subst.
      apply (ai_ordered _ _ _ _ _ _ AI [] m g m0 b1 m x ev b2). reflexivity. }
    destruct (es_origin w clk N m m0 rest g stop D AI TO Sl NoT _ _ _ _ _ p E1 SB) as (k & y & c & q & Nk & Iy & _ & _ & _ & [Km|(r & Cr & _)]); [congruence|].
    apply (NoSet k y c r); [|exact Cr]. rewrite E1. apply in_or_app; left; exact Iy. }
  assert (Z1 : forall f, (forall ev, In ev (calls_at m (untimed win)) -> f ev = false) -> count f (calls_at m (untimed win)) = 0).
  { intros f F. unfold count. destruct (filter f (calls_at m (untimed win))) as [|z l] eqn:Ef; [reflexivity|exfalso].
    assert (I : In z (filter f (calls_at m (untimed win)))) by (rewrite Ef; left; reflexivity).
    apply filter_In in I as [I1 I2]. rewrite (F z I1) in I2. discriminate. }
  rewrite (Z1 news), (Z1 told) in X by (intros ev I; apply (Q ev I)).
  specialize (X ltac:(intros ev I; apply (Q ev I)) T0). lia.
Qed.
Print Assumptions C147_settled_network.

(** The run of the example of C141: in its 4290 ms the two nodes together send six packets
    of their own, the bound being 4 + 2 + 0 + 4. *)
Example C147_example_network : exists w m0 rest,
  let tr := (0%nat, (7000, m0)) :: rest in
  in_earshot w fast_clock 2 0 tr 7000 11300 100 2300 /\ news_prompt tr (7000 - 1) 100 /\ patient fast_clock 2 2300 /\ own_heartbeat m0 /\
  (forall i n, (i < 2)%nat -> i <> 0%nat -> hist (n_env w i) (n_start w i) (n_past w i) n -> GetCurrentState n = Slave) /\
  (forall i x ev, In (i, (x, ev)) tr -> i <> 0%nat -> x <= 7000 + 2300 -> ~ took_over ev) /\
  all_before (wrap - 60000) (n_start w 0%nat) (n_past w 0%nat ++ calls_at 0 (untimed tr)) /\
  (forall i x ev q, In (i, (x, ev)) tr -> call ev <> OSetEffect q) /\
  (forall x ev, In (0%nat, (x, ev)) tr -> 7000 <= at_ ev <= 7000 + 4290) /\
  originals (map (fun x => snd (snd x)) tr) = 6.
Proof.
  run_as H0 (env0 Arduino) 0 [(7, OTick (Some (effect_pkt 50 9 3 2))); (7000, OTick None); (7060, OTick (Some (heartbeat_pkt 24 7000)));
    (7900, OTick None); (8100, OTick None); (9050, OTick None); (9200, OTick None); (10100, OTick None); (10300, OTick None);
    (11100, OTick None); (11290, OTick None)].
  run_as H1 (env_const Arduino 0%N) 0 [(4000, OTick (Some (heartbeat_pkt 77 3500)));
    (7620, OTick (Some (heartbeat_pkt 24 7000))); (8731, OTick (Some (heartbeat_pkt 41 8100)));
    (10953, OTick (Some (heartbeat_pkt 92 10300))); (11761, OTick (Some (effect_pkt 109 9 3 2)))].
  run_as H2 (env0 Arduino) 0 (@nil (Z * op)).
  match type of H0 with hist _ _ [?z; ?a; ?b; ?c; ?d; ?f; ?g; ?h; ?i; ?j; ?k] ?nm =>
  match type of H1 with hist _ _ [?p; ?q; ?r; ?u; ?v] ?n =>
    set (Z0 := z) in *; set (A := a) in *; set (B := b) in *; set (C := c) in *; set (D := d) in *; set (F := f) in *; set (G := g) in *;
    set (HH := h) in *; set (II := i) in *; set (JJ := j) in *; set (KK := k) in *;
    set (PP := p) in *; set (Q := q) in *; set (R := r) in *; set (U := u) in *; set (V := v) in *;
    exists (mkNetwork (fun w0 => match w0 with 1%nat => env_const Arduino 0%N | _ => env0 Arduino end) (fun _ => 0)
      (fun _ => 0) (fun w0 => match w0 with 0%nat => [Z0] | 1%nat => [PP] | _ => [] end)),
      A, [(1%nat, (7050, Q)); (0%nat, (7060, B)); (0%nat, (7900, C)); (0%nat, (8100, D)); (1%nat, (8150, R)); (0%nat, (9050, F)); 
          (0%nat, (9200, G)); (0%nat, (10100, HH)); (0%nat, (10300, II)); (1%nat, (10350, U)); (0%nat, (11100, JJ));
          (1%nat, (11150, V)); (0%nat, (11290, KK))]
  end end.
  cbv zeta.
  split; [constructor|].
  { intros [|[|i]].
    - split; [eexists; exact H0|]. intros x p I K. repeat (destruct I as [<-|I]; [discriminate K|]). destruct I.
    - split; [eexists; exact H1|]. intros x p I K. repeat (destruct I as [<-|I]; [discriminate K|]). destruct I.
    - split; [eexists; exact H2|]. intros x p []. }
  { intros a i x u b j y v c E.
    repeat (destruct a as [|? a]; [injection E as <- <- <- E;
       repeat (destruct b as [|? b]; [injection E as <- <- <- E; lia|injection E as _ E]);
       try (destruct b; discriminate E)|injection E as _ E]); destruct a; discriminate E. }
  { intros i x ev I. repeat (destruct I as [I|I]; [injection I as <- <- <-; split; [lia|split; [reflexivity|lia]]|]). destruct I. }
  { intros [|[|i]] L; [| |lia]; (split; [reflexivity|]); intros x I; repeat (destruct I as [<-|I]; [reflexivity|]); destruct I. }
  { intros [|[|i]] x Ni Nm L L2; [congruence| |lia].
    assert (X : x < 7050 \/ 7050 <= x < 8150 \/ 8150 <= x) by lia.
    destruct X as [X|[X|X]]; [exists 7050, Q|exists 8150, R|exists 10350, U]; eexists; (split; [cbn [In]; auto 30|]);
      (split; [split; [reflexivity|left; reflexivity]|]); (split; [reflexivity|lia]). }
  { intros a i x ev b p E [Ca Fw] Tp. exists 0%nat.
    repeat (destruct a as [|? a]; [injection E as <- <- <- E; first [discriminate Ca|injection Ca as <-; cbn in Fw;
       first [exfalso; intuition discriminate|idtac]];
       first [eexists 7000, A, _; split; [discriminate|]; split; [cbn [In]; auto 30|]; split; [eexists; left; reflexivity|]; split; [split; reflexivity|lia]
             |eexists 8100, D, _; split; [discriminate|]; split; [cbn [In]; auto 30|]; split; [eexists; left; reflexivity|]; split; [split; reflexivity|lia]
             |eexists 9050, F, _; split; [discriminate|]; split; [cbn [In]; auto 30|]; split; [eexists; left; reflexivity|]; split; [split; reflexivity|lia]
             |eexists 9200, G, _; split; [discriminate|]; split; [cbn [In]; auto 30|]; split; [eexists; left; reflexivity|]; split; [split; reflexivity|lia]
             |eexists 10300, II, _; split; [discriminate|]; split; [cbn [In]; auto 30|]; split; [eexists; left; reflexivity|]; split; [split; reflexivity|lia]
             |eexists 11100, JJ, _; split; [discriminate|]; split; [cbn [In]; auto 30|]; split; [eexists; left; reflexivity|]; split; [split; reflexivity|lia]]
       |injection E as ? E; subst]); destruct a; discriminate E. }
  split.
  { intros a i x ev b p E _ [Ca Fw] Tp. exists 0%nat.
    repeat (destruct a as [|? a]; [injection E as <- <- <- E; first [discriminate Ca|injection Ca as <-; cbn in Fw;
       first [exfalso; intuition discriminate|idtac]];
       first [eexists 7000, A, _; split; [discriminate|]; split; [cbn [In]; auto 30|]; split; [eexists; left; reflexivity|]; split; [split; reflexivity|lia]
             |eexists 8100, D, _; split; [discriminate|]; split; [cbn [In]; auto 30|]; split; [eexists; left; reflexivity|]; split; [split; reflexivity|lia]
             |eexists 9050, F, _; split; [discriminate|]; split; [cbn [In]; auto 30|]; split; [eexists; left; reflexivity|]; split; [split; reflexivity|lia]
             |eexists 9200, G, _; split; [discriminate|]; split; [cbn [In]; auto 30|]; split; [eexists; left; reflexivity|]; split; [split; reflexivity|lia]
             |eexists 10300, II, _; split; [discriminate|]; split; [cbn [In]; auto 30|]; split; [eexists; left; reflexivity|]; split; [split; reflexivity|lia]
             |eexists 11100, JJ, _; split; [discriminate|]; split; [cbn [In]; auto 30|]; split; [eexists; left; reflexivity|]; split; [split; reflexivity|lia]]
       |injection E as ? E; subst]); destruct a; discriminate E. }
  split.
  { constructor; intros [|[|i]]; intros; unfold fast_clock; lia. }
  split; [eexists; split; [eexists; left; reflexivity|reflexivity]|].
  split.
  { intros [|[|i]] n L N H; [congruence| |lia]. cbn [n_env n_start n_past] in H.
    change [PP] with ([] ++ [PP]) in H. apply hist_last in H as (_ & -> & _). reflexivity. }
  split.
  { intros i x ev I N L [TR1 TR2]. repeat (destruct I as [I|I]; [injection I as <- <- <-; first [congruence|discriminate TR2|lia]|]). destruct I. }
  split.
  { split; [reflexivity|]. intros x I; repeat (destruct I as [<-|I]; [reflexivity|]); destruct I. }
  split.
  { intros i x ev q I C0. repeat (destruct I as [I|I]; [injection I as <- <- <-; discriminate C0|]). destruct I. }
  split.
  { intros x ev I. repeat (destruct I as [I|I]; [first [discriminate I|injection I as <- <-; split; discriminate]|]). destruct I. }
  reflexivity.
Qed.
