(** A network of any number of nodes keeps its master for ever: C92. *)
From Coq Require Import ZArith Lia List Bool.
From Coq Require Import ZifyBool.
From Verif Require Import CInt CIntFacts Packet SpecPacket PacketFacts NetMgr NetHist SpecNet NetFacts Rsm RsmStep RsmEval RsmHist SpecRsm RsmFacts RsmTime RoleFacts RsmRun EffectFacts PropRole PropHeartbeat PropPair PropNetTime PropNetwork.
Import ListNotations.
Open Scope Z_scope.
Ltac Zify.zify_post_hook ::= Z.div_mod_to_equations.

(** Heartbeats and claims. *)
Definition life_sign (p : packet) : Prop := ptype p = 0 \/ ptype p = 1.

(** The calls of a run are listed in the order in which they happen. *)
Definition ordered (w : network) (tr : run) : Prop :=
  forall a i u b j v c, tr = a ++ (i, u) :: b ++ (j, v) :: c -> global w i u <= global w j v.

(** Heartbeats and claims the radio delivers were transmitted earlier in the run
    by some node, with the same id. *)
Definition signs_genuine (tr : run) : Prop :=
  forall a i ev b p, tr = a ++ (i, ev) :: b -> call ev = OTick (Some p) -> life_sign p ->
    exists j ev' x, In (j, ev') a /\ In x (sent ev') /\
      ptype (rtx_packet x) = ptype p /\ pid (rtx_packet x) = pid p.

(** When an id node m transmitted comes back to it, it is still among the last
    five m transmitted. *)
Definition echoes_early (w : network) (m : nat) (tr : run) : Prop :=
  forall a ev b p, tr = a ++ (m, ev) :: b -> call ev = OTick (Some p) -> life_sign p ->
    In (pid p) (all_ids (calls_at m a)) -> In (pid p) (last5 (all_ids (n_past w m ++ calls_at m a))).

(** Node m has a packet-free radio tick in every interval of P ms of the run. *)
Definition free_ticks (w : network) (m : nat) (tr : run) (g stop P : Z) : Prop :=
  forall x, g <= x -> x + P < stop ->
    exists y, In (m, y) tr /\ packet_free y /\ x < global w m y <= x + P.

(** Each heartbeat node m originates makes each of the other nodes accept a
    heartbeat or claim (the original or a relay) within D ms. *)
Definition heartbeats_arrive (w : network) (N m : nat) (tr : run) (stop D : Z) : Prop :=
  forall y i, In (m, y) tr -> own_heartbeat y -> (i < N)%nat -> i <> m -> global w m y + D < stop ->
    exists c, In (i, c) tr /\ contact c /\ global w m y <= global w i c <= global w m y + D.

Lemma in_calls_at i ev tr : In ev (calls_at i tr) <-> In (i, ev) tr.
Proof.
  unfold calls_at. split; intros I.
  - apply in_map_iff in I as ([j x] & E & I). cbn in E. subst x.
    apply filter_In in I as [I E]. cbn in E. apply PeanoNat.Nat.eqb_eq in E. subst. exact I.
  - apply in_map_iff. exists (i, ev). split; [reflexivity|]. apply filter_In. split; [exact I|]. cbn. apply PeanoNat.Nat.eqb_refl.
Qed.

Lemma run_prefix w tr rest : is_run w (tr ++ rest) -> is_run w tr.
Proof.
  intros R i. destruct (R i) as [[n H] A]. rewrite calls_at_app, app_assoc in H, A. split.
  - apply hist_prefix in H. exact H.
  - intros x q I. apply A. apply in_or_app. left. exact I.
Qed.

Lemma ordered_before w tr i ev rest j y : ordered w (tr ++ (i, ev) :: rest) ->
  In (j, y) (tr ++ (i, ev) :: rest) -> global w j y < global w i ev -> In (j, y) tr.
Proof.
  intros O I L. apply in_app_or in I as [I|[I|I]]; [exact I| |].
  - inversion I; subst. lia.
  - apply in_split in I as (u & v & ->). specialize (O tr i ev u j y v eq_refl). lia.
Qed.

Lemma no_contact_keeps_master e t0 h ev : history e t0 (h ++ [ev]) -> role_before ev = Master ->
  (forall p, accepted ev p -> ~ life_sign p) -> role_after ev = Master.
Proof.
  intros H R Q. destruct (C23_role_changes _ _ _ _ H) as (_ & SD & _).
  destruct (role_after ev) eqn:E; [|reflexivity]. exfalso.
  destruct SD as (p & A & K); [split; assumption|]. apply (Q p A). unfold life_sign. tauto.
Qed.

Lemma run_takeover w tr i ev : is_run w tr -> In (i, ev) tr -> took_over ev -> own_heartbeat ev.
Proof.
  intros R I T. apply in_split in I as (a & b & ->). destruct (run_split _ _ _ _ _ R) as (n & H & _).
  apply hist_last in H as (_ & _ & _ & _ & _ & _ & S). exact (takeover_heartbeat _ _ S T).
Qed.

Lemma all_ids_in x ev h : In ev h -> In x (sent ev) -> In (pid (rtx_packet x)) (all_ids h).
Proof.
  intros I X. unfold all_ids. apply in_map_iff. exists x. split; [reflexivity|].
  apply in_concat. exists (sent ev). split; [apply in_map; exact I|exact X].
Qed.

(** Node m sends a heartbeat at global time g, in a network of N nodes in which
    the others are slaves.  Up to global time [stop]: m gets a packet-free tick every
    P ms, its heartbeats reach everybody within D ms, and nobody else happens to
    take over in the first D ms.  Then m is the only master up to [stop]. *)
Theorem C92_one_master_for_ever w N m m0 rest g stop P D :
  let tr := (m, m0) :: rest in
  is_run w tr -> ordered w tr -> g = global w m m0 ->
  (forall i ev, In (i, ev) tr -> (i < N)%nat /\ global w i ev <= stop) ->
  (forall i, (i < N)%nat -> all_before (wrap - 7000) (n_start w i) (n_past w i ++ calls_at i tr)) ->
  own_heartbeat m0 ->
  (forall i n, (i < N)%nat -> i <> m -> hist (n_env w i) (n_start w i) (n_past w i) n -> GetCurrentState n = Slave) ->
  signs_genuine tr -> echoes_early w m tr ->
  0 <= P -> 0 <= D -> 1000 + P + D <= 5000 ->
  free_ticks w m tr g stop P -> heartbeats_arrive w N m tr stop D ->
  (forall i ev, In (i, ev) tr -> i <> m -> global w i ev <= g + D -> ~ took_over ev) ->
  forall i ev, In (i, ev) tr -> role_after ev = if Nat.eqb i m then Master else Slave.
Proof.
  intros tr R O Eg Bd W TO Sl Ge Ec P0 D0 PD Fr Hb NoR.
  assert (X : forall pre post, tr = pre ++ post ->
    (forall i ev, In (i, ev) pre -> role_after ev = if Nat.eqb i m then Master else Slave) /\
    (forall i n, (i < N)%nat -> i <> m -> hist (n_env w i) (n_start w i) (n_past w i ++ calls_at i pre) n -> GetCurrentState n = Slave) /\
    (forall n, pre <> [] -> hist (n_env w m) (n_start w m) (n_past w m ++ calls_at m pre) n -> GetCurrentState n = Master) /\
    (forall j ev x, In (j, ev) pre -> In x (sent ev) -> life_sign (rtx_packet x) ->
       In (pid (rtx_packet x)) (all_ids (calls_at m pre)))).
  { intros pre. induction pre as [|[i ev] pre IH] using rev_ind; intros post E.
    - split; [intros ? ? []|]. split; [intros i n I1 I2 H; cbn in H; rewrite app_nil_r in H; eauto|].
      split; [intros n []; reflexivity|intros ? ? ? []].
    - rewrite <- app_assoc in E. cbn [app] in E. destruct (IH _ E) as (A & B & C & F). clear IH.
      assert (Rp : is_run w (pre ++ (i, ev) :: post)) by (rewrite <- E; exact R).
      destruct (run_split _ _ _ _ _ Rp) as (n & H & Ap). pose proof H as H'.
      apply hist_last in H as (H & En & G & Oo & L1 & L2 & S).
      assert (Ii : In (i, ev) tr) by (rewrite E; apply in_or_app; right; left; reflexivity).
      destruct (Bd i ev Ii) as [Ni Ti].
      assert (NewF : forall x, life_sign (rtx_packet x) -> In x (sent ev) ->
                (i = m \/ accepted ev (rtx_packet x)) -> In (pid (rtx_packet x)) (all_ids (calls_at m (pre ++ [(i, ev)])))).
      { intros x Lx Ix K. destruct (PeanoNat.Nat.eq_dec i m) as [->|Ne].
        - apply (all_ids_in x ev); [|exact Ix]. apply in_calls_at. apply in_or_app; right; left; reflexivity.
        - destruct K as [K|K]; [contradiction|].
          destruct (Ge pre i ev post (rtx_packet x) E (proj1 K) Lx) as (j & ev' & x' & J1 & J2 & J3 & J4).
          assert (In (pid (rtx_packet x')) (all_ids (calls_at m pre))).
          { apply (F j ev' x' J1 J2). unfold life_sign in *. rewrite J3. exact Lx. }
          rewrite <- J4. rewrite calls_at_app. unfold all_ids in *. rewrite map_app, concat_app, map_app.
          apply in_or_app. left. exact H0. }
      assert (OldF : forall y, In y (all_ids (calls_at m pre)) -> In y (all_ids (calls_at m (pre ++ [(i, ev)])))).
      { intros y I. rewrite calls_at_app. unfold all_ids in *. rewrite map_app, concat_app, map_app. apply in_or_app; left; exact I. }
      destruct (PeanoNat.Nat.eq_dec i m) as [->|Ne].
      + (* a call of m *)
        assert (Ra : role_after ev = Master).
        { destruct pre as [|z pre'].
          - unfold tr in E. cbn in E. inversion E; subst. apply (heartbeat_call _ _ _ _ (ex_intro _ _ H') Ap TO).
          - apply (no_contact_keeps_master _ _ _ _ (ex_intro _ _ H')).
            + unfold role_before. apply (C (before ev)); [discriminate|exact H].
            + intros p Ac Lp.
              destruct (Ge (z :: pre') m ev post p E (proj1 Ac) Lp) as (j & ev' & x' & J1 & J2 & J3 & J4).
              assert (K : In (pid p) (all_ids (calls_at m (z :: pre')))).
              { rewrite <- J4. apply (F j ev' x' J1 J2). unfold life_sign in *. rewrite J3. exact Lp. }
              specialize (Ec (z :: pre') ev post p E (proj1 Ac) Lp K).
              apply (C10_node_accepts_iff_not_recent _ _ _ _ p (ex_intro _ _ H') (proj1 Ac)) in Ac. contradiction. }
        split; [|split; [|split]].
        * intros j u I. apply in_app_or in I as [I|[I|[]]]; [auto|]. inversion I; subst. rewrite PeanoNat.Nat.eqb_refl. exact Ra.
        * intros j n' Nj Nm Hj. rewrite calls_at_app, (calls_at_other _ _ _ Nm), app_nil_r in Hj. eauto.
        * intros n' _ Hm. rewrite calls_at_app, calls_at_one, app_assoc in Hm.
          apply hist_last in Hm as (_ & -> & _). exact Ra.
        * intros j u x I Ix Lx. apply in_app_or in I as [I|[I|[]]]; [apply OldF; eauto|]. inversion I; subst. auto.
      + (* a call of another node *)
        assert (Rb : role_before ev = Slave) by (apply (B i (before ev)); auto).
        assert (pre <> []).
        { intros ->. unfold tr in E. cbn in E. inversion E; subst. congruence. }
        assert (exists r, pre = (m, m0) :: r) as (r & Er).
        { destruct pre as [|z r]; [congruence|]. unfold tr in E. cbn in E. inversion E; subst. eauto. }
        assert (Hm : is_run w pre) by (eapply run_prefix; exact Rp).
        assert (Ra : role_after ev = Slave).
        { destruct (role_after ev) eqn:Era; [reflexivity|exfalso].
          assert (TOs : took_over ev) by (split; assumption).
          assert (Sub : forall k z, In z (calls_at k pre) -> In z (calls_at k tr)).
          { intros k z I. apply in_calls_at. apply in_calls_at in I. rewrite E. apply in_or_app; left; exact I. }
          assert (CM : calls_at m pre = m0 :: calls_at m r).
          { rewrite Er. change ((m, m0) :: r) with ([(m, m0)] ++ r). rewrite calls_at_app, calls_at_one. reflexivity. }
          assert (Nm : (m < N)%nat) by (apply (Bd m m0); left; reflexivity).
          apply (NoR i ev Ii Ne); [|exact TOs].
          subst g. unfold global.
          apply (C40_bounded_network_keeps_its_master (n_env w m) (n_start w m) (n_past w m) m0 (calls_at m r)
                   (n_env w i) (n_start w i) (n_past w i ++ calls_at i pre) ev (n_off w m) (n_off w i) P D); auto.
          - rewrite <- CM. apply Hm.
          - rewrite <- CM. apply Hm.
          - rewrite <- CM. destruct (W m Nm) as [W1 W2]. split; [exact W1|]. intros z I. apply W2.
            apply in_app_or in I as [I|I]; apply in_or_app; auto.
          - eexists; exact H'.
          - destruct (W i Ni) as [W1 W2]. split; [exact W1|]. intros z I. apply W2.
            apply in_app_or in I as [I|[<-|[]]].
            + apply in_app_or in I as [I|I]; apply in_or_app; auto.
            + apply in_or_app; right. apply in_calls_at. exact Ii.
          - intros z I. apply in_calls_at in I. specialize (A m z ltac:(rewrite Er; right; exact I)).
            rewrite PeanoNat.Nat.eqb_refl in A. exact A.
          - intros x Lx Ux. fold (global w i ev) in Ux. fold (global w m m0) in Lx.
            destruct (Fr x Lx ltac:(lia)) as (y & Iy & Fy & Ly).
            exists y. split; [|split; [exact Fy|exact Ly]].
            assert (Ip : In (m, y) pre) by (eapply ordered_before; [rewrite <- E; exact O|rewrite <- E; exact Iy|lia]).
            rewrite Er in Ip. destruct Ip as [Ip|Ip]; [|apply in_calls_at; exact Ip].
            inversion Ip; subst. lia.
          - intros y Iy Oy Ty. fold (global w m y) in Ty. fold (global w i ev) in Ty.
            assert (Iy' : In (m, y) tr).
            { rewrite E. apply in_or_app; left. rewrite Er. destruct Iy as [<-|Iy]; [left; reflexivity|right; apply in_calls_at; exact Iy]. }
            destruct (Hb y i Iy' Oy Ni Ne ltac:(lia)) as (c & Ic & Cc & Lc).
            exists c. split; [|split; [exact Cc|exact Lc]].
            apply in_or_app; right. apply in_calls_at.
            eapply ordered_before; [rewrite <- E; exact O|rewrite <- E; exact Ic|lia]. }
        split; [|split; [|split]].
        * intros j u I. apply in_app_or in I as [I|[I|[]]]; [auto|]. inversion I; subst.
          destruct (PeanoNat.Nat.eqb_spec j m); [contradiction|exact Ra].
        * intros j n' Nj Nm Hj. rewrite calls_at_app in Hj. destruct (PeanoNat.Nat.eq_dec j i) as [->|Nji].
          -- rewrite calls_at_one, app_assoc in Hj. apply hist_last in Hj as (_ & -> & _). exact Ra.
          -- rewrite (calls_at_other _ _ _ Nji), app_nil_r in Hj. eauto.
        * intros n' _ Hm'. rewrite calls_at_app, (calls_at_other i m ev ltac:(auto)), app_nil_r in Hm'. eauto.
        * intros j u x I Ix Lx. apply in_app_or in I as [I|[I|[]]]; [apply OldF; eauto|]. inversion I; subst j u. clear I.
          destruct x as [p|s p]; cbn [rtx_packet] in *.
          -- apply (NewF (Forwarded p) Lx Ix). right. eapply forwarded_accepted; eauto.
          -- exfalso. pose proof (C39_slaves_are_quiet _ _ _ _ (ex_intro _ _ H') Rb) as Q.
             destruct (call ev) as [inc|q|v|v] eqn:Ca.
             ++ destruct Q as [[Q _]|[(q & Q & _)|(q & _ & _ & Q)]]; [rewrite Q in Ix; destruct Ix|rewrite Q in Ix; destruct Ix as [Ix|[]]; discriminate Ix|congruence].
             ++ destruct Q as (q' & Q & (Q1 & _) & _). rewrite Q in Ix. destruct Ix as [Ix|[]]. inversion Ix; subst.
                assert (ptype q = 2 \/ ptype q = 3) by (apply (Ap ev q); [apply in_or_app; right; left; reflexivity|exact Ca]).
                unfold life_sign in Lx. lia.
             ++ destruct Q as [Q _]. rewrite Q in Ix. destruct Ix.
             ++ destruct Q as [Q _]. rewrite Q in Ix. destruct Ix. }
  intros i ev I. exact (proj1 (X tr [] (eq_sym (app_nil_r tr))) i ev I).
Qed.
Print Assumptions C92_one_master_for_ever.

(** Non-vacuous: two nodes whose clocks are 500 ms apart, three seconds, with an
    echo of the first heartbeat coming back to the master; P = 1500, D = 100. *)
Example C92_example : exists w m0 rest,
  let tr := (0%nat, m0) :: rest in
  is_run w tr /\ ordered w tr /\ global w 0 m0 = 7000 /\ n_off w 1%nat = 500 /\
  (forall i ev, In (i, ev) tr -> (i < 2)%nat /\ global w i ev <= 10000) /\
  (forall i, (i < 2)%nat -> all_before (wrap - 7000) (n_start w i) (n_past w i ++ calls_at i tr)) /\
  own_heartbeat m0 /\
  (forall i n, (i < 2)%nat -> i <> 0%nat -> hist (n_env w i) (n_start w i) (n_past w i) n -> GetCurrentState n = Slave) /\
  signs_genuine tr /\ echoes_early w 0 tr /\
  free_ticks w 0 tr 7000 10000 1500 /\ heartbeats_arrive w 2 0 tr 10000 100 /\
  (forall i ev, In (i, ev) tr -> i <> 0%nat -> global w i ev <= 7000 + 100 -> ~ took_over ev) /\
  length (calls_at 0 tr) = 6%nat /\ length (calls_at 1 tr) = 4%nat.
Proof.
  run_as H0 (env0 Arduino) 0 [(7000, OTick None); (7060, OTick (Some (heartbeat_pkt 24 7000))); (8100, OTick None);
    (8200, OTick None); (9200, OTick None); (9900, OTick None)].
  run_as H1 (env_const Arduino 0%N) 0 [(4000, OTick (Some (heartbeat_pkt 77 3500)));
    (7550, OTick (Some (heartbeat_pkt 24 7000))); (8650, OTick (Some (heartbeat_pkt 41 8100)));
    (9750, OTick (Some (heartbeat_pkt 58 9200))); (10500, OTick None)].
  run_as H2 (env0 Arduino) 0 (@nil (Z * op)).
  match type of H0 with hist _ _ [?a; ?b; ?c; ?d; ?f; ?g] _ =>
  match type of H1 with hist _ _ [?p; ?q; ?r; ?s; ?t] _ =>
    set (A := a) in *; set (B := b) in *; set (C := c) in *; set (D := d) in *; set (F := f) in *; set (G := g) in *;
    set (PP := p) in *; set (Q := q) in *; set (R := r) in *; set (S := s) in *; set (T := t) in *
  end end.
  exists (mkNetwork (fun i => match i with 1%nat => env_const Arduino 0%N | _ => env0 Arduino end) (fun _ => 0)
    (fun i => match i with 1%nat => 500 | _ => 0 end) (fun i => match i with 1%nat => [PP] | _ => [] end)),
    A, [(1%nat, Q); (0%nat, B); (0%nat, C); (1%nat, R); (0%nat, D); (0%nat, F); (1%nat, S); (0%nat, G); (1%nat, T)].
  cbv zeta.
  split.
  { intros [|[|i]].
    - split; [eexists; exact H0|]. intros x p I K. repeat (destruct I as [<-|I]; [discriminate K|]). destruct I.
    - split; [eexists; exact H1|]. intros x p I K. repeat (destruct I as [<-|I]; [discriminate K|]). destruct I.
    - split; [eexists; exact H2|]. intros x p []. }
  split.
  { intros a i u b j v c E.
    repeat (destruct a as [|? a]; [injection E as <- <- E;
       repeat (destruct b as [|? b]; [injection E as <- <- E; vm_compute; congruence|injection E as _ E]);
       try (destruct b; discriminate E)|injection E as _ E]); destruct a; discriminate E. }
  split; [reflexivity|]. split; [reflexivity|].
  split.
  { intros i ev I. repeat (destruct I as [I|I]; [injection I as <- <-; split; [lia|vm_compute; congruence]|]). destruct I. }
  split.
  { intros [|[|i]] L; [| |lia]; (split; [reflexivity|]); intros x I; repeat (destruct I as [<-|I]; [reflexivity|]); destruct I. }
  split; [eexists; split; [eexists; left; reflexivity|reflexivity]|].
  split.
  { intros [|[|i]] n L N H; [congruence| |lia]. cbn [n_env n_start n_past] in H.
    change [PP] with ([] ++ [PP]) in H. apply hist_last in H as (_ & -> & _). reflexivity. }
  split.
  { intros a i ev b p E K L.
    repeat (destruct a as [|? a]; [injection E as <- <- E; first [discriminate K|
       injection K as <-;
       first [eexists 0%nat, A, _; split; [cbn [In]; auto 20|]; split; [left; reflexivity|]; split; reflexivity
             |eexists 0%nat, C, _; split; [cbn [In]; auto 20|]; split; [left; reflexivity|]; split; reflexivity
             |eexists 0%nat, F, _; split; [cbn [In]; auto 20|]; split; [left; reflexivity|]; split; reflexivity]]
       |injection E as ? E; subst]); destruct a; discriminate E. }
  split.
  { intros a ev b p E K L _.
    repeat (destruct a as [|? a]; [injection E; intros; subst; first [discriminate K|discriminate|
       injection K as <-; vm_compute; auto 20]
       |injection E as ? E; subst]); destruct a; discriminate E. }
  split.
  { intros x L U. destruct (Z_lt_ge_dec x 8100); [exists C|exists F]; (split; [cbn [In]; auto 20|]);
      (split; [split; [eexists; reflexivity|intros p [I|[]]; discriminate I]|]); unfold global; cbn; lia. }
  split.
  { intros y i I O Ni Nm U. destruct i as [|[|i]]; [congruence| |lia].
    repeat (destruct I as [I|I]; [first [discriminate I|injection I as <-];
      first [exists Q; split; [cbn [In]; auto 20|]; split; [eexists; split; [split; [reflexivity|left; reflexivity]|left; reflexivity]|vm_compute; split; congruence]
            |exists R; split; [cbn [In]; auto 20|]; split; [eexists; split; [split; [reflexivity|left; reflexivity]|left; reflexivity]|vm_compute; split; congruence]
            |exists S; split; [cbn [In]; auto 20|]; split; [eexists; split; [split; [reflexivity|left; reflexivity]|left; reflexivity]|vm_compute; split; congruence]
            |exfalso; destruct O as (p & (s & Ip) & Tp); cbn in Ip; repeat (destruct Ip as [Ip|Ip]; [inversion Ip; subst; discriminate Tp|]); destruct Ip]|]).
    destruct I. }
  split.
  { intros i ev I N L [TR1 TR2]. repeat (destruct I as [I|I]; [injection I as <- <-; first [congruence|discriminate TR2|vm_compute in L; congruence]|]). destruct I. }
  split; reflexivity.
Qed.

(** The hypothesis about echoes is needed: a node that is alone with a relay can
    lose its role to its own heartbeat, if it comes back after five further
    transmissions. *)
Definition env_falling : env := mkEnv Arduino (fun k => N.of_nat (2000 - 100 * k)).

Theorem C92_late_echo_dethrones_refuted : exists e t0 h ev y p,
  history e t0 (h ++ [ev]) /\ In y h /\ originated y p /\
  (forall z q, In z h -> ~ accepted z q) /\
  accepted ev p /\ stepped_down ev.
Proof.
  exists env_falling, 0.
  run_as H env_falling 0 [(7000, OTick None); (8100, OTick None); (9200, OTick None); (10300, OTick None);
    (11400, OTick None); (12500, OTick None); (12600, OTick (Some (heartbeat_pkt 1902 7000)))].
  match type of H with hist _ _ [?a; ?b; ?c; ?d; ?f; ?g; ?i] _ => exists [a; b; c; d; f; g], i, a, (heartbeat_pkt 1902 7000) end.
  split; [eexists; exact H|]. split; [left; reflexivity|]. split; [eexists; left; reflexivity|].
  split; [intros z q I [C _]; repeat (destruct I as [<-|I]; [discriminate C|]); destruct I|].
  split; [split; [reflexivity|left; reflexivity]|split; reflexivity].
Qed.
Print Assumptions C92_late_echo_dethrones_refuted.
