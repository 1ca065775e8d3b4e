(** When the master disappears: C109. *)
From Coq Require Import ZArith Lia List Bool.
From Coq Require Import ZifyBool.
From Verif Require Import CInt CIntFacts Packet SpecPacket PacketFacts NetMgr NetHist SpecNet NetFacts Fastled Palette Device LedMgr SpecLed Effects SpecEffect Show ShowFacts PropShow Rsm RsmStep RsmEval RsmHist SpecRsm RsmFacts RsmTime RoleFacts RsmRun EffectFacts PropRole PropHeartbeat PropEffect PropHold PropPair PropNetTime PropNetwork PropOneMaster PropCatchUp PropInStep PropStartUp PropPowerUp PropUnstarved.
Import ListNotations.
Open Scope Z_scope.
Ltac Zify.zify_post_hook ::= Z.div_mod_to_equations.

(** c is the last time, by its own clock, at which the node was switched on,
    heard a heartbeat or a claim, or gave up being master. *)
Definition left_alone_since (t0 : Z) (h : list event) (c : Z) : Prop :=
  (c = t0 \/ exists ev, In ev h /\ at_ ev = c /\ (contact ev \/ stepped_down ev)) /\
  t0 <= c /\ forall ev, In ev h -> contact ev \/ stepped_down ev -> at_ ev <= c.

Lemma ends_after_silence w N i : leaderless w N -> (i < N)%nat ->
  history (n_env w i) (n_start w i) (n_past w i) -> all_before (wrap - 7000) (n_start w i) (n_past w i) ->
  exists c, left_alone_since (n_start w i) (n_past w i) c /\ c + 5000 <= ends w i <= c + 6999.
Proof.
  intros Ll Ni [n H] B. pose proof (Ll i n Ni H) as Sl. unfold GetCurrentState in Sl.
  pose proof (timer_inv _ _ _ _ H B) as TI. rewrite Sl in TI. destruct TI as (c & (A1 & A2 & A3) & Bc).
  assert (E : t_hb n = ends w i).
  { apply (ends_timer w i [] n); [rewrite app_nil_r; exact H|rewrite app_nil_r; exact B| |intros ? []|exact Sl].
    intros n0 H0. exact (Ll i n0 Ni H0). }
  exists c. rewrite <- E. split; [|exact Bc]. repeat split; auto. intros ev I [Q|Q]; apply A3; auto.
Qed.

(** A network of N nodes none of which is master: the master has gone, or its
    packets no longer reach them.  Each node has its own moment, between 5000 and
    6999 ms after it was last in contact, fixed before anything else happens, such
    that: if the moment of node m comes first, by more than P + D ms, then m takes
    over within P ms of that moment, nobody is master before, and m is the only
    master from then on; and if nobody gives orders, m is never starved and, at
    any time at which m has not changed the effect for 2000 + 2 P + 2 D ms, every
    node draws the animation of m, at most D ms late. *)
Theorem C109_fail_over w N :
  leaderless w N ->
  (forall i, (i < N)%nat -> history (n_env w i) (n_start w i) (n_past w i) /\
     all_before (wrap - 7000) (n_start w i) (n_past w i)) ->
  exists moment : nat -> Z,
  (forall i, (i < N)%nat -> exists c, left_alone_since (n_start w i) (n_past w i) c /\
     c + 5000 <= moment i + n_off w i <= c + 6999) /\
  (forall m tr stop P D,
    is_run w tr -> ordered w tr ->
    (forall i ev, In (i, ev) tr -> (i < N)%nat /\ global w i ev <= stop) ->
    (forall i, (i < N)%nat -> all_before (wrap - 7000) (n_start w i) (n_past w i ++ calls_at i tr)) ->
    signs_genuine tr -> echoes_early w m tr ->
    0 <= P -> 0 <= D -> 1000 + P + D <= 5000 ->
    (m < N)%nat -> (forall i, (i < N)%nat -> i <> m -> moment m + P + D < moment i) ->
    moment m + P < stop ->
    free_ticks w m tr (moment m) stop P -> heartbeats_arrive w N m tr stop D ->
    exists pre m0 rest, tr = pre ++ (m, m0) :: rest /\
      took_over m0 /\ moment m < global w m m0 <= moment m + P /\
      (forall i ev, In (i, ev) pre -> role_after ev = Slave) /\
      (forall i ev, In (i, ev) ((m, m0) :: rest) -> role_after ev = if Nat.eqb i m then Master else Slave)) /\
  (forall m tr stop P D,
    in_range w N m tr (moment m) stop P D ->
    (forall i ev q, In (i, ev) tr -> call ev <> OSetEffect q) ->
    0 <= P <= 1000 -> 0 <= D -> 1000 + P + D <= 5000 ->
    (m < N)%nat -> (forall i, (i < N)%nat -> i <> m -> moment m + P + D < moment i) ->
    (forall y, In (m, y) tr -> (forall p, ~ accepted y p) /\ (forall inc, call y = OTick inc -> packet_free y)) /\
    forall pre post t x, tr = pre ++ post ->
    moment m + P <= x -> x + 2000 + 2 * P + 2 * D < t <= stop ->
    (forall i ev, In (i, ev) pre -> global w i ev <= t) -> (forall i ev, In (i, ev) post -> t < global w i ev) ->
    (forall y, In (m, y) pre -> x < global w m y -> ~ own_change y) ->
    forall i n nm, (i < N)%nat -> i <> m ->
      hist (n_env w i) (n_start w i) (n_past w i ++ calls_at i pre) n ->
      hist (n_env w m) (n_start w m) (n_past w m ++ calls_at m pre) nm ->
      GetCurrentState nm = Master /\ GetCurrentState n = Slave /\
      exists L, 0 <= L <= D /\
        forall fl md d o o' T delta buf,
        o = o' \/ (ptype (GetSetEffect nm) = 2 -> ~ per_node (nth 0 (pdata (GetSetEffect nm)) 0 mod 35)) ->
        Show Arduino fl md d o (GetSetEffect n) (fun r => GetNetworkMillis (u32 (T + L + delta r + n_off w i)) n) buf =
        Show Arduino fl md d o' (GetSetEffect nm) (fun r => GetNetworkMillis (u32 (T + delta r + n_off w m)) nm) buf).
Proof.
  intros Ll Hs. exists (fun i => ends w i - n_off w i). split; [|split].
  - intros i Ni. destruct (Hs i Ni) as [H B]. destruct (ends_after_silence w N i Ll Ni H B) as (c & A & Bc).
    exists c. split; [exact A|lia].
  - intros m tr stop P D R O Bd W Ge Ec P0 D0 PD Nm Margin Fs Fr Hb.
    apply (leaderless_starts w N m tr stop P D); auto.
  - intros m tr stop P D IR NoSet P0 D0 PD Nm Margin. split.
    + apply (leaderless_no_starvation w N m tr stop P D); auto. lia.
    + apply (leaderless_to_one_animation_unstarved w N m tr stop P D); auto.
Qed.
Print Assumptions C109_fail_over.

(** The node that takes over goes on as before: the effect and palette it shows
    and its network time are those it had as a slave. *)
Theorem C109_taking_over_is_seamless e t0 h ev : history e t0 (h ++ [ev]) -> took_over ev ->
  same_content (GetSetEffect (after ev)) (GetSetEffect (before ev)) /\
  GetEffectIndex (after ev) = GetEffectIndex (before ev) /\
  forall t, GetNetworkMillis t (after ev) = GetNetworkMillis t (before ev).
Proof.
  intros [n H] [R1 R2]. apply hist_last in H as (H & -> & G & O & L1 & L2 & S).
  unfold role_before, role_after, GetCurrentState in *.
  destruct ev as [t o m m' out]; proj. unfold GetSetEffect, GetEffectIndex, GetNetworkMillis, same_content.
  destruct S as [inc out m' T|p R|v|v]; proj; try congruence.
  destruct T; proj; try congruence. repeat split; reflexivity.
Qed.
Print Assumptions C109_taking_over_is_seamless.

(** Non-vacuous: the old master's heartbeat was last heard by node 0 at 1000 and
    by node 1 at 4600 (node 1's clock is 500 ms ahead), so whatever the moments
    are, that of node 0 comes first.  Node 0 takes over at 6900; an echo of its
    heartbeat comes back. *)
Example C109_example : exists w tr n nm,
  leaderless w 2 /\
  (forall i, (i < 2)%nat -> history (n_env w i) (n_start w i) (n_past w i) /\
     all_before (wrap - 7000) (n_start w i) (n_past w i)) /\
  (forall moment : nat -> Z,
    (forall i, (i < 2)%nat -> exists c, left_alone_since (n_start w i) (n_past w i) c /\
       c + 5000 <= moment i + n_off w i <= c + 6999) ->
    (forall i, (i < 2)%nat -> i <> 0%nat -> moment 0%nat + 1000 + 100 < moment i) /\
    moment 0%nat + 1000 <= 9000 /\
    in_range w 2 0 tr (moment 0%nat) 13300 1000 100 /\
    free_ticks w 0 tr (moment 0%nat) 13300 1000) /\
  (forall i ev q, In (i, ev) tr -> call ev <> OSetEffect q) /\
  signs_genuine tr /\ echoes_early w 0 tr /\ heartbeats_arrive w 2 0 tr 13300 100 /\
  9000 + 2000 + 2 * 1000 + 2 * 100 < 13300 /\
  (forall y, In (0%nat, y) tr -> 9000 < global w 0 y -> ~ own_change y) /\
  hist (n_env w 1%nat) (n_start w 1%nat) (n_past w 1%nat ++ calls_at 1 tr) n /\
  hist (n_env w 0%nat) (n_start w 0%nat) (n_past w 0%nat ++ calls_at 0 tr) nm /\
  n_off w 1%nat = 500 /\ GetEffectIndex n = 1 /\ GetNetworkMillis 13800 n = 13250 /\ GetNetworkMillis 13300 nm = 13300.
Proof.
  run_as P0 (env0 Arduino) 0 [(1000, OTick (Some (heartbeat_pkt 77 1000)))].
  run_as P1 (env_const Arduino 1999%N) 800 [(1540, OTick (Some (heartbeat_pkt 77 1000))); (5100, OTick (Some (heartbeat_pkt 78 4550)))].
  run_as H0 (env0 Arduino) 0 [(1000, OTick (Some (heartbeat_pkt 77 1000))); (5000, OTick None); (6900, OTick None); (6990, OTick (Some (heartbeat_pkt 41 6900)));
    (7800, OTick None); (8000, OTick None); (8950, OTick None); (9100, OTick None); (10050, OTick None); (10200, OTick None);
    (11000, OTick None); (11250, OTick None); (12200, OTick None); (12300, OTick None); (13100, OTick None)].
  run_as H1 (env_const Arduino 1999%N) 800 [(1540, OTick (Some (heartbeat_pkt 77 1000))); (5100, OTick (Some (heartbeat_pkt 78 4550)));
    (7450, OTick (Some (heartbeat_pkt 41 6900))); (8550, OTick (Some (heartbeat_pkt 58 8000))); (9500, OTick (Some (effect_pkt 75 1 0 0)));
    (9650, OTick (Some (heartbeat_pkt 92 9100))); (10750, OTick (Some (heartbeat_pkt 109 10200))); (11550, OTick (Some (effect_pkt 126 1 0 0)));
    (11800, OTick (Some (heartbeat_pkt 143 11250))); (12850, OTick (Some (heartbeat_pkt 160 12300))); (13650, OTick (Some (effect_pkt 177 1 0 0)))].
  run_as H2 (env0 Arduino) 0 (@nil (Z * op)).
  match type of H0 with hist _ _ [?u0; ?z; ?a; ?b; ?c; ?d; ?f; ?g; ?h; ?i; ?j; ?k; ?l; ?m; ?o] ?nm =>
  match type of H1 with hist _ _ [?u1; ?u2; ?q; ?r; ?s; ?t; ?u; ?v; ?x; ?y; ?y1] ?n =>
    set (U0 := u0) in *; set (U1 := u1) in *; set (U2 := u2) in *;
    set (Z0 := z) in *; set (A := a) in *; set (B := b) in *; set (C := c) in *; set (D := d) in *; set (F := f) in *; set (G := g) in *;
    set (HH := h) in *; set (II := i) in *; set (JJ := j) in *; set (KK := k) in *; set (LL := l) in *; set (MM := m) in *; set (OO := o) in *;
    set (Q := q) in *; set (R := r) in *; set (S := s) in *; set (T := t) in *; set (U := u) in *; set (V := v) in *;
    set (X := x) in *; set (Y := y) in *; set (Y1 := y1) in *;
    set (w := mkNetwork (fun w0 => match w0 with 1%nat => env_const Arduino 1999%N | _ => env0 Arduino end)
      (fun w0 => match w0 with 1%nat => 800 | _ => 0 end)
      (fun w0 => match w0 with 1%nat => 500 | _ => 0 end)
      (fun w0 => match w0 with 0%nat => [U0] | 1%nat => [U1; U2] | _ => [] end));
    set (tr := [(0%nat, Z0); (0%nat, A); (1%nat, Q); (0%nat, B); (0%nat, C); (0%nat, D); (1%nat, R); (0%nat, F); (1%nat, S); (0%nat, G);
       (1%nat, T); (0%nat, HH); (0%nat, II); (1%nat, U); (0%nat, JJ); (1%nat, V); (0%nat, KK); (1%nat, X); (0%nat, LL); (0%nat, MM); (1%nat, Y);
       (0%nat, OO); (1%nat, Y1)]); exists w, tr, n, nm
  end end.
  assert (E0 : [U0; Z0; A; B; C; D; F; G; HH; II; JJ; KK; LL; MM; OO] = n_past w 0%nat ++ calls_at 0 tr) by (vm_compute; reflexivity).
  assert (E1 : [U1; U2; Q; R; S; T; U; V; X; Y; Y1] = n_past w 1%nat ++ calls_at 1 tr) by (vm_compute; reflexivity).
  rewrite E0 in H0. rewrite E1 in H1. subst tr.
  split.
  { intros [|[|i]] n Ni Hn; cbn in Hn; [| |lia].
    - change [U0] with ([] ++ [U0]) in Hn. apply hist_last in Hn as (_ & -> & _). reflexivity.
    - change [U1; U2] with ([U1] ++ [U2]) in Hn. apply hist_last in Hn as (_ & -> & _). reflexivity. }
  split.
  { intros [|[|i]] Ni; [| |lia].
    - split; [eexists; exact P0|]. split; [reflexivity|]. intros x I. repeat (destruct I as [<-|I]; [reflexivity|]). destruct I.
    - split; [eexists; exact P1|]. split; [reflexivity|]. intros x I. repeat (destruct I as [<-|I]; [reflexivity|]). destruct I. }
  split.
  { intros moment Mo.
    assert (M0 : 6000 <= moment 0%nat <= 7999).
    { destruct (Mo 0%nat ltac:(lia)) as (c & (A1 & A2 & A3) & A4). cbn in A1, A2, A3, A4.
      assert (c = 1000); [|lia].
      specialize (A3 U0 (or_introl eq_refl) ltac:(left; eexists; split; [split; [reflexivity|left; reflexivity]|left; reflexivity])). cbn in A3.
      destruct A1 as [->|(ev & I & Ea & _)]; [lia|]. repeat (destruct I as [<-|I]; [cbn in Ea; lia|]). destruct I. }
    assert (M1 : 9600 <= moment 1%nat).
    { destruct (Mo 1%nat ltac:(lia)) as (c & (A1 & A2 & A3) & A4). cbn in A1, A2, A3, A4.
      specialize (A3 U2 (or_intror (or_introl eq_refl)) ltac:(left; eexists; split; [split; [reflexivity|left; reflexivity]|left; reflexivity])). cbn in A3.
      lia. }
    split; [intros [|[|i]] L1 L2; [congruence|lia|lia]|]. split; [lia|].
    split; [constructor|].
    { intros [|[|i]].
      - split; [eexists; exact H0|]. rewrite <- E0. intros x p I K. repeat (destruct I as [<-|I]; [discriminate K|]). destruct I.
      - split; [eexists; exact H1|]. rewrite <- E1. intros x p I K. repeat (destruct I as [<-|I]; [discriminate K|]). destruct I.
      - split; [eexists; exact H2|]. intros x p []. }
    { intros a i u b j v c E.
      repeat (destruct a as [|? a]; [injection E as <- <- E;
         repeat (destruct b as [|? b]; [injection E as <- <- E; vm_compute; congruence|injection E as _ E]);
         try (destruct b; discriminate E)|injection E as _ E]); destruct a; discriminate E. }
    { intros i ev I. repeat (destruct I as [I|I]; [injection I as <- <-; split; [lia|vm_compute; congruence]|]). destruct I. }
    { intros [|[|i]] ev I; repeat (destruct I as [<-|I]; [unfold global; cbn; lia|]); destruct I. }
    { intros [|[|i]] L; [rewrite <- E0|rewrite <- E1|lia]; (split; [reflexivity|]); intros x I; repeat (destruct I as [<-|I]; [reflexivity|]); destruct I. }
    { intros x L L2.
      assert (X0 : x < 6900 \/ 6900 <= x < 7800 \/ 7800 <= x < 8000 \/ 8000 <= x < 8950 \/ 8950 <= x < 9100 \/ 9100 <= x < 10050 \/ 10050 <= x < 10200 \/ 10200 <= x < 11000
        \/ 11000 <= x < 11250 \/ 11250 <= x < 12200 \/ 12200 <= x) by lia.
      destruct X0 as [X0|[X0|[X0|[X0|[X0|[X0|[X0|[X0|[X0|[X0|X0]]]]]]]]]]; [exists A|exists C|exists D|exists F|exists G|exists HH|exists II|exists JJ|exists KK|exists LL|exists MM];
        exists None; (split; [cbn [In]; auto 40|]); (split; [reflexivity|]); unfold global; cbn; lia. }
    { intros y p i I O Ty Ni Nm Ut. destruct i as [|[|i]]; [congruence| |lia].
      destruct O as (s & Ip).
      repeat (destruct I as [I|I]; [first [discriminate I|injection I as <-];
        cbn in Ip; first [exfalso; intuition discriminate|destruct Ip as [Ip|[]]; injection Ip as <- <-];
        first [eexists Q, _; split; [cbn [In]; auto 40|]; split; [split; [reflexivity|left; reflexivity]|]; split; [split; reflexivity|vm_compute; split; congruence]
              |eexists R, _; split; [cbn [In]; auto 40|]; split; [split; [reflexivity|left; reflexivity]|]; split; [split; reflexivity|vm_compute; split; congruence]
              |eexists S, _; split; [cbn [In]; auto 40|]; split; [split; [reflexivity|left; reflexivity]|]; split; [split; reflexivity|vm_compute; split; congruence]
              |eexists T, _; split; [cbn [In]; auto 40|]; split; [split; [reflexivity|left; reflexivity]|]; split; [split; reflexivity|vm_compute; split; congruence]
              |eexists U, _; split; [cbn [In]; auto 40|]; split; [split; [reflexivity|left; reflexivity]|]; split; [split; reflexivity|vm_compute; split; congruence]
              |eexists V, _; split; [cbn [In]; auto 40|]; split; [split; [reflexivity|left; reflexivity]|]; split; [split; reflexivity|vm_compute; split; congruence]
              |eexists X, _; split; [cbn [In]; auto 40|]; split; [split; [reflexivity|left; reflexivity]|]; split; [split; reflexivity|vm_compute; split; congruence]
              |eexists Y, _; split; [cbn [In]; auto 40|]; split; [split; [reflexivity|left; reflexivity]|]; split; [split; reflexivity|vm_compute; split; congruence]
              |eexists Y1, _; split; [cbn [In]; auto 40|]; split; [split; [reflexivity|left; reflexivity]|]; split; [split; reflexivity|vm_compute; split; congruence]]|]).
      destruct I. }
    { intros a i ev b p E [Ca Fw]. exists 0%nat.
      repeat (destruct a as [|? a]; [injection E as <- <- E; first [discriminate Ca|injection Ca as <-; cbn in Fw;
         first [exfalso; intuition discriminate|idtac]];
         first [eexists A, _; split; [discriminate|]; split; [cbn [In]; auto 40|]; split; [eexists; left; reflexivity|]; split; [split; reflexivity|vm_compute; split; congruence]
               |eexists D, _; split; [discriminate|]; split; [cbn [In]; auto 40|]; split; [eexists; left; reflexivity|]; split; [split; reflexivity|vm_compute; split; congruence]
               |eexists F, _; split; [discriminate|]; split; [cbn [In]; auto 40|]; split; [eexists; left; reflexivity|]; split; [split; reflexivity|vm_compute; split; congruence]
               |eexists G, _; split; [discriminate|]; split; [cbn [In]; auto 40|]; split; [eexists; left; reflexivity|]; split; [split; reflexivity|vm_compute; split; congruence]
               |eexists II, _; split; [discriminate|]; split; [cbn [In]; auto 40|]; split; [eexists; left; reflexivity|]; split; [split; reflexivity|vm_compute; split; congruence]
               |eexists JJ, _; split; [discriminate|]; split; [cbn [In]; auto 40|]; split; [eexists; left; reflexivity|]; split; [split; reflexivity|vm_compute; split; congruence]
               |eexists KK, _; split; [discriminate|]; split; [cbn [In]; auto 40|]; split; [eexists; left; reflexivity|]; split; [split; reflexivity|vm_compute; split; congruence]
               |eexists MM, _; split; [discriminate|]; split; [cbn [In]; auto 40|]; split; [eexists; left; reflexivity|]; split; [split; reflexivity|vm_compute; split; congruence]
               |eexists OO, _; split; [discriminate|]; split; [cbn [In]; auto 40|]; split; [eexists; left; reflexivity|]; split; [split; reflexivity|vm_compute; split; congruence]]
         |injection E as ? E; subst]); destruct a; discriminate E. }
    { intros x L L2.
      assert (X0 : x < 6900 \/ 6900 <= x < 7800 \/ 7800 <= x < 8000 \/ 8000 <= x < 8950 \/ 8950 <= x < 9100 \/ 9100 <= x < 10050 \/ 10050 <= x < 10200 \/ 10200 <= x < 11000
        \/ 11000 <= x < 11250 \/ 11250 <= x < 12200 \/ 12200 <= x) by lia.
      destruct X0 as [X0|[X0|[X0|[X0|[X0|[X0|[X0|[X0|[X0|[X0|X0]]]]]]]]]]; [exists A|exists C|exists D|exists F|exists G|exists HH|exists II|exists JJ|exists KK|exists LL|exists MM];
        (split; [cbn [In]; auto 40|]); (split; [split; [eexists; reflexivity|intros p I; cbn in I; intuition discriminate]|]); unfold global; cbn; lia. } }
  split.
  { intros i ev q I C0. repeat (destruct I as [I|I]; [injection I as <- <-; discriminate C0|]). destruct I. }
  split.
  { intros a i ev b p E K L. exists 0%nat.
    repeat (destruct a as [|? a]; [injection E as <- <- E; first [discriminate K|
       injection K as <-;
       first [exfalso; unfold life_sign in L; cbn in L; lia
             |eexists A, _; split; [cbn [In]; auto 40|]; split; [left; reflexivity|]; split; reflexivity
             |eexists D, _; split; [cbn [In]; auto 40|]; split; [left; reflexivity|]; split; reflexivity
             |eexists G, _; split; [cbn [In]; auto 40|]; split; [left; reflexivity|]; split; reflexivity
             |eexists II, _; split; [cbn [In]; auto 40|]; split; [left; reflexivity|]; split; reflexivity
             |eexists KK, _; split; [cbn [In]; auto 40|]; split; [left; reflexivity|]; split; reflexivity
             |eexists MM, _; split; [cbn [In]; auto 40|]; split; [left; reflexivity|]; split; reflexivity]]
       |injection E as ? E; subst]); destruct a; discriminate E. }
  split.
  { intros a ev b p E K L _.
    repeat (destruct a as [|? a]; [injection E; intros; subst; first [discriminate K|discriminate|
       injection K as <-; vm_compute; auto 20]
       |injection E as ? E; subst]); destruct a; discriminate E. }
  split.
  { intros y i I O Ni Nm Ut. destruct i as [|[|i]]; [congruence| |lia].
    repeat (destruct I as [I|I]; [first [discriminate I|injection I as <-];
      first [exists Q; split; [cbn [In]; auto 40|]; split; [eexists; split; [split; [reflexivity|left; reflexivity]|left; reflexivity]|vm_compute; split; congruence]
            |exists R; split; [cbn [In]; auto 40|]; split; [eexists; split; [split; [reflexivity|left; reflexivity]|left; reflexivity]|vm_compute; split; congruence]
            |exists T; split; [cbn [In]; auto 40|]; split; [eexists; split; [split; [reflexivity|left; reflexivity]|left; reflexivity]|vm_compute; split; congruence]
            |exists U; split; [cbn [In]; auto 40|]; split; [eexists; split; [split; [reflexivity|left; reflexivity]|left; reflexivity]|vm_compute; split; congruence]
            |exists X; split; [cbn [In]; auto 40|]; split; [eexists; split; [split; [reflexivity|left; reflexivity]|left; reflexivity]|vm_compute; split; congruence]
            |exists Y; split; [cbn [In]; auto 40|]; split; [eexists; split; [split; [reflexivity|left; reflexivity]|left; reflexivity]|vm_compute; split; congruence]
            |exfalso; destruct O as (p & (s & Ip) & Tp); cbn in Ip; repeat (destruct Ip as [Ip|Ip]; [inversion Ip; subst; discriminate Tp|]); destruct Ip]|]).
    destruct I. }
  split; [lia|].
  split.
  { intros y I L (p & Ip). repeat (destruct I as [I|I]; [first [discriminate I|injection I as <-]; cbn in Ip; intuition discriminate|]). destruct I. }
  split; [exact H1|]. split; [exact H0|]. repeat split.
Qed.
