(** From power-up to one animation: C105. *)
From Coq Require Import ZArith Lia List Bool.
From Coq Require Import ZifyBool.
From Verif Require Import CInt CIntFacts Packet SpecPacket PacketFacts NetMgr NetHist SpecNet NetFacts Fastled Palette Device LedMgr SpecLed Effects SpecEffect Show ShowFacts PropShow Rsm RsmStep RsmEval RsmHist SpecRsm RsmFacts RsmTime RoleFacts RsmRun EffectFacts PropRole PropHeartbeat PropEffect PropHold PropPair PropNetTime PropNetwork PropOneMaster PropCatchUp PropInStep PropStartUp.
Import ListNotations.
Open Scope Z_scope.
Ltac Zify.zify_post_hook ::= Z.div_mod_to_equations.

Section PowerUp.
Variables (w : network) (N m : nat) (tr : run) (stop P D : Z).
Let first i := ends w i - n_off w i.
Hypothesis (Ll : leaderless w N).
Hypothesis (IT : in_touch w N m tr (first m) stop P D).
Hypothesis (NoSet : forall i ev q, In (i, ev) tr -> call ev <> OSetEffect q).
Hypothesis (P0 : 0 <= P) (D0 : 0 <= D) (PD : 1000 + P + D <= 5000).
Hypothesis (Nm : (m < N)%nat).
Hypothesis (Margin : forall i, (i < N)%nat -> i <> m -> first m + P + D < first i).
Hypothesis (Fs : first m + P < stop).

Lemma pu_genuine : forall a i ev b p, tr = a ++ (i, ev) :: b -> accepted ev p -> life_sign p ->
  exists j ev' x, In (j, ev') a /\ In x (sent ev') /\ ptype (rtx_packet x) = ptype p.
Proof using IT.
  intros a i ev b p E Ac L.
  destruct (it_prompt _ _ _ _ _ _ _ _ IT a i ev b p E Ac (or_introl L)) as (k & y & q & _ & Iy & (s & Oy) & [Sq _] & _).
  exists k, y, (Own s q). split; [exact Iy|]. split; [exact Oy|]. symmetry. exact Sq.
Qed.

(** Node m takes over, the others are slaves, and the rest of the run is in touch
    with m. *)
Lemma power_up : exists pre m0 rest, tr = pre ++ (m, m0) :: rest /\
  took_over m0 /\ first m < global w m m0 <= first m + P /\
  (forall i ev, In (i, ev) pre -> role_after ev = Slave /\ global w i ev <= global w m m0) /\
  in_touch (later w pre) N m ((m, m0) :: rest) (global w m m0) stop P D /\
  (forall i n, (i < N)%nat -> i <> m ->
     hist (n_env w i) (n_start w i) (n_past (later w pre) i) n -> GetCurrentState n = Slave) /\
  (forall i ev, In (i, ev) ((m, m0) :: rest) -> i <> m -> global w i ev <= global w m m0 + D -> ~ took_over ev).
Proof using All.
  pose proof IT as [R O Bd PastG W Fr Arr Prompt].
  assert (In_N : forall i ev, In (i, ev) tr -> (i < N)%nat) by (intros i ev I; apply (Bd i ev I)).
  destruct (the_first_takeover w tr N Ll R In_N pu_genuine m stop P D O Bd W P0 D0 PD Margin Fs Fr)
    as (pre & m0 & rest & E & TO & Gb & Nt & Past & Later & NoR).
  change (first m < global w m m0 <= first m + P) in Gb.
  destruct (before_first_takeover w tr N Ll R In_N pu_genuine pre _ E Nt) as [A B].
  assert (Sub : forall z, In z ((m, m0) :: rest) -> In z tr) by (intros z I; rewrite E; apply in_or_app; auto).
  (* nobody transmits anything of its own before *)
  assert (Quiet : forall k y q, In (k, y) pre -> ~ originated y q).
  { intros k y q I Oy. destruct (A k y I) as (A1 & A2 & _).
    assert (It : In (k, y) tr) by (rewrite E; apply in_or_app; auto).
    pose proof It as Is. apply in_split in Is as (a & b & Et). pose proof R as R0. rewrite Et in R0.
    destruct (run_split _ _ _ _ _ R0) as (n & H & _).
    destruct (slave_origin _ _ _ _ q (ex_intro _ _ H) A1 A2 Oy) as (r & Cr & _).
    exact (NoSet k y r It Cr). }
  exists pre, m0, rest. split; [exact E|]. split; [exact TO|]. split; [exact Gb|].
  split; [intros i ev I; split; [apply (A i ev I)|auto]|].
  split; [|split; [|exact NoR]].
  - constructor.
    + apply later_run. rewrite <- E. exact R.
    + intros a i u b k v c Er. apply (O (pre ++ a) i u b k v c). rewrite E, Er, <- app_assoc. reflexivity.
    + intros i ev I. apply (Bd i ev). auto.
    + intros i ev I. cbn [later n_past] in I. apply in_app_or in I as [I|I].
      * specialize (PastG i ev I). change (global w i ev <= global w m m0). lia.
      * apply in_calls_at in I. exact (Past i ev I).
    + intros i Ni. cbn [later n_past n_start]. rewrite <- app_assoc, <- calls_at_app, <- E. auto.
    + intros x Lx Ux. destruct (Fr x ltac:(lia) Ux) as (z & Iz & Fz & Lz). exists z. split; [|auto].
      rewrite E in Iz. apply in_app_or in Iz as [Iz|Iz]; [|exact Iz]. specialize (Past m z Iz). lia.
    + intros y p i Iy Oy Tp Ni Ne Uy. destruct (Arr y p i (Sub _ Iy) Oy Tp Ni Ne Uy) as (c & q & Ic & Ac & Sq & Lc).
      exists c, q. split; [|auto]. rewrite E in Ic. apply in_app_or in Ic as [Ic|Ic]; [exfalso|exact Ic].
      apply in_split in Ic as (a & b & Ep).
      assert (Tq : life_sign q \/ about_effects q).
      { destruct Sq as [Sq _]. unfold life_sign, about_effects in *. rewrite Sq. tauto. }
      destruct (Prompt a i c (b ++ (m, m0) :: rest) q ltac:(rewrite E, Ep, <- app_assoc; reflexivity) Ac Tq)
        as (k & z & r & _ & Iz & Oz & _).
      apply (Quiet k z r); [|exact Oz]. rewrite Ep. apply in_or_app; auto.
    + intros a i ev b p Er Ac Lp.
      destruct (Prompt (pre ++ a) i ev b p ltac:(rewrite E, Er, <- app_assoc; reflexivity) Ac Lp)
        as (k & z & r & Nk & Iz & Oz & Sz & Lz).
      exists k, z, r. split; [exact Nk|]. split; [|auto].
      apply in_app_or in Iz as [Iz|Iz]; [|exact Iz]. destruct (Quiet k z r Iz Oz).
  - intros i n Ni Ne H. cbn [later n_past] in H. exact (B i n Ni H).
Qed.
End PowerUp.

(** What a node shows does not change unless it is told to, or by itself. *)
Lemma effect_stays e t0 h1 y h2 n : hist e t0 (h1 ++ y :: h2) n ->
  (forall z, In z h2 -> (forall p, accepted z p -> ptype p <> 2 /\ ptype p <> 3) /\
     (forall p, call z <> OSetEffect p) /\ ~ own_change z) ->
  same_content (GetSetEffect (after y)) (GetSetEffect n).
Proof.
  revert n. induction h2 as [|z h2 IH] using rev_ind; intros n H Q.
  - apply hist_last in H as (_ & -> & _). repeat split.
  - assert (H' : hist e t0 ((h1 ++ y :: h2) ++ [z]) n) by (rewrite <- app_assoc; exact H).
    pose proof H' as H2. apply hist_last in H2 as (H2 & -> & _).
    destruct (Q z ltac:(apply in_or_app; right; left; reflexivity)) as (Q1 & Q2 & Q3).
    destruct (C27_nothing_else_changes_the_effect _ _ _ _ (ex_intro _ _ H') Q1 Q2 Q3) as [(S1 & S2 & S3) _].
    destruct (IH _ H2 ltac:(intros u I; apply Q; apply in_or_app; auto)) as (T1 & T2 & T3).
    repeat split; congruence.
Qed.

(** The same for any network without a master: see C105 and C109. *)
Lemma leaderless_to_one_animation w N m tr stop P D :
  let first i := ends w i - n_off w i in
  leaderless w N ->
  in_touch w N m tr (first m) stop P D ->
  (forall i ev q, In (i, ev) tr -> call ev <> OSetEffect q) ->
  0 <= P <= 1000 -> 0 <= D -> 1000 + P + D <= 5000 ->
  (m < N)%nat -> (forall i, (i < N)%nat -> i <> m -> first m + P + D < first i) ->
  forall pre post t x, tr = pre ++ post ->
  first m + P <= x -> x + 2000 + 2 * P + 2 * D < t <= stop ->
  (forall i ev, In (i, ev) pre -> global w i ev <= t) -> (forall i ev, In (i, ev) post -> t < global w i ev) ->
  (forall y, In (m, y) pre -> x < global w m y -> ~ own_change y) ->
  forall i n nm, (i < N)%nat -> i <> m ->
    hist (n_env w i) (n_start w i) (n_past w i ++ calls_at i pre) n ->
    hist (n_env w m) (n_start w m) (n_past w m ++ calls_at m pre) nm ->
    GetCurrentState nm = Master /\ GetCurrentState n = Slave /\
    exists L, 0 <= L <= D /\
      forall fl md d o o' T delta buf,
      o = o' \/ (ptype (GetSetEffect nm) = 2 -> ~ per_node (nth 0 (pdata (GetSetEffect nm)) 0 mod 35)) ->
      Show Arduino fl md d o (GetSetEffect n) (fun r => GetNetworkMillis (u32 (T + L + delta r + n_off w i)) n) buf =
      Show Arduino fl md d o' (GetSetEffect nm) (fun r => GetNetworkMillis (u32 (T + delta r + n_off w m)) nm) buf.
Proof.
  intros first Ll IT0 NoSet0 P0 D0 PD Nm Margin pre post t x Et Gx Lt Bef Aft NoChg i n nm Ni Ne Hn Hm.
  assert (IT : in_touch w N m pre (first m) t P D).
  { eapply in_touch_cut; [rewrite <- Et; exact IT0|lia|exact Bef|exact Aft]. }
  assert (NoSet : forall k ev q, In (k, ev) pre -> call ev <> OSetEffect q).
  { intros k ev q I. apply (NoSet0 k). rewrite Et. apply in_or_app; auto. }
  destruct (power_up w N m pre t P D Ll IT NoSet ltac:(lia) D0 PD Nm Margin ltac:(unfold first in *; lia))
    as (pre0 & m0 & rest & E & TO & Gb & Sl0 & IT1 & Sl & NoR).
  assert (TH : own_heartbeat m0) by (eapply run_takeover; [exact (it_run _ _ _ _ _ _ _ _ IT1)|left; reflexivity|exact TO]).
  change (first m < global w m m0 <= first m + P) in Gb.
  assert (C0 : forall k, n_past (later w pre0) k ++ calls_at k ((m, m0) :: rest) = n_past w k ++ calls_at k pre).
  { intros k. cbn [later n_past]. rewrite <- app_assoc, <- calls_at_app, <- E. reflexivity. }
  assert (Hn1 : hist (n_env (later w pre0) i) (n_start (later w pre0) i) (n_past (later w pre0) i ++ calls_at i ((m, m0) :: rest)) n)
    by (rewrite C0; exact Hn).
  assert (Hm1 : hist (n_env (later w pre0) m) (n_start (later w pre0) m) (n_past (later w pre0) m ++ calls_at m ((m, m0) :: rest)) nm)
    by (rewrite C0; exact Hm).
  assert (P1 : 0 <= P) by lia.
  destruct (st_all (later w pre0) N m m0 rest (global w m m0) t P D IT1 eq_refl TH Sl P1 D0 PD NoR _ [] (eq_sym (app_nil_r _)))
    as (_ & RS & RM).
  split; [apply (RM nm ltac:(discriminate) Hm1)|]. split; [apply (RS i n Ni Ne Hn1)|].
  assert (Ap : api_ok (n_past w m ++ calls_at m pre)) by apply (it_run _ _ _ _ _ _ _ _ IT m).
  apply (C95_one_animation (later w pre0) N m m0 rest (global w m m0) t P D x (GetSetEffect nm) IT1 eq_refl TH Sl P0 D0 PD NoR); auto.
  - apply (effect_type_inv _ _ _ _ Hm Ap).
  - lia.
  - lia.
  - intros y Iy Ly. change (global (later w pre0) m y) with (global w m y) in Ly.
    assert (Iy' : In (m, y) pre) by (rewrite E; apply in_or_app; right; exact Iy).
    apply says_content.
    apply in_split in Iy' as (a & b & Ea).
    assert (Eh : n_past w m ++ calls_at m pre = (n_past w m ++ calls_at m a) ++ y :: calls_at m b).
    { rewrite Ea. change ((m, y) :: b) with ([(m, y)] ++ b). rewrite !calls_at_app, calls_at_one, <- app_assoc. reflexivity. }
    rewrite Eh in Hm.
    apply (effect_stays _ _ _ _ _ _ Hm). intros z Iz. apply in_calls_at in Iz.
    assert (Lz : x < global w m z).
    { apply in_split in Iz as (b1 & b2 & Eb). pose proof (it_ordered _ _ _ _ _ _ _ _ IT a m y b1 m z b2) as Q.
      rewrite Ea, Eb in Q. specialize (Q eq_refl). lia. }
    assert (Izp : In (m, z) pre) by (rewrite Ea; apply in_or_app; right; right; exact Iz).
    split; [|split; [intros p; apply (NoSet m z p Izp)|apply (NoChg z Izp Lz)]].
    intros p Ac. destruct (Z.eq_dec (ptype p) 2) as [T2|T2]; [exfalso|destruct (Z.eq_dec (ptype p) 3) as [T3|T3]; [exfalso|tauto]].
    1,2: assert (Ae : about_effects p) by (unfold about_effects; tauto).
    1,2: assert (Iz1 : In (m, z) ((m, m0) :: rest)).
    1,3: rewrite E in Izp; apply in_app_or in Izp as [Izp|Izp]; [|exact Izp];
         destruct (Sl0 m z Izp) as [_ Q]; lia.
    1,2: apply in_split in Iz1 as (c1 & c2 & Ec);
         destruct (st_origin (later w pre0) N m m0 rest (global w m m0) t P D IT1 eq_refl TH Sl P1 D0 PD NoR c1 m z c2 p Ec Ac (or_intror Ae))
           as (k & v & q & Nk & Iv & _ & _ & _ & [Km|(r & Cr & _)]); [contradiction|];
         apply (NoSet k v r); [|exact Cr]; rewrite E; apply in_or_app; right; rewrite Ec; apply in_or_app; left; exact Iv.
  - intros k ev q I Nk _ Cq. exfalso. apply (NoSet k ev q); [|exact Cq]. rewrite E. apply in_or_app; right; exact I.
Qed.

(** A network powered up as in C104, to whose nodes nobody gives orders.  At any
    time t at which the master has not changed the effect for 2000 + 2 P + 2 D ms,
    there is exactly one master, and every other node draws the animation of the
    master, at most D ms late. *)
Theorem C105_from_power_up_to_one_animation w N m tr stop P D :
  let first i := patience_ends (n_env w i) (n_start w i) - n_off w i in
  (forall i, n_past w i = []) ->
  in_touch w N m tr (first m) stop P D ->
  (forall i ev q, In (i, ev) tr -> call ev <> OSetEffect q) ->
  0 <= P <= 1000 -> 0 <= D -> 1000 + P + D <= 5000 ->
  (m < N)%nat -> (forall i, (i < N)%nat -> i <> m -> first m + P + D < first i) ->
  forall pre post t x, tr = pre ++ post ->
  first m + P <= x -> x + 2000 + 2 * P + 2 * D < t <= stop ->
  (forall i ev, In (i, ev) pre -> global w i ev <= t) -> (forall i ev, In (i, ev) post -> t < global w i ev) ->
  (forall y, In (m, y) pre -> x < global w m y -> ~ own_change y) ->
  forall i n nm, (i < N)%nat -> i <> m ->
    hist (n_env w i) (n_start w i) (calls_at i pre) n ->
    hist (n_env w m) (n_start w m) (calls_at m pre) nm ->
    GetCurrentState nm = Master /\ GetCurrentState n = Slave /\
    exists L, 0 <= L <= D /\
      forall fl md d o o' T delta buf,
      o = o' \/ (ptype (GetSetEffect nm) = 2 -> ~ per_node (nth 0 (pdata (GetSetEffect nm)) 0 mod 35)) ->
      Show Arduino fl md d o (GetSetEffect n) (fun r => GetNetworkMillis (u32 (T + L + delta r + n_off w i)) n) buf =
      Show Arduino fl md d o' (GetSetEffect nm) (fun r => GetNetworkMillis (u32 (T + delta r + n_off w m)) nm) buf.
Proof.
  intros first New IT NoSet P0 D0 PD Nm Margin pre post t x Et Gx Lt Bef Aft NoChg i n nm Ni Ne Hn Hm.
  assert (Ef : forall k, ends w k = patience_ends (n_env w k) (n_start w k)) by (intros k; apply ends_new; apply New).
  apply (leaderless_to_one_animation w N m tr stop P D) with (pre := pre) (post := post) (t := t) (x := x); auto.
  - apply new_leaderless. exact New.
  - rewrite Ef. exact IT.
  - intros k Nk Nke. rewrite !Ef. apply (Margin k Nk Nke).
  - rewrite Ef. exact Gx.
  - rewrite New. exact Hn.
  - rewrite New. exact Hm.
Qed.
Print Assumptions C105_from_power_up_to_one_animation.

(** Non-vacuous: two nodes powered up 300 ms apart, with an echo of the first
    heartbeat; P = 1000, D = 100; in the end node 1 draws what node 0 draws,
    50 ms later. *)
Example C105_example : exists w tr n nm,
  let first i := patience_ends (n_env w i) (n_start w i) - n_off w i in
  (forall i, n_past w i = []) /\ first 0%nat = 5005 /\ first 1%nat = 7299 /\
  in_touch w 2 0 tr 5005 10300 1000 100 /\
  (forall i ev q, In (i, ev) tr -> call ev <> OSetEffect q) /\
  (forall i ev p, In (i, ev) tr -> accepted ev p -> ptype p = 0 \/ ptype p = 2) /\
  6005 + 2000 + 2 * 1000 + 2 * 100 < 10300 /\
  (forall y, In (0%nat, y) tr -> 6005 < global w 0 y -> ~ own_change y) /\
  hist (n_env w 1%nat) (n_start w 1%nat) (calls_at 1 tr) n /\
  hist (n_env w 0%nat) (n_start w 0%nat) (calls_at 0 tr) nm /\
  n_off w 1%nat = 500 /\ GetEffectIndex n = 1 /\ GetNetworkMillis 10800 n = 10250 /\ GetNetworkMillis 10300 nm = 10300.
Proof.
  run_as H0 (env0 Arduino) 0 [(100, OTick None); (5900, OTick None); (5990, OTick (Some (heartbeat_pkt 24 5900)));
    (6800, OTick None); (7000, OTick None); (7950, OTick None); (8100, OTick None); (9050, OTick None); (9200, OTick None);
    (10000, OTick None)].
  run_as H1 (env_const Arduino 1999%N) 800 [(6450, OTick (Some (heartbeat_pkt 24 5900)));
    (7550, OTick (Some (heartbeat_pkt 41 7000))); (8500, OTick (Some (effect_pkt 58 1 0 0)));
    (8650, OTick (Some (heartbeat_pkt 75 8100))); (9750, OTick (Some (heartbeat_pkt 92 9200)));
    (10550, OTick (Some (effect_pkt 109 1 0 0)))].
  run_as H2 (env0 Arduino) 0 (@nil (Z * op)).
  match type of H0 with hist _ _ [?z; ?a; ?b; ?c; ?d; ?f; ?g; ?h; ?i; ?j] ?nm =>
  match type of H1 with hist _ _ [?q; ?r; ?s; ?t; ?u; ?v] ?n =>
    set (Z0 := z) in *; set (A := a) in *; set (B := b) in *; set (C := c) in *; set (D := d) in *; set (F := f) in *; set (G := g) in *;
    set (HH := h) in *; set (II := i) in *; set (JJ := j) in *;
    set (Q := q) in *; set (R := r) in *; set (S := s) in *; set (T := t) in *; set (U := u) in *; set (V := v) in *;
    exists (mkNetwork (fun w0 => match w0 with 1%nat => env_const Arduino 1999%N | _ => env0 Arduino end)
      (fun w0 => match w0 with 1%nat => 800 | _ => 0 end)
      (fun w0 => match w0 with 1%nat => 500 | _ => 0 end) (fun _ => [])),
      [(0%nat, Z0); (0%nat, A); (1%nat, Q); (0%nat, B); (0%nat, C); (0%nat, D); (1%nat, R); (0%nat, F); (1%nat, S); (0%nat, G);
       (1%nat, T); (0%nat, HH); (0%nat, II); (1%nat, U); (0%nat, JJ); (1%nat, V)], n, nm
  end end.
  cbv zeta.
  split; [reflexivity|]. split; [reflexivity|]. split; [reflexivity|].
  split; [constructor|].
  { intros [|[|i]].
    - split; [eexists; exact H0|]. intros x p I K. repeat (destruct I as [<-|I]; [discriminate K|]). destruct I.
    - split; [eexists; exact H1|]. intros x p I K. repeat (destruct I as [<-|I]; [discriminate K|]). destruct I.
    - split; [eexists; exact H2|]. intros x p []. }
  { intros a i u b j v c E.
    repeat (destruct a as [|? a]; [injection E as <- <- E;
       repeat (destruct b as [|? b]; [injection E as <- <- E; vm_compute; congruence|injection E as _ E]);
       try (destruct b; discriminate E)|injection E as _ E]); destruct a; discriminate E. }
  { intros i ev I. repeat (destruct I as [I|I]; [injection I as <- <-; split; [lia|vm_compute; congruence]|]). destruct I. }
  { intros i ev []. }
  { intros [|[|i]] L; [| |lia]; (split; [reflexivity|]); intros x I; repeat (destruct I as [<-|I]; [reflexivity|]); destruct I. }
  { intros x L L2.
    assert (X : x < 5900 \/ 5900 <= x < 6800 \/ 6800 <= x < 7000 \/ 7000 <= x < 7950 \/ 7950 <= x < 8100 \/ 8100 <= x < 9050 \/ 9050 <= x < 9200 \/ 9200 <= x) by lia.
    destruct X as [X|[X|[X|[X|[X|[X|[X|X]]]]]]]; [exists A|exists C|exists D|exists F|exists G|exists HH|exists II|exists JJ]; (split; [cbn [In]; auto 30|]);
      (split; [split; [eexists; reflexivity|intros p I; cbn in I; intuition discriminate]|]); unfold global; cbn; lia. }
  { intros y p i I O Ty Ni Nm Ut. destruct i as [|[|i]]; [congruence| |lia].
    destruct O as (s & Ip).
    repeat (destruct I as [I|I]; [first [discriminate I|injection I as <-];
      cbn in Ip; first [exfalso; intuition discriminate|destruct Ip as [Ip|[]]; injection Ip as <- <-];
      first [eexists Q, _; split; [cbn [In]; auto 30|]; split; [split; [reflexivity|left; reflexivity]|]; split; [split; reflexivity|vm_compute; split; congruence]
            |eexists R, _; split; [cbn [In]; auto 30|]; split; [split; [reflexivity|left; reflexivity]|]; split; [split; reflexivity|vm_compute; split; congruence]
            |eexists S, _; split; [cbn [In]; auto 30|]; split; [split; [reflexivity|left; reflexivity]|]; split; [split; reflexivity|vm_compute; split; congruence]
            |eexists T, _; split; [cbn [In]; auto 30|]; split; [split; [reflexivity|left; reflexivity]|]; split; [split; reflexivity|vm_compute; split; congruence]
            |eexists U, _; split; [cbn [In]; auto 30|]; split; [split; [reflexivity|left; reflexivity]|]; split; [split; reflexivity|vm_compute; split; congruence]
            |eexists V, _; split; [cbn [In]; auto 30|]; split; [split; [reflexivity|left; reflexivity]|]; split; [split; reflexivity|vm_compute; split; congruence]]|]).
    destruct I. }
  { intros a i ev b p E [Ca Fw] Tp. exists 0%nat.
    repeat (destruct a as [|? a]; [injection E as <- <- E; first [discriminate Ca|injection Ca as <-; cbn in Fw;
       first [exfalso; intuition discriminate|idtac]];
       first [eexists A, _; split; [discriminate|]; split; [cbn [In]; auto 30|]; split; [eexists; left; reflexivity|]; split; [split; reflexivity|vm_compute; split; congruence]
             |eexists D, _; split; [discriminate|]; split; [cbn [In]; auto 30|]; split; [eexists; left; reflexivity|]; split; [split; reflexivity|vm_compute; split; congruence]
             |eexists F, _; split; [discriminate|]; split; [cbn [In]; auto 30|]; split; [eexists; left; reflexivity|]; split; [split; reflexivity|vm_compute; split; congruence]
             |eexists G, _; split; [discriminate|]; split; [cbn [In]; auto 30|]; split; [eexists; left; reflexivity|]; split; [split; reflexivity|vm_compute; split; congruence]
             |eexists II, _; split; [discriminate|]; split; [cbn [In]; auto 30|]; split; [eexists; left; reflexivity|]; split; [split; reflexivity|vm_compute; split; congruence]
             |eexists JJ, _; split; [discriminate|]; split; [cbn [In]; auto 30|]; split; [eexists; left; reflexivity|]; split; [split; reflexivity|vm_compute; split; congruence]]
       |injection E as ? E; subst]); destruct a; discriminate E. }
  split.
  { intros i ev q I C0. repeat (destruct I as [I|I]; [injection I as <- <-; discriminate C0|]). destruct I. }
  split.
  { intros i ev p I [C0 _]. repeat (destruct I as [I|I]; [injection I as <- <-; first [discriminate C0|injection C0 as <-; cbn; auto]|]). destruct I. }
  split; [lia|].
  split.
  { intros y I L (p & Ip). repeat (destruct I as [I|I]; [first [discriminate I|injection I as <-]; cbn in Ip; intuition discriminate|]). destruct I. }
  split; [exact H1|]. split; [exact H0|]. repeat split.
Qed.
