(** Two nodes: C40 and C41. *)
From Coq Require Import ZArith Lia List Bool.
From Coq Require Import ZifyBool.
From Verif Require Import CInt CIntFacts Packet SpecPacket PacketFacts NetMgr NetHist SpecNet NetFacts Rsm RsmStep RsmEval RsmHist SpecRsm RsmFacts RsmTime RoleFacts RsmRun PropRole PropHeartbeat.
Import ListNotations.
Open Scope Z_scope.
Ltac Zify.zify_post_hook ::= Z.div_mod_to_equations.

Lemma by_site_dec s ev : by_site s ev \/ ~ by_site s ev.
Proof.
  assert (D : forall s s' : site, {s = s'} + {s <> s'}) by decide equality.
  unfold by_site. induction (sent ev) as [|x l IH].
  - right. intros (p & []).
  - destruct IH as [(p & I)|N]; [left; exists p; right; exact I|].
    destruct x as [p|s' p].
    + right. intros (q & [E|I]); [discriminate|]. apply N. eauto.
    + destruct (D s s') as [->|Ns]; [left; exists p; left; reflexivity|].
      right. intros (q & [E|I]); [inversion E; congruence|]. apply N. eauto.
Qed.

(** A window without heartbeat, or the latest heartbeat. *)
Lemma window_dec h (x : Z) :
  (exists y, In y h /\ by_site ByHeartbeat y /\ x < at_ y) \/
  (forall y, In y h -> by_site ByHeartbeat y -> at_ y <= x).
Proof.
  induction h as [|a h IH]; [right; intros y []|].
  destruct IH as [(y & I & B & L)|N]; [left; exists y; repeat split; auto; right; auto|].
  destruct (by_site_dec ByHeartbeat a) as [B|B].
  - destruct (Z_lt_ge_dec x (at_ a)).
    + left. exists a. repeat split; auto. left; auto.
    + right. intros y [<-|I] By; [lia|auto].
  - right. intros y [<-|I] By; [contradiction|auto].
Qed.

Lemma role_chain e t0 h1 m0 h2 n : hist e t0 (h1 ++ m0 :: h2) n -> role_after m0 = Master ->
  (forall x, In x h2 -> role_after x = Master) ->
  forall k1 y k2, h2 = k1 ++ y :: k2 -> role_before y = Master.
Proof.
  intros H R Q k1 y k2 ->.
  assert (Hp : exists m, hist e t0 ((h1 ++ m0 :: k1) ++ [y]) m).
  { apply (hist_prefix e t0 ((h1 ++ m0 :: k1) ++ [y]) k2 n). rewrite <- !app_assoc. cbn.
    rewrite app_comm_cons. cbn. rewrite <- ?app_assoc. cbn. exact H. }
  destruct Hp as [m Hp]. apply hist_last in Hp as (Hp & _ & _ & _ & _ & _ & S).
  destruct k1 as [|z k1 _] using rev_ind.
  - apply hist_last in Hp as (_ & E & _). unfold role_before, GetCurrentState. rewrite E. exact R.
  - rewrite app_comm_cons, app_assoc in Hp. apply hist_last in Hp as (_ & E & _).
    unfold role_before, GetCurrentState. rewrite E. apply (Q z). apply in_or_app; left. apply in_or_app; right; left; reflexivity.
Qed.

(** Heartbeats are sent by masters, in ticks that find no packet. *)
Lemma heartbeat_call e t0 h ev : history e t0 (h ++ [ev]) -> api_ok (h ++ [ev]) -> own_heartbeat ev ->
  role_after ev = Master /\ packet_free ev.
Proof.
  intros [n H] A O. assert (B : by_site ByHeartbeat ev).
  { eapply heartbeat_site_in; eauto. apply in_or_app; right; left; reflexivity. }
  pose proof (by_site_tick e t0 _ _ _ (ex_intro _ _ H) B ltac:(discriminate)) as [inc C].
  apply hist_last in H as (H & -> & G & Oo & L1 & L2 & S). rewrite (step_packet_free e ev S).
  pose proof (tick_step _ _ _ C S) as T. destruct B as (p & Ip).
  unfold role_after, GetCurrentState in *. destruct ev as [t o a b out]; proj.
  destruct T; proj; cbn in Ip; try (exfalso; intuition congruence); (split; [try reflexivity; try congruence|eauto]).
Qed.

Lemma takeover_heartbeat e ev : stepR e (u32 (at_ ev)) (before ev) (call ev) (sent ev) (after ev) ->
  took_over ev -> own_heartbeat ev.
Proof.
  intros S [R0 R1]. unfold role_before, role_after, GetCurrentState, own_heartbeat, originated in *.
  destruct ev as [t o a b out]; proj. destruct S as [inc out b Tk|q Rq|v|v]; proj; try congruence.
  destruct Tk; proj; try congruence. eexists. split; [eexists; left; reflexivity|]. reflexivity.
Qed.

(** C40.  Node m sends a heartbeat (call m0, global time g) and stays master (calls
    h2).  Clocks may differ: global time is local time minus offm or offs.  Up to
    the global time T of the slave's call ev,
    - m has a packet-free radio tick in every interval of P ms;
    - each heartbeat m originates is accepted by the slave within D ms (the
      slave accepts a heartbeat or claim, from m or a relay of it or anybody).
    Then the slave does not become master later than D ms after g. *)
Theorem C40_bounded_network_keeps_its_master em t0m h1 m0 h2 es t0s hs ev offm offs P D :
  let g := at_ m0 - offm in let T := at_ ev - offs in
  history em t0m (h1 ++ m0 :: h2) -> api_ok (h1 ++ m0 :: h2) ->
  all_before (wrap - 7000) t0m (h1 ++ m0 :: h2) ->
  history es t0s (hs ++ [ev]) -> all_before (wrap - 7000) t0s (hs ++ [ev]) ->
  own_heartbeat m0 -> (forall x, In x h2 -> role_after x = Master) ->
  0 <= P -> 0 <= D -> 1000 + P + D <= 5000 ->
  (forall x, g <= x -> x + P < T ->
     exists y, In y h2 /\ packet_free y /\ x < at_ y - offm <= x + P) ->
  (forall y, In y (m0 :: h2) -> own_heartbeat y -> at_ y - offm + D < T ->
     exists c, In c hs /\ contact c /\ at_ y - offm <= at_ c - offs <= at_ y - offm + D) ->
  took_over ev -> T <= g + D.
Proof.
  intros g T Hm Am Bm Hs Bs TO Q P0 D0 PD Dense Deliv TOs.
  destruct (C17_takeover_only_after_silence _ _ _ _ Hs Bs TOs) as [_ Sil].
  destruct Hm as [nm Hm].
  destruct (Z_le_gt_dec T (g + D)) as [|Gt]; [assumption|exfalso].
  assert (HB : forall y, In y (m0 :: h2) -> own_heartbeat y <-> by_site ByHeartbeat y).
  { intros y I. eapply heartbeat_site_in; eauto. apply in_or_app; right; exact I. }
  assert (B0 : by_site ByHeartbeat m0).
  { apply HB; [left; reflexivity|exact TO]. }
  assert (R1 : role_after m0 = Master).
  { assert (Hp : exists m, hist em t0m (h1 ++ [m0]) m).
    { rewrite cons_snoc in Hm. eapply hist_prefix; exact Hm. }
    apply (heartbeat_call em t0m h1 m0 Hp); [|exact TO]. rewrite cons_snoc in Am. eapply api_ok_app; eauto. }
  destruct (Z_le_gt_dec T (g + 5000)) as [Near|Far].
  - destruct (Deliv m0) as (c & Ic & Cc & Lc); [left; reflexivity|apply HB; [left; reflexivity|exact B0]|unfold g in *; lia|].
    specialize (Sil c Ic (or_introl Cc)). unfold g, T in *. lia.
  - (* a packet-free tick 1000 .. 1000+P after T - 5001 *)
    destruct (Dense (T - 5001 + 1000)) as (y & Iy & Fy & Ly); [lia|lia|].
    apply in_split in Iy as (k1 & k2 & Ek).
    assert (Hy : exists m, hist em t0m ((h1 ++ m0 :: k1) ++ [y]) m).
    { apply (hist_prefix em t0m _ k2 nm). rewrite Ek in Hm. rewrite <- !app_assoc. cbn. exact Hm. }
    assert (Sub : forall z, In z ((h1 ++ m0 :: k1) ++ [y]) -> In z (h1 ++ m0 :: h2)).
    { intros z I. rewrite Ek. apply in_app_or in I as [I|[<-|[]]].
      - apply in_app_or in I as [I|[<-|I]]; apply in_or_app; [left; auto|right; left; auto|right; right; apply in_or_app; left; auto].
      - apply in_or_app; right; right; apply in_or_app; right; left; auto. }
    assert (Ry : role_before y = Master).
    { eapply role_chain; [exact Hm|exact R1|exact Q|exact Ek]. }
    destruct Bm as [Bm0 Bm1].
    (* some heartbeat in the window (T-5001, T-5001+1000+P] *)
    assert (W : exists z, In z (m0 :: h2) /\ own_heartbeat z /\ T - 5001 < at_ z - offm <= T - 5001 + 1000 + P).
    { destruct Hy as [ny Hy].
      destruct (window_dec (h1 ++ m0 :: k1) (T - 5001 + offm)) as [(z & Iz & Bz & Lz)|N].
      - assert (Lzy : at_ z <= at_ y).
        { pose proof Hy as Hy'. apply hist_last in Hy' as (_ & _ & _ & _ & _ & L2 & _). apply L2; exact Iz. }
        exists z. assert (Iz2 : In z (m0 :: k1)).
        { apply in_app_or in Iz as [Iz|Iz]; [exfalso|exact Iz].
          assert (Hord : at_ z <= at_ m0).
          { assert (Hp : exists m, hist em t0m (h1 ++ [m0]) m).
            { rewrite cons_snoc in Hm. eapply hist_prefix; exact Hm. }
            destruct Hp as [m Hp]. apply hist_last in Hp as (_ & _ & _ & _ & _ & L2 & _). apply L2; exact Iz. }
          unfold g in *. lia. }
        assert (Iz3 : In z (m0 :: h2)).
        { rewrite Ek. destruct Iz2 as [<-|Iz2]; [left; auto|right; apply in_or_app; left; auto]. }
        split; [exact Iz3|]. split; [apply HB; auto|]. lia.
      - assert (Iy : In y (m0 :: h2)) by (rewrite Ek; right; apply in_or_app; right; left; reflexivity).
        exists y. split; [exact Iy|]. split; [|lia].
        apply (C20_heartbeat_due_is_sent em t0m (h1 ++ m0 :: k1) y); auto.
        + eexists; exact Hy.
        + intros z q I. apply Am. apply Sub; exact I.
        + split; [exact Bm0|]. intros z I. apply Bm1. apply Sub; exact I.
        + intros z I Oz.
          assert (Bz : by_site ByHeartbeat z).
          { eapply heartbeat_site_in; [exact Hm|exact Am| |exact Oz]. apply Sub. apply in_or_app; left; exact I. }
          specialize (N z I Bz). lia. }
    destruct W as (z & Iz & Oz & Lz).
    destruct (Deliv z Iz Oz) as (c & Ic & Cc & Lc); [lia|].
    specialize (Sil c Ic (or_introl Cc)). unfold T in *. lia.
Qed.
Print Assumptions C40_bounded_network_keeps_its_master.

(** A pair that meets all hypotheses up to a time well after D (clocks 500 ms
    apart, P = 1500, D = 100): the slave's tick at the end does not take over. *)
Example C40_example : exists h1 m0 h2 hs ev,
  history (env0 Arduino) 0 (h1 ++ m0 :: h2) /\ api_ok (h1 ++ m0 :: h2) /\
  all_before (wrap - 7000) 0 (h1 ++ m0 :: h2) /\
  history (env_const Arduino 0%N) 0 (hs ++ [ev]) /\ all_before (wrap - 7000) 0 (hs ++ [ev]) /\
  own_heartbeat m0 /\ (forall x, In x h2 -> role_after x = Master) /\
  (forall x, at_ m0 - 0 <= x -> x + 1500 < at_ ev - 500 ->
     exists y, In y h2 /\ packet_free y /\ x < at_ y - 0 <= x + 1500) /\
  (forall y, In y (m0 :: h2) -> own_heartbeat y -> at_ y - 0 + 100 < at_ ev - 500 ->
     exists c, In c hs /\ contact c /\ at_ y - 0 <= at_ c - 500 <= at_ y - 0 + 100) /\
  at_ m0 - 0 + 100 < at_ ev - 500 /\ packet_free ev /\ role_before ev = Slave.
Proof.
  run_as H (env0 Arduino) 0 [(7000, OTick None); (8100, OTick None); (8200, OTick None); (9200, OTick None); (9900, OTick None)].
  run_as K (env_const Arduino 0%N) 0 [(4000, OTick (Some (heartbeat_pkt 77 3500)));
    (7550, OTick (Some (heartbeat_pkt 24 7000))); (8650, OTick (Some (heartbeat_pkt 41 8100)));
    (9750, OTick (Some (heartbeat_pkt 58 9200))); (10500, OTick None)].
  match type of H with hist _ _ [?a; ?b; ?c; ?d; ?f] _ => exists [], a, [b; c; d; f] end.
  match type of K with hist _ _ [?a; ?b; ?c; ?d; ?f] _ => exists [a; b; c; d], f end.
  split; [eexists; exact H|].
  split; [intros x p I C; repeat (destruct I as [<-|I]; [discriminate C|]); destruct I|].
  split; [split; [reflexivity|intros x I; repeat (destruct I as [<-|I]; [reflexivity|]); destruct I]|].
  split; [eexists; exact K|].
  split; [split; [reflexivity|intros x I; repeat (destruct I as [<-|I]; [reflexivity|]); destruct I]|].
  split; [eexists; split; [eexists; left; reflexivity|reflexivity]|].
  split; [intros x I; repeat (destruct I as [<-|I]; [reflexivity|]); destruct I|].
  split; [|split; [|split; [reflexivity|split; [split; [eexists; reflexivity|intros q []]|reflexivity]]]].
  - intros x. cbn [at_]. intros L1 L2.
    destruct (Z_lt_ge_dec x 8100).
    + eexists. split; [left; reflexivity|]. split; [split; [eexists; reflexivity|intros q I; cbn in I; intuition discriminate]|]. cbn [at_]. lia.
    + eexists. split; [right; right; left; reflexivity|]. split; [split; [eexists; reflexivity|intros q I; cbn in I; intuition discriminate]|]. cbn [at_]. lia.
  - intros y I O L. destruct I as [<-|[<-|[<-|[<-|[<-|[]]]]]]; cbn [at_] in *.
    + eexists. split; [right; left; reflexivity|]. split; [|cbn [at_]; lia].
      eexists. split; [split; [reflexivity|left; reflexivity]|left; reflexivity].
    + eexists. split; [right; right; left; reflexivity|]. split; [|cbn [at_]; lia].
      eexists. split; [split; [reflexivity|left; reflexivity]|left; reflexivity].
    + destruct O as (p & (s & []) & P).
    + eexists. split; [right; right; right; left; reflexivity|]. split; [|cbn [at_]; lia].
      eexists. split; [split; [reflexivity|left; reflexivity]|left; reflexivity].
    + destruct O as (p & (s & [X|[]]) & P). inversion X; subst. discriminate P.
Qed.

(** C41.  Every packet node A accepted was transmitted by node B. *)
Definition hears_only (ha hb : list event) : Prop :=
  forall x p, In x ha -> accepted x p -> exists y t, In y hb /\ In t (sent y) /\ rtx_packet t = p.

(** Two masters hear each other's heartbeat: who stays master is decided by each
    node's own draw alone, so all four outcomes are possible. *)
Theorem C41_outcomes ea ta ha eva pb eb tb hb evb pa :
  history ea ta (ha ++ [eva]) -> history eb tb (hb ++ [evb]) ->
  role_before eva = Master -> role_before evb = Master ->
  accepted eva pb -> ptype pb = 0 -> accepted evb pa -> ptype pa = 0 ->
  let a := election_draw (plat ea) (draw ea (rng (before eva))) in
  let b := election_draw (plat eb) (draw eb (rng (before evb))) in
  (role_after eva = Master /\ role_after evb = Master <-> pid pb < a /\ pid pa < b) /\
  (role_after eva = Master /\ role_after evb = Slave <-> pid pb < a /\ b <= pid pa) /\
  (role_after eva = Slave /\ role_after evb = Master <-> a <= pid pb /\ pid pa < b) /\
  (role_after eva = Slave /\ role_after evb = Slave <-> a <= pid pb /\ b <= pid pa).
Proof.
  intros Ha Hb Ra Rb Aa Pa Ab Pb a b.
  destruct (C22_election _ _ _ _ _ Ha Aa Pa Ra) as [W1 L1].
  destruct (C22_election _ _ _ _ _ Hb Ab Pb Rb) as [W2 L2].
  fold a in W1, L1. fold b in W2, L2.
  destruct (Z_lt_ge_dec (pid pb) a) as [X|X]; [destruct (W1 X) as [E1 _]|destruct (L1 ltac:(lia)) as [E1 _]];
  (destruct (Z_lt_ge_dec (pid pa) b) as [Y|Y]; [destruct (W2 Y) as [E2 _]|destruct (L2 ltac:(lia)) as [E2 _]]);
  rewrite E1, E2; (split; [|split; [|split]]); split; intros [? ?]; (split; first [congruence|lia]).
Qed.
Print Assumptions C41_outcomes.

Definition env_list (pl : platform) (l : list N) : env := mkEnv pl (fun k => nth k l 0%N).

Ltac hears := let Hin := fresh "Hin" in let Hc := fresh "Hc" in
  intros ? ? Hin [Hc _];
  repeat (destruct Hin as [<-|Hin]; [first [discriminate Hc | inversion Hc; subst; do 2 eexists;
    first [ solve [split; [left; reflexivity|split; [left; reflexivity|reflexivity]]]
          | solve [split; [right; left; reflexivity|split; [left; reflexivity|reflexivity]]]
          | solve [split; [right; left; reflexivity|split; [right; left; reflexivity|reflexivity]]] ] ]|]); destruct Hin.

(** Exactly one master is not guaranteed: the election can leave none ... *)
Theorem C41_election_leaves_no_master_refuted :
  exists ea eb ha hb na nb, hist ea 0 ha na /\ hist eb 0 hb nb /\ hears_only ha hb /\ hears_only hb ha /\
    (exists x y, In x ha /\ In y hb /\ took_over x /\ took_over y) /\
    GetCurrentState na = Slave /\ GetCurrentState nb = Slave.
Proof.
  exists (env_list Arduino [0; 100; 0]%N), (env_list Arduino [0; 200; 0]%N).
  run_as H (env_list Arduino [0; 100; 0]%N) 0 [(7000, OTick None); (7010, OTick (Some (heartbeat_pkt 202 7000)))].
  run_as K (env_list Arduino [0; 200; 0]%N) 0 [(7000, OTick None); (7010, OTick (Some (heartbeat_pkt 102 7000)))].
  match type of H with hist _ _ ?h ?n => match type of K with hist _ _ ?k ?m => exists h, k, n, m end end.
  split; [exact H|]. split; [exact K|]. split; [hears|]. split; [hears|].
  split; [|split; reflexivity]. eexists _, _. split; [left; reflexivity|]. split; [left; reflexivity|].
  split; split; reflexivity.
Qed.
Print Assumptions C41_election_leaves_no_master_refuted.

(** ... or two (both win; their claims are not delivered by the device radio,
    see C07) ... *)
Theorem C41_election_leaves_two_masters_refuted :
  exists ea eb ha hb na nb, hist ea 0 ha na /\ hist eb 0 hb nb /\ hears_only ha hb /\ hears_only hb ha /\
    (exists x p, In x ha /\ accepted x p /\ ptype p = 0) /\ (exists x p, In x hb /\ accepted x p /\ ptype p = 0) /\
    (exists x p, In x ha /\ In (Own ByElection p) (sent x)) /\ (exists x p, In x hb /\ In (Own ByElection p) (sent x)) /\
    GetCurrentState na = Master /\ GetCurrentState nb = Master.
Proof.
  exists (env_list Arduino [0; 100; 1000]%N), (env_list Arduino [0; 200; 1000]%N).
  run_as H (env_list Arduino [0; 100; 1000]%N) 0 [(7000, OTick None); (7010, OTick (Some (heartbeat_pkt 202 7000)))].
  run_as K (env_list Arduino [0; 200; 1000]%N) 0 [(7000, OTick None); (7010, OTick (Some (heartbeat_pkt 102 7000)))].
  match type of H with hist _ _ ?h ?n => match type of K with hist _ _ ?k ?m => exists h, k, n, m end end.
  split; [exact H|]. split; [exact K|]. split; [hears|]. split; [hears|].
  split. { eexists _, _. split; [right; left; reflexivity|]. split; [split; [reflexivity|left; reflexivity]|reflexivity]. }
  split. { eexists _, _. split; [right; left; reflexivity|]. split; [split; [reflexivity|left; reflexivity]|reflexivity]. }
  split. { eexists _, _. split; [right; left; reflexivity|right; left; reflexivity]. }
  split. { eexists _, _. split; [right; left; reflexivity|right; left; reflexivity]. }
  split; reflexivity.
Qed.
Print Assumptions C41_election_leaves_two_masters_refuted.

(** ... and if both claims are delivered, both winners step down. *)
Theorem C41_claims_demote_both_refuted :
  exists ea eb ha hb na nb, hist ea 0 ha na /\ hist eb 0 hb nb /\ hears_only ha hb /\ hears_only hb ha /\
    (exists x p, In x ha /\ In (Own ByElection p) (sent x)) /\ (exists x p, In x hb /\ In (Own ByElection p) (sent x)) /\
    GetCurrentState na = Slave /\ GetCurrentState nb = Slave.
Proof.
  exists (env_list Host [0; 100; 1000; 300]%N), (env_list Host [0; 200; 1000; 400]%N).
  run_as H (env_list Host [0; 100; 1000; 300]%N) 0 [(7000, OTick None); (7010, OTick (Some (heartbeat_pkt 202 7000)));
    (7020, OTick (Some (mkPacket 402 1 0 (pdata (heartbeat_pkt 202 7000)))))].
  run_as K (env_list Host [0; 200; 1000; 400]%N) 0 [(7000, OTick None); (7010, OTick (Some (heartbeat_pkt 102 7000)));
    (7020, OTick (Some (mkPacket 302 1 0 (pdata (heartbeat_pkt 102 7000)))))].
  match type of H with hist _ _ ?h ?n => match type of K with hist _ _ ?k ?m => exists h, k, n, m end end.
  split; [exact H|]. split; [exact K|]. split; [hears|]. split; [hears|].
  split. { eexists _, _. split; [right; left; reflexivity|right; left; reflexivity]. }
  split. { eexists _, _. split; [right; left; reflexivity|right; left; reflexivity]. }
  split; reflexivity.
Qed.
Print Assumptions C41_claims_demote_both_refuted.
