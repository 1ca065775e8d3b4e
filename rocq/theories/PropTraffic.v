(** How much a node transmits: C147. *)
From Coq Require Import ZArith Lia List Bool.
From Coq Require Import ZifyBool.
From Verif Require Import CInt CIntFacts Packet SpecPacket PacketFacts NetMgr NetHist SpecNet NetFacts Rsm RsmStep RsmEval RsmHist SpecRsm RsmFacts RsmTime RoleFacts EffectFacts RsmRun.
Import ListNotations.
Open Scope Z_scope.
Ltac Zify.zify_post_hook ::= Z.div_mod_to_equations.

(** The calls in which a node accepted a packet or was told an effect by the program. *)
Definition is_relay (x : rtx) : bool := match x with Forwarded _ => true | Own _ _ => false end.
Definition addressed (ev : event) : bool :=
  match call ev with OSetEffect _ => true | _ => existsb is_relay (sent ev) end.

(** All that was handed to the radio in these calls, relayed packets included. *)
Definition transmissions (h : list event) : Z := Z.of_nat (length (concat (map sent h))).
Definition times_addressed (h : list event) : Z := Z.of_nat (length (filter addressed h)).

Lemma transmissions_snoc h ev : transmissions (h ++ [ev]) = transmissions h + Z.of_nat (length (sent ev)).
Proof. unfold transmissions. rewrite map_app, concat_app, app_length. cbn. rewrite app_nil_r. lia. Qed.
Lemma addressed_snoc h ev : times_addressed (h ++ [ev]) = times_addressed h + (if addressed ev then 1 else 0).
Proof. unfold times_addressed. rewrite filter_app, app_length. cbn. destruct (addressed ev); cbn; lia. Qed.

(** What the node sent by itself, without the packets it relayed. *)
Definition is_own (x : rtx) : bool := negb (is_relay x).
Definition originals (h : list event) : Z := Z.of_nat (length (filter is_own (concat (map sent h)))).

(** The calls in which it accepted a packet of one of the four kinds, and those in which it was
    told an effect by the program. *)
Definition news (ev : event) : bool :=
  existsb is_relay (sent ev) && match call ev with OTick (Some p) => ptype p <=? 3 | _ => false end.
Definition told (ev : event) : bool := match call ev with OSetEffect _ => true | _ => false end.
Definition count (f : event -> bool) (h : list event) : Z := Z.of_nat (length (filter f h)).

Lemma originals_app h h' : originals (h ++ h') = originals h + originals h'.
Proof. unfold originals. rewrite map_app, concat_app, filter_app, app_length. lia. Qed.
Lemma originals_snoc h ev : originals (h ++ [ev]) = originals h + Z.of_nat (length (filter is_own (sent ev))).
Proof. rewrite originals_app. unfold originals at 2. cbn. rewrite app_nil_r. reflexivity. Qed.
Lemma count_snoc f h ev : count f (h ++ [ev]) = count f h + (if f ev then 1 else 0).
Proof. unfold count. rewrite filter_app, app_length. cbn. destruct (f ev); cbn; lia. Qed.
Lemma heard_some n inc p : heard n inc = Some p -> inc = Some p.
Proof. unfold heard. destruct inc as [q|]; [destruct (existsb _ _); congruence|discriminate]. Qed.

(** [H] heartbeats, [R] repetitions and [K] changes of effect so far, the last of
    them at [lh], [lr] and [lk]; [J] counts the calls that may bring another change
    of effect, and [c] is 1 if the next change need not wait. *)
Record account (a : Z) (win : list event) (n : node) (H R K J c lh lr lk : Z) : Prop := mkAcc {
  ac_total : transmissions win <= H + R + K + 2 * times_addressed win - J;
  ac_own : originals win <= H + R + K + count news win + 2 * count told win - J;
  ac_h : H = 0 \/ 1001 * (H - 1) <= lh - a /\ lh + 1000 <= t_hb n;
  ac_r : R = 0 \/ 2001 * (R - 1) <= lr - a /\ lr + 2000 <= t_bc n;
  ac_k : 60001 * (K - J - 2 + (match state n with Slave => 1 | Master => 0 end) + c) <= lk - a;
  ac_c : c = 1 \/ c = 0 /\ (t_ce n = 0 \/ lk + 60000 <= t_ce n);
  ac_last : forall t, a <= t -> (forall ev, In ev win -> at_ ev <= t) -> lh <= t /\ lr <= t /\ lk <= t
}.

Lemma account_holds e t0 pre a win : forall n,
  hist e t0 (pre ++ win) n -> all_before (wrap - 60000) t0 (pre ++ win) ->
  (forall ev, In ev win -> a <= at_ ev) ->
  exists H R K J c lh lr lk, 0 <= H /\ 0 <= R /\ account a win n H R K J c lh lr lk.
Proof.
  induction win as [|ev win IH] using rev_ind; intros n Hn B A.
  - exists 0, 0, 0, 0, 1, a, a, a. split; [lia|]. split; [lia|].
    constructor; [vm_compute; discriminate|vm_compute; discriminate|auto|auto|destruct (state n); lia|auto|intros; lia].
  - rewrite app_assoc in Hn, B. pose proof (hist_t0 _ _ _ _ Hn) as P0.
    apply hist_last in Hn as (Hn & -> & G & O & L1 & L2 & S).
    apply all_before_last in B as [B Bt].
    destruct (IH _ Hn B ltac:(intros; apply A, in_or_app; auto)) as (H & R & K & J & c & lh & lr & lk & H0 & R0 & [Tot Own_ Hh Hr Hk Hc Hl]).
    assert (At : a <= at_ ev) by (apply A, in_or_app; right; left; reflexivity).
    destruct (Hl (at_ ev) At ltac:(intros; apply L2, in_or_app; auto)) as (Lh & Lr & Lk).
    assert (Keep : forall x y z, (x = lh \/ x = at_ ev) -> (y = lr \/ y = at_ ev) -> (z = lk \/ z = at_ ev) ->
      forall t, a <= t -> (forall v, In v (win ++ [ev]) -> at_ v <= t) -> x <= t /\ y <= t /\ z <= t).
    { intros x y z Ex Ey Ez t Ht Ft. destruct (Hl t Ht ltac:(intros; apply Ft, in_or_app; auto)) as (? & ? & ?).
      specialize (Ft ev ltac:(apply in_or_app; right; left; reflexivity)). lia. }
    clear IH.
    pose proof (addressed_snoc win ev) as Ad. unfold addressed in Ad.
    assert (Nw : count news (win ++ [ev]) = count news win +
      (if existsb is_relay (sent ev) && match call ev with OTick (Some p) => ptype p <=? 3 | _ => false end then 1 else 0))
      by exact (count_snoc news win ev).
    assert (Td : count told (win ++ [ev]) = count told win + (if (match call ev with OSetEffect _ => true | _ => false end) then 1 else 0))
      by exact (count_snoc told win ev).
    pose proof (g_hb _ G) as Ghb. pose proof (g_ce _ G) as Gce. pose proof (g_bc _ G) as Gbc.
    assert (U : u32 (at_ ev) = at_ ev) by (apply u32_id; unfold wrap in *; lia).
    assert (V : forall d, 0 <= d <= 60000 -> u32 (u32 (at_ ev) + d) = at_ ev + d)
      by (intros d Hd; apply (u32_small (at_ ev) d (wrap - 60000)); unfold wrap in *; lia).
    destruct ev as [t o m m' out]; proj. rewrite U in *.
    destruct S as [inc out m' T|q Rd|v|v]; proj.
    + destruct T; try match goal with X : heard _ inc = Some _ |- _ => apply heard_some in X; subst inc end;
      proj; cbn [length existsb is_relay orb andb] in *;
      repeat match goal with X : timer_due _ _ = true |- _ => apply timer_due_iff in X; [|lia] end;
      repeat match goal with X : state _ = _ |- _ => rewrite X in * end.
      1: exists H, R, K, J, c, lh, lr, lk.
      2: exists (H + 1), R, K, J, 1, t, lr, lk.
      3: exists (H + 1), R, K, J, c, t, lr, lk.
      4: exists H, R, (K + 1), J, 0, lh, lr, t.
      5: exists H, (R + 1), K, J, c, lh, t, lk.
      6-11: exists H, R, K, J, c, lh, lr, lk.
      12-13: exists H, R, K, (J + 1), c, lh, lr, lk.
      14-15: exists H, R, K, (J + 1), 1, lh, lr, lk.
      all: split; [lia|]; split; [lia|].
      all: constructor; proj; rewrite ?transmissions_snoc, ?originals_snoc, ?Ad, ?Nw, ?Td; proj; cbn [length filter existsb is_own negb is_relay orb andb]; [| | | | | |apply Keep; auto].
      all: types.
      all: try lia.
      all: try exact Hk.
      all: repeat match goal with X : state ?x = _ |- context [state ?x] => rewrite X end.
      all: pose proof (silence_range e m); pose proof (Z.mod_pos_bound (Z.of_N (draw e (S (rng m)))) 2000 ltac:(lia)).
      all: try (rewrite V by lia); try lia.
      all: match goal with |- context [ptype ?p <=? 3] => destruct (Z.leb_spec (ptype p) 3); lia end.
    + exists H, R, K, (J + 1), 1, lh, lr, lk. split; [lia|]. split; [lia|].
      constructor; rewrite ?transmissions_snoc, ?originals_snoc, ?Ad, ?Nw, ?Td; proj; cbn [length filter existsb is_own negb is_relay orb andb]; [lia|lia| | |cbn; lia|lia|apply Keep; auto]; cbn; lia.
    + exists H, R, K, J, c, lh, lr, lk. split; [lia|]. split; [lia|].
      constructor; rewrite ?transmissions_snoc, ?originals_snoc, ?Ad, ?Nw, ?Td; proj; cbn [length filter existsb andb]; [lia..|apply Keep; auto].
    + exists H, R, K, J, c, lh, lr, lk. split; [lia|]. split; [lia|].
      constructor; rewrite ?transmissions_snoc, ?originals_snoc, ?Ad, ?Nw, ?Td; proj; cbn [length filter existsb andb]; [lia..|apply Keep; auto].
Qed.

(** In any [T] ms a node hands the radio at most T/1001 heartbeats, T/2001 repetitions
    and T/60001 changes of effect, four more, and two for every call in which it
    accepts a packet or is told an effect.  No other assumption about what arrives. *)
Theorem C147_transmissions_bounded e t0 pre win a T :
  history e t0 (pre ++ win) -> all_before (wrap - 60000) t0 (pre ++ win) ->
  (forall ev, In ev win -> a <= at_ ev <= a + T) -> 0 <= T ->
  transmissions win <= T / 1001 + T / 2001 + T / 60001 + 4 + 2 * times_addressed win.
Proof.
  intros [n Hn] B W T0.
  destruct (account_holds e t0 pre a win n Hn B ltac:(intros; apply W; assumption))
    as (H & R & K & J & c & lh & lr & lk & H0 & R0 & [Tot Own_ Hh Hr Hk Hc Hl]).
  destruct (Hl (a + T) ltac:(lia) ltac:(intros; apply W; assumption)) as (Lh & Lr & Lk).
  assert (X1 : H <= T / 1001 + 1) by (destruct Hh; lia).
  assert (X2 : R <= T / 2001 + 1) by (destruct Hr; lia).
  assert (X3 : K - J <= T / 60001 + 2) by (destruct (state n); lia).
  lia.
Qed.
Print Assumptions C147_transmissions_bounded.

(** What it sends by itself: one more for every packet of the four kinds it accepts, two
    for every effect it is told. *)
Theorem C147_originals_bounded e t0 pre win a T :
  history e t0 (pre ++ win) -> all_before (wrap - 60000) t0 (pre ++ win) ->
  (forall ev, In ev win -> a <= at_ ev <= a + T) -> 0 <= T ->
  originals win <= T / 1001 + T / 2001 + T / 60001 + 4 + count news win + 2 * count told win.
Proof.
  intros [n Hn] B W T0.
  destruct (account_holds e t0 pre a win n Hn B ltac:(intros; apply W; assumption))
    as (H & R & K & J & c & lh & lr & lk & H0 & R0 & [Tot Own_ Hh Hr Hk Hc Hl]).
  destruct (Hl (a + T) ltac:(lia) ltac:(intros; apply W; assumption)) as (Lh & Lr & Lk).
  assert (X1 : H <= T / 1001 + 1) by (destruct Hh; lia).
  assert (X2 : R <= T / 2001 + 1) by (destruct Hr; lia).
  assert (X3 : K - J <= T / 60001 + 2) by (destruct (state n); lia).
  lia.
Qed.
Print Assumptions C147_originals_bounded.

(** So a node that nobody addresses transmits at most 92 packets in a minute, and less
    than 1.52 in a second on average, however its loop is timed. *)
Corollary C147_unaddressed_node e t0 pre win a T :
  history e t0 (pre ++ win) -> all_before (wrap - 60000) t0 (pre ++ win) ->
  (forall ev, In ev win -> a <= at_ ev <= a + T) -> 0 <= T ->
  (forall ev, In ev win -> (forall p, ~ accepted ev p) /\ forall p, call ev <> OSetEffect p) ->
  100000 * (transmissions win - 4) <= 152 * T /\ (T = 60000 -> transmissions win <= 92).
Proof.
  intros HH B W T0 Q. pose proof (C147_transmissions_bounded e t0 pre win a T HH B W T0) as X.
  assert (Z0 : times_addressed win = 0).
  { unfold times_addressed. replace (filter addressed win) with (@nil event); [reflexivity|]. symmetry.
    destruct (filter addressed win) as [|ev l] eqn:E; [reflexivity|].
    assert (I : In ev (filter addressed win)) by (rewrite E; left; reflexivity).
    apply filter_In in I as [I Ad]. destruct (Q ev I) as [Q1 Q2]. exfalso. clear E.
    destruct HH as [n H]. apply in_split in I as (l1 & l2 & ->).
    replace (pre ++ l1 ++ ev :: l2) with (((pre ++ l1) ++ [ev]) ++ l2) in H by (rewrite <- !app_assoc; reflexivity).
    apply hist_prefix in H as (n1 & H). apply hist_last in H as (_ & _ & _ & _ & _ & _ & S).
    unfold addressed in Ad. destruct ev as [t o m m' out]; proj.
    destruct S as [inc out m' Tk|q Rd|v|v]; proj; try discriminate Ad; [|apply (Q2 q); reflexivity].
    destruct Tk; proj; cbn in Ad; try discriminate Ad;
    match goal with X : heard _ ?inc = Some ?p |- _ => apply (Q1 p); unfold accepted; proj; split; [|left; reflexivity];
      unfold heard in X; destruct inc as [q|]; [destruct (existsb _ _); congruence|discriminate X] end. }
  rewrite Z0 in X. split; [lia|]. intros ->. change (60000 / 1001) with 59 in X. change (60000 / 2001) with 29 in X.
  change (60000 / 60001) with 0 in X. lia.
Qed.
Print Assumptions C147_unaddressed_node.

(** A node that takes over: five packets in 2003 ms, the bound being seven. *)
Example C147_example : exists pre win n, hist (env0 Arduino) 0 (pre ++ win) n /\
  (forall ev, In ev win -> 70000 <= at_ ev <= 70000 + 2003) /\
  transmissions win = 5 /\ times_addressed win = 0.
Proof.
  run_as H (env0 Arduino) 0 [(100, OTick None); (70000, OTick None); (70002, OTick None); (71001, OTick None);
    (72001, OTick None); (72003, OTick None)].
  match type of H with hist _ _ [?a; ?b; ?c; ?d; ?f; ?g] _ => exists [a], [b; c; d; f; g] end.
  eexists. split; [exact H|]. split; [|split; reflexivity].
  intros ev I. repeat (destruct I as [<-|I]; [cbn; lia|]). destruct I.
Qed.

(** The two for every packet accepted are needed: a master that hears five rivals with low
    numbers within a millisecond transmits ten packets, which is more than 4 + 5. *)
Example C147_example_rivals : exists pre win n, hist (env0 Arduino) 0 (pre ++ win) n /\
  (forall ev, In ev win -> 7500 <= at_ ev <= 7500 + 1) /\
  transmissions win = 10 /\ times_addressed win = 5.
Proof.
  run_as H (env0 Arduino) 0 [(7000, OTick None); (7500, OTick (Some (heartbeat_pkt 2 100))); (7500, OTick (Some (heartbeat_pkt 3 100)));
    (7501, OTick (Some (heartbeat_pkt 4 100))); (7501, OTick (Some (heartbeat_pkt 5 100))); (7501, OTick (Some (heartbeat_pkt 6 100)))].
  match type of H with hist _ _ [?a; ?b; ?c; ?d; ?f; ?g] _ => exists [a], [b; c; d; f; g] end.
  eexists. split; [exact H|]. split; [|split; reflexivity].
  intros ev I. repeat (destruct I as [<-|I]; [cbn; lia|]). destruct I.
Qed.
