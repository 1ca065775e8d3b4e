(** Proofs about flooding. *)
From Coq Require Import ZArith Lia List Bool PeanoNat.
From Verif Require Import CInt CIntFacts Packet NetMgr NetHist SpecNet NetFacts Flood SpecFlood.
Import ListNotations.
Open Scope Z_scope.

Definition txs_by (i : nat) (log : list (nat * tx)) : list tx :=
  map snd (filter (fun e => Nat.eqb (fst e) i) log).

Lemma ids_by_txs i log : ids_by i log = ids_of (txs_by i log).
Proof. unfold ids_by, ids_of, txs_by. rewrite map_map. reflexivity. Qed.

Lemma txs_by_app i a b : txs_by i (a ++ b) = txs_by i a ++ txs_by i b.
Proof. unfold txs_by. rewrite filter_app, map_app. reflexivity. Qed.

Lemma txs_by_pair i j l : txs_by i (map (pair j) l) = if Nat.eqb j i then l else [].
Proof.
  unfold txs_by. induction l; cbn; [destruct (Nat.eqb j i); reflexivity|].
  destruct (Nat.eqb j i); cbn; congruence.
Qed.

Lemma ids_by_app i a b : ids_by i (a ++ b) = ids_by i a ++ ids_by i b.
Proof. rewrite !ids_by_txs, txs_by_app, ids_of_app. reflexivity. Qed.

Lemma originated_app a b : originated (a ++ b) = originated a ++ originated b.
Proof. apply flat_map_app. Qed.

Definition all_ids (log : list (nat * tx)) : list Z := map (fun e => pid (tx_packet (snd e))) log.

Record flood_inv (n : nat) (w : world) : Prop := {
  fi_len : length (nodes w) = n;
  fi_nodes : forall i m, nth_error (nodes w) i = Some m -> nm_inv m (txs_by i (air w));
  fi_from : forall e, In e (air w) -> (fst e < n)%nat;
  fi_ids : forall x, In x (all_ids (air w)) -> In x (originated (air w))
}.

Lemma flood_inv_init n : flood_inv n (world_init n).
Proof.
  split; cbn.
  - apply repeat_length.
  - intros i m H. apply nth_error_In, repeat_spec in H. subst. apply nm_inv_init.
  - tauto.
  - tauto.
Qed.

Lemma nth_error_list_set {A} (l : list A) i j v w :
  nth_error (list_set l i v) j = Some w ->
  (i = j /\ w = v) \/ (i <> j /\ nth_error l j = Some w).
Proof.
  revert i j; induction l as [|a l IH]; intros [|i] [|j]; cbn; intros H; try discriminate.
  - inversion H; auto.
  - right; split; [lia|auto].
  - right; split; [lia|auto].
  - destruct (IH _ _ H) as [[-> ->]|[? ?]]; [left; auto|right; split; [lia|auto]].
Qed.

(** One step: the world stays well-formed and the log only grows. *)
Lemma flood_step pl n w ev : flood_inv n w ->
  exists w' new, world_step pl w ev = Ok w' /\ flood_inv n w' /\ air w' = air w ++ new /\
    (new = [] \/
     (exists i p, ev = Originate i p (match ev with Originate _ _ r => r | _ => 0%N end) /\
        exists q, new = [(i, Orig q)]) \/
     (exists i q, new = [(i, Relay q)] /\ ~ In (pid q) (last5 (ids_by i (air w))) /\
        In (pid q) (all_ids (air w)))).
Proof.
  intros Hinv. destruct ev as [i p raw|i k]; cbn.
  - destruct (nth_error (nodes w) i) as [m|] eqn:En.
    2:{ exists w, []. split; [reflexivity|]. split; [exact Hinv|]. split; [symmetry; apply app_nil_r | left; reflexivity]. }
    pose proof (fi_nodes n w Hinv i m En) as Hm.
    destruct (nm_send_inv pl raw m _ p Hm) as (id & m' & Es & _ & Hi). rewrite Es; cbn.
    set (q := {| pid := id; ptype := ptype p; dlen := dlen p; pdata := pdata p |}) in *.
    do 2 eexists. split; [reflexivity|]. cbn [air nodes].
    assert (Hlt : (i < n)%nat).
    { rewrite <- (fi_len n w Hinv). apply nth_error_Some. congruence. }
    split; [|split; [reflexivity|right; left; eauto]].
    split; cbn [nodes air].
    + rewrite list_set_length. apply Hinv.
    + intros j mm Hj. apply nth_error_list_set in Hj. rewrite txs_by_app.
      change [(i, Orig q)] with (map (pair i) [Orig q]). rewrite txs_by_pair.
      destruct Hj as [[<- ->]|[Hne Hj]].
      * rewrite Nat.eqb_refl. exact Hi.
      * apply Nat.eqb_neq in Hne. rewrite Hne, app_nil_r. apply (fi_nodes n w Hinv); auto.
    + intros e He. apply in_app_or in He. destruct He as [He|[<-|[]]]; [eapply fi_from; eauto|exact Hlt].
    + intros x Hx. unfold all_ids in Hx. rewrite map_app in Hx. rewrite originated_app.
      apply in_or_app. apply in_app_or in Hx. destruct Hx as [Hx|[<-|[]]].
      * left. apply (fi_ids n w Hinv); auto.
      * right; cbn; auto.
  - destruct (nth_error (nodes w) i) as [m|] eqn:En.
    2:{ exists w, []. split; [reflexivity|]. split; [exact Hinv|]. split; [symmetry; apply app_nil_r | left; reflexivity]. }
    destruct (nth_error (air w) k) as [[j t]|] eqn:Ek.
    2:{ exists w, []. split; [reflexivity|]. split; [exact Hinv|]. split; [symmetry; apply app_nil_r | left; reflexivity]. }
    pose proof (fi_nodes n w Hinv i m En) as Hm.
    destruct (nm_receive_inv m _ (Some (tx_packet t)) Hm) as (r & m' & out & Er & Hi & C).
    cbn in Er. rewrite Er; cbn.
    assert (Hid : In (pid (tx_packet t)) (all_ids (air w))).
    { apply nth_error_In in Ek. unfold all_ids. apply in_map_iff. exists (j, t). auto. }
    assert (Hlt : (i < n)%nat).
    { rewrite <- (fi_len n w Hinv). apply nth_error_Some. congruence. }
    do 2 eexists. split; [reflexivity|]. cbn [air nodes]. split; [|split; [reflexivity|]].
    2:{ destruct C as [(A & -> & -> & ->)|(A & -> & ->)]; [left; reflexivity|].
        right; right. exists i, (tx_packet t). rewrite ids_by_txs. auto. }
    split; cbn [nodes air].
    + rewrite list_set_length. apply Hinv.
    + intros j' mm Hj. apply nth_error_list_set in Hj. rewrite txs_by_app, txs_by_pair.
      destruct Hj as [[<- ->]|[Hne Hj]].
      * rewrite Nat.eqb_refl. exact Hi.
      * apply Nat.eqb_neq in Hne. rewrite Hne, app_nil_r. apply (fi_nodes n w Hinv); auto.
    + intros e He. apply in_app_or in He. destruct He as [He|He]; [eapply fi_from; eauto|].
      apply in_map_iff in He. destruct He as (? & <- & _). exact Hlt.
    + intros x Hx. unfold all_ids in Hx. rewrite map_app in Hx. rewrite originated_app.
      apply in_or_app. apply in_app_or in Hx. destruct Hx as [Hx|Hx].
      * left. apply (fi_ids n w Hinv); auto.
      * left. apply (fi_ids n w Hinv). destruct C as [(_ & _ & -> & _)|(_ & _ & ->)]; cbn in Hx;
          [tauto|]. destruct Hx as [<-|[]]. exact Hid.
Qed.

Lemma flood_total pl n sched : forall w, flood_inv n w ->
  exists w', world_run pl w sched = Ok w' /\ flood_inv n w' /\ exists new, air w' = air w ++ new.
Proof.
  induction sched as [|ev sched IH]; intros w H; cbn.
  - exists w. split; [reflexivity|]. split; [exact H|]. exists []. rewrite app_nil_r. reflexivity.
  - destruct (flood_step pl n w ev H) as (w1 & new & E & H1 & A1 & _). rewrite E; cbn.
    destruct (IH w1 H1) as (w2 & E2 & H2 & new2 & A2). exists w2. split; [exact E2|]. split; [exact H2|].
    exists (new ++ new2). rewrite A2, A1, app_assoc. reflexivity.
Qed.

Definition once (w : world) : Prop := forall i, NoDup (ids_by i (air w)).

Lemma NoDup_snoc {A} (l : list A) x : NoDup l -> ~ In x l -> NoDup (l ++ [x]).
Proof.
  intros H Hx. apply NoDup_rev in H. rewrite <- (rev_involutive (l ++ [x])).
  apply NoDup_rev. rewrite rev_app_distr. cbn. constructor; [rewrite <- in_rev; exact Hx|exact H].
Qed.

Lemma NoDup_app_l {A} (a b : list A) : NoDup (a ++ b) -> NoDup a.
Proof. induction a; cbn; intros H; [constructor|]. inversion H; subst. constructor; auto. rewrite in_app_iff in *; tauto. Qed.

Lemma ids_by_incl i log x : In x (ids_by i log) -> In x (all_ids log).
Proof.
  unfold ids_by, all_ids. rewrite !in_map_iff. intros (e & E & H). apply filter_In in H. exists e; tauto.
Qed.

Lemma flood_once_step pl n w w' ev : flood_inv n w -> once w -> world_step pl w ev = Ok w' ->
  NoDup (originated (air w')) -> (length (originated (air w')) <= 5)%nat -> once w'.
Proof.
  intros Hinv Ho E Hnd Hlen i.
  destruct (flood_step pl n w ev Hinv) as (w1 & new & E1 & H1 & A & C).
  rewrite E in E1; inversion E1; subst w1; clear E1. rewrite A, ids_by_app in *.
  rewrite originated_app in Hnd, Hlen.
  destruct C as [->|[(j & p & _ & q & ->)|(j & q & -> & Hq & Hin)]].
  - cbn. rewrite app_nil_r. apply Ho.
  - rewrite (ids_by_txs i [(j, Orig q)]). change [(j, Orig q)] with (map (pair j) [Orig q]).
    rewrite txs_by_pair. destruct (Nat.eqb j i); cbn [ids_of map tx_packet]; [|rewrite app_nil_r; apply Ho].
    apply NoDup_snoc; [apply Ho|]. intros Hx. apply ids_by_incl in Hx. apply (fi_ids n w Hinv) in Hx.
    cbn in Hnd. apply NoDup_remove_2 in Hnd. rewrite app_nil_r in Hnd. contradiction.
  - rewrite (ids_by_txs i [(j, Relay q)]). change [(j, Relay q)] with (map (pair j) [Relay q]).
    rewrite txs_by_pair. destruct (Nat.eqb j i) eqn:Eji; cbn [ids_of map tx_packet]; [|rewrite app_nil_r; apply Ho].
    apply Nat.eqb_eq in Eji; subst j.
    apply NoDup_snoc; [apply Ho|]. intros Hx. apply Hq. apply last5_incl; [|exact Hx].
    rewrite app_length in Hlen.
    assert (L : (length (ids_by i (air w)) <= length (originated (air w)))%nat).
    { apply NoDup_incl_length; [apply Ho|]. intros y Hy. apply (fi_ids n w Hinv), (ids_by_incl i); exact Hy. }
    lia.
Qed.

Lemma flood_once pl n sched : forall w w', flood_inv n w -> once w ->
  world_run pl w sched = Ok w' ->
  NoDup (originated (air w')) -> (length (originated (air w')) <= 5)%nat -> once w'.
Proof.
  induction sched as [|ev sched IH]; intros w w' Hinv Ho E Hnd Hl; cbn in E.
  - inversion E; subst; exact Ho.
  - destruct (flood_step pl n w ev Hinv) as (w1 & new & E1 & H1 & A & _). rewrite E1 in E; cbn in E.
    destruct (flood_total pl n sched w1 H1) as (w2 & E2 & H2 & new2 & A2).
    rewrite E in E2; inversion E2; subst w2; clear E2.
    apply (IH w1 w'); auto.
    apply (flood_once_step pl n w w1 ev); auto.
    + rewrite A2, originated_app in Hnd. apply NoDup_app_l in Hnd. exact Hnd.
    + rewrite A2, originated_app, app_length in Hl. lia.
Qed.

(** Counting transmissions per node. *)
Fixpoint sum_to (n : nat) (f : nat -> nat) : nat := match n with O => O | S k => (sum_to k f + f k)%nat end.

Lemma count_by n (log : list (nat * tx)) :
  length (filter (fun e => Nat.ltb (fst e) n) log) = sum_to n (fun i => length (ids_by i log)).
Proof.
  induction n; cbn [sum_to].
  - induction log; cbn; auto.
  - rewrite <- IHn. unfold ids_by. rewrite map_length. clear IHn. induction log as [|e log IH]; [reflexivity|].
    cbn [filter]. destruct (Nat.ltb_spec (fst e) (S n)), (Nat.ltb_spec (fst e) n), (Nat.eqb_spec (fst e) n);
      cbn [length]; lia.
Qed.

Lemma sum_to_bound n f b : (forall i, (f i <= b)%nat) -> (sum_to n f <= n * b)%nat.
Proof. intros H; induction n; cbn; [lia|]. specialize (H n). lia. Qed.

Lemma filter_all {A} (f : A -> bool) l : (forall x, In x l -> f x = true) -> filter f l = l.
Proof. induction l; cbn; intros H; [reflexivity|]. rewrite H by auto. f_equal; auto. Qed.

Lemma flood_count n w : flood_inv n w -> once w -> (length (originated (air w)) <= 5)%nat ->
  (length (air w) <= n * 5)%nat.
Proof.
  intros Hinv Ho Hl. rewrite <- (filter_all (fun e => Nat.ltb (fst e) n) (air w)).
  - rewrite count_by. apply sum_to_bound. intros i.
    assert (L : (length (ids_by i (air w)) <= length (originated (air w)))%nat).
    { apply NoDup_incl_length; [apply Ho|]. intros y Hy. apply (fi_ids n w Hinv), (ids_by_incl i); exact Hy. }
    lia.
  - intros e He. apply Nat.ltb_lt. eapply fi_from; eauto.
Qed.
