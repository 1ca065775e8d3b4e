(** The resistor-ladder buttons and the radio of the tests: C107, C108. *)
From Coq Require Import ZArith Lia List Bool.
From Coq Require Import ZifyBool.
From Verif Require Import CInt CIntFacts Packet SpecPacket PacketFacts HwFacts Bench.
Import ListNotations.
Open Scope Z_scope.
Ltac Zify.zify_post_hook ::= Z.div_mod_to_equations.

(** ** C107: resistor-ladder buttons *)

(** The input while button [k] is held, in 1024ths of the supply; 0 is no
    button. *)
Definition held (k v : Z) : Prop :=
  (k = 1 /\ v < 173) \/ (k = 2 /\ 173 <= v < 512) \/ (k = 3 /\ 512 <= v < 850) \/ (k = 0 /\ 850 <= v).

(** Button [k] is reported. *)
Definition reports (b : abutton) (k : Z) : Prop :=
  (k = 1 /\ Button1Pressed b = true) \/ (k = 2 /\ Button2Pressed b = true) \/ (k = 3 /\ Button3Pressed b = true).

(** The last value the filter called stable; the idle value before there is one. *)
Definition last_stable (rs : list reading) : Z := last (map filtered (filter stable rs)) 1023.

Lemma held_one k j v : held k v -> held j v -> k = j.
Proof. unfold held. lia. Qed.
Lemma held_region v : held (ReadAnalog v) (filtered v).
Proof.
  unfold held, ReadAnalog. change kSwitch1Threshold with 173. change kSwitch2Threshold with 512. change kSwitch3Threshold with 850.
  destruct (Z.ltb_spec (filtered v) 173); [lia|]. destruct (Z.ltb_spec (filtered v) 512); [lia|].
  destruct (Z.ltb_spec (filtered v) 850); lia.
Qed.

Lemma last_stable_snoc rs r : last_stable (rs ++ [r]) = if stable r then filtered r else last_stable rs.
Proof.
  unfold last_stable. rewrite filter_app. cbn [filter]. destruct (stable r).
  - rewrite map_app. apply last_last.
  - rewrite app_nil_r. reflexivity.
Qed.

Lemma ab_run_snoc rs r : ab_run (rs ++ [r]) = AnalogTick r (ab_run rs).
Proof. unfold ab_run. rewrite fold_left_app. reflexivity. Qed.

Lemma prev_is rs : held (prev_state_ (ab_run rs)) (last_stable rs).
Proof.
  induction rs as [|r rs IH] using rev_ind; [unfold held; cbn; lia|].
  rewrite ab_run_snoc, last_stable_snoc. pose proof (held_region r) as R. unfold AnalogTick. cbv zeta.
  cbn [prev_state_ button1_pressed_ button2_pressed_ button3_pressed_].
  destruct (stable r); destruct (Z.eqb_spec (ReadAnalog r) (prev_state_ (ab_run rs))) as [E|E]; cbn [negb andb]; auto.
  all: cbn [prev_state_]; first [rewrite <- E; exact R|exact R|exact IH].
Qed.

(** A press is reported in exactly the tick in which a stable input first lies
    in the button's band. *)
Theorem C107_reported_iff : forall rs r k, 1 <= k <= 3 ->
  (reports (ab_run (rs ++ [r])) k <->
   stable r = true /\ held k (filtered r) /\ ~ held k (last_stable rs)).
Proof.
  intros rs r k K. rewrite ab_run_snoc. pose proof (held_region r) as R. pose proof (prev_is rs) as P.
  assert (Q1 : held k (filtered r) <-> ReadAnalog r = k) by (split; [intros H; eapply held_one; eauto|intros <-; exact R]).
  assert (Q2 : held k (last_stable rs) <-> prev_state_ (ab_run rs) = k) by (split; [intros H; eapply held_one; eauto|intros <-; exact P]).
  rewrite Q1, Q2. clear P Q1 Q2 R. unfold reports, Button1Pressed, Button2Pressed, Button3Pressed, AnalogTick. cbv zeta.
  cbn [prev_state_ button1_pressed_ button2_pressed_ button3_pressed_].
  set (s := ReadAnalog r). set (q := prev_state_ (ab_run rs)).
  destruct (stable r); destruct (Z.eqb_spec s q) as [E|E]; cbn [negb andb button1_pressed_ button2_pressed_ button3_pressed_];
    try (split; [intros [[_ F]|[[_ F]|[_ F]]]; discriminate F|intros (F1 & F2 & F3); try discriminate F1; congruence]).
  destruct (Z.eqb_spec s 1); [|destruct (Z.eqb_spec s 2); [|destruct (Z.eqb_spec s 3)]];
    cbn [button1_pressed_ button2_pressed_ button3_pressed_]; lia.
Qed.
Print Assumptions C107_reported_iff.

(** Never two buttons at once. *)
Theorem C107_one_at_a_time : forall rs k j, reports (ab_run rs) k -> reports (ab_run rs) j -> k = j.
Proof.
  intros rs k j A B. assert (K : 1 <= k <= 3) by (unfold reports in A; lia). assert (J : 1 <= j <= 3) by (unfold reports in B; lia).
  destruct rs as [|r rs _] using rev_ind; [unfold reports, ab_run in A; cbn in A; lia|].
  apply C107_reported_iff in A; [|exact K]. apply C107_reported_iff in B; [|exact J].
  destruct A as (_ & A & _), B as (_ & B & _). eapply held_one; eauto.
Qed.
Print Assumptions C107_one_at_a_time.

(** A button that stays held is reported once: between two reports the input
    was seen stable outside its band. *)
Theorem C107_held_is_reported_once : forall rs r mid r' k,
  reports (ab_run (rs ++ [r])) k -> reports (ab_run (rs ++ [r] ++ mid ++ [r'])) k ->
  exists x, In x mid /\ stable x = true /\ ~ held k (filtered x).
Proof.
  intros rs r mid r' k A B. assert (K : 1 <= k <= 3) by (unfold reports in A; lia).
  apply C107_reported_iff in A; [|exact K]. destruct A as (A1 & A2 & _).
  replace (rs ++ [r] ++ mid ++ [r']) with ((rs ++ [r] ++ mid) ++ [r']) in B by (rewrite <- !app_assoc; reflexivity).
  apply C107_reported_iff in B; [|exact K]. destruct B as (_ & _ & B). clear r'.
  induction mid as [|x mid IH] using rev_ind.
  - rewrite app_nil_r, last_stable_snoc, A1 in B. contradiction.
  - replace (rs ++ [r] ++ mid ++ [x]) with ((rs ++ [r] ++ mid) ++ [x]) in B by (rewrite <- !app_assoc; reflexivity).
    rewrite last_stable_snoc in B. destruct (stable x) eqn:S.
    + exists x. split; [apply in_or_app; right; left; reflexivity|]. auto.
    + destruct (IH B) as (y & Y & Z). exists y. split; [apply in_or_app; left; exact Y|exact Z].
Qed.
Print Assumptions C107_held_is_reported_once.

(** Pressing button 1: on its way down the input passes the bands of the
    others, which are not reported because the filter is not stable there. *)
Example C107_example :
  let rs := [mkReading 1023 true; mkReading 700 false; mkReading 400 false; mkReading 20 false] in
  reports (ab_run (rs ++ [mkReading 12 true])) 1 /\
  (forall k, ~ reports (ab_run rs) k) /\
  (forall k, ~ reports (ab_run (rs ++ [mkReading 12 true; mkReading 11 true])) k).
Proof.
  cbv zeta. split; [unfold reports; vm_compute; auto|]. split; intros k H; unfold reports in H; vm_compute in H;
    destruct H as [[_ F]|[[_ F]|[_ F]]]; discriminate F.
Qed.

(** ** C108: the radio of the tests *)

(** The packet sent last, if any was sent since the test last looked. *)
Fixpoint pending_from (cur : option packet) (os : list fr_op) : option packet :=
  match os with
  | [] => cur
  | FSend p :: rest => pending_from (Some p) rest
  | FGet :: rest => pending_from None rest
  | _ :: rest => pending_from cur rest
  end.
Definition pending (os : list fr_op) : option packet := pending_from None os.

(** The addresses the test has been given. *)
Definition given (rs : list fr_ret) : list nat :=
  flat_map (fun r => match r with RAddr (Some a) => [a] | _ => [] end) rs.

(** The test touches only packets it has been given. *)
Definition touches (o : fr_op) : option nat :=
  match o with FWrite a _ => Some a | FDelete a => Some a | FSet a => a | _ => None end.
Definition fair (os : list fr_op) : Prop :=
  forall os1 o os2 a rs w, os = os1 ++ o :: os2 -> touches o = Some a ->
  fr_run os1 fr_init = Ok (rs, w) -> In a (given rs).

Lemma fr_run_snoc os o : forall w,
  fr_run (os ++ [o]) w =
  (' (rs, w1) <- fr_run os w ;; ' (r, w2) <- fr_step o w1 ;; Ok (rs ++ [r], w2)).
Proof.
  induction os as [|x os IH]; intros w; cbn [app fr_run obind].
  - destruct (fr_step o w) as [[r w1]| |]; reflexivity.
  - destruct (fr_step x w) as [[r w1]| |]; cbn [obind]; try reflexivity. rewrite IH.
    destruct (fr_run os w1) as [[rs w2]| |]; cbn [obind]; try reflexivity.
    destruct (fr_step o w2) as [[q w3]| |]; reflexivity.
Qed.

Lemma pending_snoc os o : pending (os ++ [o]) = match o with FSend p => Some p | FGet => None | _ => pending os end.
Proof.
  unfold pending. enough (G : forall c, pending_from c (os ++ [o]) = match o with FSend p => Some p | FGet => None | _ => pending_from c os end) by apply G.
  induction os as [|x os IH]; intros c; cbn [app pending_from]; [destruct o; reflexivity|]. destruct x; apply IH.
Qed.

Lemma given_snoc rs r : given (rs ++ [r]) = given rs ++ match r with RAddr (Some a) => [a] | _ => [] end.
Proof. unfold given. rewrite flat_map_app. cbn [flat_map]. rewrite app_nil_r. reflexivity. Qed.

Lemma fair_prefix os o : fair (os ++ [o]) -> fair os.
Proof.
  intros F os1 x os2 a rs w E T R. apply (F os1 x (os2 ++ [o]) a rs w); auto. rewrite E, <- app_assoc. reflexivity.
Qed.

Lemma upd_same {A} (f : nat -> A) a v : upd f a v a = v.
Proof. unfold upd. rewrite Nat.eqb_refl. reflexivity. Qed.
Lemma upd_other {A} (f : nat -> A) a v b : b <> a -> upd f a v b = f b.
Proof. unfold upd. intros N. destruct (Nat.eqb_spec b a); congruence. Qed.

Lemma NoDup_snoc (l : list nat) a : NoDup l -> ~ In a l -> NoDup (l ++ [a]).
Proof.
  intros N A. rewrite <- (rev_involutive (l ++ [a])), rev_app_distr. cbn [rev app]. change (NoDup (rev (a :: rev l))).
  apply NoDup_rev. constructor; [rewrite <- in_rev; exact A|apply NoDup_rev; exact N].
Qed.

Definition fr_inv (os : list fr_op) (rs : list fr_ret) (w : world) : Prop :=
  (forall a, In a (given rs) -> (a < fresh w)%nat /\ sent_packet w <> Some a) /\
  NoDup (given rs) /\
  match sent_packet w with
  | None => pending os = None
  | Some a => (a < fresh w)%nat /\ exists p, pending os = Some p /\ heap w a = Some p
  end /\
  (forall a, heap w a <> None -> sent_packet w = Some a \/ In a (given rs)).

Lemma assign_ok a p w w' : assign a p w = Ok w' ->
  heap w a <> None /\ fresh w' = fresh w /\ sent_packet w' = sent_packet w /\ received_packet w' = received_packet w /\
  heap w' = upd (heap w) a (Some p).
Proof.
  unfold assign. destruct (heap w a) eqn:E; try discriminate. intros H. injection H as <-. cbn. repeat split; auto; discriminate.
Qed.

Lemma inv_holds os : fair os -> forall rs w, fr_run os fr_init = Ok (rs, w) -> fr_inv os rs w.
Proof.
  induction os as [|o os IH] using rev_ind; intros F rs w R.
  { cbn in R. injection R as <- <-. unfold fr_inv. cbn. repeat split; auto; try constructor; try (intros; contradiction). }
  rewrite fr_run_snoc in R. destruct (fr_run os fr_init) as [[rs0 w0]| |] eqn:R0; cbn [obind] in R; try discriminate.
  specialize (IH (fair_prefix _ _ F) _ _ eq_refl). destruct IH as (I1 & I2 & I3 & I4).
  assert (TO : forall a, touches o = Some a -> In a (given rs0)) by (intros a T; exact (F os o [] a rs0 w0 eq_refl T R0)).
  destruct (fr_step o w0) as [[r w1]| |] eqn:St; cbn [obind] in R; try discriminate. injection R as <- <-.
  unfold fr_inv. rewrite given_snoc, pending_snoc. destruct o; cbn [fr_step touches] in St, TO.
  - (* FNew *) cbn in St. injection St as <- <-. cbn [fresh sent_packet heap]. split; [|split; [|split]].
    + intros a A. apply in_app_or in A. destruct A as [A|[<-|[]]].
      * destruct (I1 a A). split; [lia|auto].
      * split; [lia|]. intros E. rewrite E in I3. destruct I3. lia.
    + apply NoDup_snoc; [exact I2|]. intros A. destruct (I1 _ A). lia.
    + destruct (sent_packet w0) as [b|]; [|exact I3]. destruct I3 as (L & p0 & P & H). split; [lia|]. exists p0. split; [exact P|].
      rewrite upd_other by lia. exact H.
    + intros a H. destruct (Nat.eq_dec a (fresh w0)) as [->|N].
      * right. apply in_or_app. right. left. reflexivity.
      * rewrite upd_other in H by exact N. destruct (I4 a H) as [E|E]; [left; exact E|right; apply in_or_app; left; exact E].
  - (* FWrite *) destruct (assign a p w0) as [w2| |] eqn:As; cbn [obind] in St; try discriminate. injection St as <- <-.
    apply assign_ok in As. destruct As as (_ & A1 & A2 & _ & A3). rewrite A1, A2, A3, app_nil_r.
    specialize (TO a eq_refl). split; [exact I1|]. split; [exact I2|]. split.
    + destruct (sent_packet w0) as [b|] eqn:E; [|exact I3]. destruct I3 as (L & p0 & P & H). split; [exact L|]. exists p0. split; [exact P|].
      rewrite upd_other; [exact H|]. intros ->. destruct (I1 a TO) as [_ Q]. congruence.
    + intros b H. destruct (Nat.eq_dec b a) as [->|N]; [right; exact TO|]. rewrite upd_other in H by exact N. auto.
  - (* FDelete *) unfold delete in St. destruct (heap w0 a) eqn:E0; cbn [obind] in St; try discriminate. injection St as <- <-.
    cbn [fresh sent_packet heap]. rewrite app_nil_r. specialize (TO a eq_refl). split; [exact I1|]. split; [exact I2|]. split.
    + destruct (sent_packet w0) as [b|] eqn:E; [|exact I3]. destruct I3 as (L & p0 & P & H). split; [exact L|]. exists p0. split; [exact P|].
      rewrite upd_other; [exact H|]. intros ->. destruct (I1 a TO) as [_ Q]. congruence.
    + intros b H. destruct (Nat.eq_dec b a) as [->|N]; [right; exact TO|]. rewrite upd_other in H by exact N. auto.
  - (* FSet *) destruct a as [a|].
    + unfold fr_setReceivedPacket in St. cbv zeta in St. unfold deref in St. cbn [heap] in St.
      destruct (heap w0 a) as [p|] eqn:E0; cbn [obind] in St; try discriminate.
      destruct (clear_from _ _ _) as [d| |]; cbn [obind] in St; try discriminate.
      destruct (assign a _ _) as [w2| |] eqn:As; cbn [obind] in St; try discriminate. injection St as <- <-.
      apply assign_ok in As. cbn [heap fresh sent_packet] in As. destruct As as (_ & A1 & A2 & _ & A3). rewrite A1, A2, A3, app_nil_r.
      specialize (TO a eq_refl). split; [exact I1|]. split; [exact I2|]. split.
      * destruct (sent_packet w0) as [b|] eqn:E; [|exact I3]. destruct I3 as (L & p0 & P & H). split; [exact L|]. exists p0. split; [exact P|].
        rewrite upd_other; [exact H|]. intros ->. destruct (I1 a TO) as [_ Q]. congruence.
      * intros b H. destruct (Nat.eq_dec b a) as [->|N]; [right; exact TO|]. rewrite upd_other in H by exact N. auto.
    + cbn in St. injection St as <- <-. cbn [fresh sent_packet heap]. rewrite app_nil_r. auto.
  - (* FRead *) destruct (fr_readPacket w0); cbn [obind] in St; try discriminate. injection St as <- <-. rewrite app_nil_r. auto.
  - (* FSend *) unfold fr_sendPacket in St. destruct (sent_packet w0) as [b|] eqn:E.
    + destruct (assign b p w0) as [w2| |] eqn:As; cbn [obind] in St; try discriminate. injection St as <- <-.
      apply assign_ok in As. destruct As as (_ & A1 & A2 & _ & A3). rewrite A1, A2, A3, app_nil_r, E.
      split; [exact I1|]. split; [exact I2|]. destruct I3 as (L & p0 & _ & H). split.
      * split; [exact L|]. exists p. rewrite upd_same. auto.
      * intros c H2. destruct (Nat.eq_dec c b) as [->|N]; [left; reflexivity|]. rewrite upd_other in H2 by exact N. auto.
    + cbn [new_packet] in St. cbn [heap fresh received_packet] in St.
      destruct (assign _ _ _) as [w2| |] eqn:As; cbn [obind] in St; try discriminate. injection St as <- <-.
      apply assign_ok in As. cbn [heap fresh sent_packet] in As. destruct As as (_ & A1 & A2 & _ & A3). rewrite A1, A2, A3, app_nil_r.
      split; [|split; [exact I2|split]].
      * intros a A. destruct (I1 a A) as [L _]. split; [lia|]. intros Q. injection Q as Q. lia.
      * split; [lia|]. exists p. rewrite upd_same. auto.
      * intros c H2. destruct (Nat.eq_dec c (fresh w0)) as [->|N]; [left; reflexivity|].
        rewrite !upd_other in H2 by exact N. destruct (I4 c H2) as [Q|Q]; [congruence|right; exact Q].
  - (* FGet *) cbn in St. injection St as <- <-. cbn [fresh sent_packet heap]. destruct (sent_packet w0) as [b|] eqn:E.
    + destruct I3 as (L & p0 & P & H). split; [|split; [|split]].
      * intros a A. split; [|discriminate]. apply in_app_or in A. destruct A as [A|[<-|[]]]; [exact (proj1 (I1 a A))|exact L].
      * apply NoDup_snoc; [exact I2|]. intros A. destruct (I1 _ A). congruence.
      * reflexivity.
      * intros a A. right. apply in_or_app. destruct (I4 a A) as [Q|Q]; [injection Q as ->; right; left; reflexivity|left; exact Q].
    + rewrite app_nil_r. split; [|split; [|split]]; auto.
Qed.

(** The test sees what was sent last, in an object of its own, and only once. *)
Theorem C108_outbox : forall os rs w, fair os -> fr_run os fr_init = Ok (rs, w) ->
  match fst (fr_getSentPacket w) with
  | None => pending os = None
  | Some a => exists p, pending os = Some p /\ deref a w = Ok p /\ ~ In a (given rs)
  end.
Proof.
  intros os rs w F R. destruct (inv_holds os F rs w R) as (I1 & _ & I3 & _). cbn [fr_getSentPacket fst].
  destruct (sent_packet w) as [a|] eqn:E; [|exact I3]. destruct I3 as (_ & p & P & H). exists p. split; [exact P|]. split.
  - unfold deref. rewrite H. reflexivity.
  - intros A. destruct (I1 a A). congruence.
Qed.
Print Assumptions C108_outbox.

(** Sending and looking never fail, nor does the end of the test; no packet is
    given out twice, and in the end only packets the test was given are left. *)
Theorem C108_memory : forall os rs w, fair os -> fr_run os fr_init = Ok (rs, w) ->
  NoDup (given rs) /\
  (forall p, exists w', fr_sendPacket p w = Ok w') /\
  (exists w', fr_destroy w = Ok w' /\ forall a, heap w' a <> None -> In a (given rs)).
Proof.
  intros os rs w F R. destruct (inv_holds os F rs w R) as (I1 & I2 & I3 & I4). split; [exact I2|]. split.
  - intros p. unfold fr_sendPacket. destruct (sent_packet w) as [a|] eqn:E.
    + destruct I3 as (_ & q & _ & H). unfold assign. rewrite H. eauto.
    + cbn [new_packet]. unfold assign. cbn [heap]. rewrite upd_same. eauto.
  - unfold fr_destroy. destruct (sent_packet w) as [a|] eqn:E.
    + destruct I3 as (_ & q & _ & H). unfold delete. rewrite H. eexists. split; [reflexivity|]. cbn [heap].
      intros b B. destruct (Nat.eq_dec b a) as [->|N]; [rewrite upd_same in B; congruence|]. rewrite upd_other in B by exact N.
      destruct (I4 b B) as [Q|Q]; [congruence|exact Q].
    + exists w. split; [reflexivity|]. intros b B. destruct (I4 b B) as [Q|Q]; [discriminate|exact Q].
Qed.
Print Assumptions C108_memory.

(** [clear_from] zeroes the tail. *)
Lemma clear_ok todo : forall i d, 0 <= i -> i + Z.of_nat todo = Z.of_nat (length d) ->
  exists d', clear_from todo i d = Ok d' /\ length d' = length d /\
  forall j, nth j d' 0 = if Z.of_nat j <? i then nth j d 0 else 0.
Proof.
  induction todo as [|n IH]; intros i d I L; cbn [clear_from].
  - exists d. split; [reflexivity|]. split; [reflexivity|]. intros j. destruct (Z.ltb_spec (Z.of_nat j) i); [reflexivity|].
    apply nth_overflow. lia.
  - rewrite aset_ok by lia. cbn [obind].
    destruct (IH (i + 1) (list_set d (Z.to_nat i) 0)) as (d' & E & L' & N); [lia|rewrite list_set_length; lia|].
    exists d'. split; [exact E|]. split; [rewrite L', list_set_length; reflexivity|].
    intros j. rewrite N. destruct (Z.ltb_spec (Z.of_nat j) (i + 1)), (Z.ltb_spec (Z.of_nat j) i); try lia; auto.
    + apply list_set_nth_other. lia.
    + replace j with (Z.to_nat i) by lia. apply list_set_nth_same. lia.
Qed.

Definition not_set (o : fr_op) : Prop := match o with FSet _ => False | _ => True end.

Lemma received_kept more : forall w1 rs w2, Forall not_set more -> fr_run more w1 = Ok (rs, w2) ->
  received_packet w2 = received_packet w1.
Proof.
  induction more as [|o more IHm] using rev_ind; intros w1 rs3 w3 Lv R3; [cbn in R3; injection R3 as <- <-; reflexivity|].
  apply Forall_app in Lv. destruct Lv as [Lv Lo]. inversion Lo as [|? ? Lo1 _]; subst.
  rewrite fr_run_snoc in R3. destruct (fr_run more w1) as [[r5 w5]| |] eqn:R5; cbn [obind] in R3; try discriminate.
  specialize (IHm w1 r5 w5 Lv R5). destruct (fr_step o w5) as [[r6 w6]| |] eqn:St; cbn [obind] in R3; try discriminate.
  injection R3 as <- <-. destruct o; cbn [fr_step not_set] in *; try contradiction.
  - cbn in St. injection St as <- <-. exact IHm.
  - destruct (assign _ _ _) eqn:As; cbn [obind] in St; try discriminate. injection St as <- <-. apply assign_ok in As. destruct As as (_ & _ & _ & Q & _). congruence.
  - unfold delete in St. destruct (heap w5 _); cbn [obind] in St; try discriminate. injection St as <- <-. exact IHm.
  - destruct (fr_readPacket w5); cbn [obind] in St; try discriminate. injection St as <- <-. exact IHm.
  - unfold fr_sendPacket in St. destruct (sent_packet w5); cbn [new_packet] in St; destruct (assign _ _ _) eqn:As; cbn [obind] in St; try discriminate;
      injection St as <- <-; apply assign_ok in As; destruct As as (_ & _ & _ & Q & _); cbn in Q; congruence.
  - cbn in St. injection St as <- <-. exact IHm.
Qed.

(** Nothing is delivered before the test has chosen a packet, nor after it has
    chosen none. *)
Theorem C108_nothing_to_read : forall more rs w2, Forall not_set more ->
  (fr_run more fr_init = Ok (rs, w2) -> fr_readPacket w2 = Ok None) /\
  (forall w, exists w1, fr_setReceivedPacket None w = Ok w1 /\
     (fr_run more w1 = Ok (rs, w2) -> fr_readPacket w2 = Ok None)).
Proof.
  intros more rs w2 N. split.
  - intros R. apply received_kept in R; [|exact N]. unfold fr_readPacket. rewrite R. reflexivity.
  - intros w. eexists. split; [reflexivity|]. intros R. apply received_kept in R; [|exact N]. unfold fr_readPacket. rewrite R. reflexivity.
Qed.
Print Assumptions C108_nothing_to_read.

(** An operation that leaves the packet at [a], and the choice of it, alone. *)
Definition leaves (a : nat) (o : fr_op) : Prop :=
  match o with FSet _ => False | FWrite b _ => b <> a | FDelete b => b <> a | _ => True end.

(** The packet chosen by the test is what the radio delivers, with everything
    behind its data zeroed - again and again, until the test chooses another. *)
Theorem C108_inbox : forall os rs w a p, fair os -> fr_run os fr_init = Ok (rs, w) ->
  In a (given rs) -> deref a w = Ok p -> wf_packet p -> dlen p <= 58 ->
  exists w1, fr_setReceivedPacket (Some a) w = Ok w1 /\
  exists q, pid q = pid p /\ ptype q = ptype p /\ dlen q = dlen p /\ length (pdata q) = 58%nat /\
    (forall j, nth j (pdata q) 0 = if Z.of_nat j <? dlen p then nth j (pdata p) 0 else 0) /\
    forall more rs2 w2, Forall (leaves a) more -> fair (os ++ FSet (Some a) :: more) ->
      fr_run more w1 = Ok (rs2, w2) -> fr_readPacket w2 = Ok (Some q).
Proof.
  intros os rs w a p F R G D W L. destruct W as (_ & _ & [W1 _] & W2 & _).
  unfold deref in D. destruct (heap w a) as [p'|] eqn:H; [|discriminate]. injection D as ->.
  destruct (clear_ok (Z.to_nat (58 - dlen p)) (dlen p) (pdata p)) as (d & Cl & Ld & N); [exact W1|lia|].
  assert (E1 : exists w1, fr_setReceivedPacket (Some a) w = Ok w1 /\
     heap w1 a = Some (mkPacket (pid p) (ptype p) (dlen p) d) /\ received_packet w1 = Some a).
  { unfold fr_setReceivedPacket. cbv zeta. unfold deref. cbn [heap]. rewrite H. cbn [obind].
    change PACKET_DATA_LENGTH with 58. rewrite Cl. cbn [obind]. unfold assign. cbn [heap]. rewrite H.
    eexists. split; [reflexivity|]. cbn [heap received_packet]. rewrite upd_same. auto. }
  destruct E1 as (w1 & E1 & H1 & Rc1). exists w1. split; [exact E1|].
  exists (mkPacket (pid p) (ptype p) (dlen p) d). cbn [pid ptype dlen pdata].
  split; [reflexivity|]. split; [reflexivity|]. split; [reflexivity|]. split; [congruence|]. split; [exact N|].
  intros more. induction more as [|o more IH] using rev_ind; intros rs2 w2 Lv Fa Rn.
  { cbn in Rn. injection Rn as <- <-. unfold fr_readPacket. rewrite Rc1. unfold deref. rewrite H1. reflexivity. }
  rewrite fr_run_snoc in Rn. destruct (fr_run more w1) as [[rs3 w3]| |] eqn:R3; cbn [obind] in Rn; try discriminate.
  apply Forall_app in Lv. destruct Lv as [Lv Lo]. inversion Lo as [|? ? Lo1 _]; subst. clear Lo.
  assert (Fa2 : fair (os ++ FSet (Some a) :: more)) by (apply fair_prefix with (o := o); rewrite <- app_assoc; exact Fa).
  specialize (IH rs3 w3 Lv Fa2 eq_refl).
  (* the whole run so far, to use the invariant *)
  assert (RR : fr_run (os ++ FSet (Some a) :: more) fr_init = Ok (rs ++ RNone :: rs3, w3)).
  { clear - R E1 R3. revert rs w R E1. generalize fr_init. induction os as [|x os IHo]; intros w0 rs w R E1; cbn [app fr_run] in *.
    - injection R as <- <-. cbn [fr_step]. rewrite E1. cbn [obind]. rewrite R3. reflexivity.
    - destruct (fr_step x w0) as [[r wx]| |]; cbn [obind] in *; try discriminate.
      destruct (fr_run os wx) as [[rs1 wy]| |] eqn:Q; cbn [obind] in R; try discriminate. injection R as <- <-.
      rewrite (IHo wx rs1 wy Q E1). reflexivity. }
  destruct (inv_holds _ Fa2 _ _ RR) as (I1 & _ & I3 & _).
  assert (G2 : In a (given (rs ++ RNone :: rs3))) by (unfold given; rewrite flat_map_app; apply in_or_app; left; exact G).
  destruct (I1 a G2) as [Lt NS].
  assert (K : forall w4, heap w4 a = heap w3 a -> received_packet w4 = received_packet w3 ->
     fr_readPacket w4 = fr_readPacket w3).
  { intros w4 Q1 Q2. unfold fr_readPacket in *. rewrite Q2. destruct (received_packet w3) as [b|] eqn:Eb; [|reflexivity].
    unfold fr_readPacket in IH. destruct (Nat.eq_dec b a) as [->|Nb]; [unfold deref; rewrite Q1; reflexivity|].
    exfalso. apply received_kept in R3; [congruence|].
    apply Forall_impl with (2 := Lv). intros x. destruct x; cbn; auto. }
  destruct (fr_step o w3) as [[r w4]| |] eqn:St; cbn [obind] in Rn; try discriminate. injection Rn as <- <-.
  rewrite <- IH. apply K; destruct o; cbn [fr_step leaves] in *; try contradiction.
  - cbn in St. injection St as <- <-. cbn [heap]. apply upd_other. lia.
  - destruct (assign _ _ _) eqn:As; cbn [obind] in St; try discriminate. injection St as <- <-. apply assign_ok in As. destruct As as (_ & _ & _ & _ & Q). rewrite Q. apply upd_other. auto.
  - unfold delete in St. destruct (heap w3 _); cbn [obind] in St; try discriminate. injection St as <- <-. cbn [heap]. apply upd_other. auto.
  - destruct (fr_readPacket w3); cbn [obind] in St; try discriminate. injection St as <- <-. reflexivity.
  - unfold fr_sendPacket in St. destruct (sent_packet w3) as [b|] eqn:Eb; cbn [new_packet] in St; destruct (assign _ _ _) eqn:As; cbn [obind] in St; try discriminate;
      injection St as <- <-; apply assign_ok in As; destruct As as (_ & _ & _ & _ & Q); cbn [heap] in Q; rewrite Q.
    + apply upd_other. congruence.
    + rewrite !upd_other by lia. reflexivity.
  - cbn in St. injection St as <- <-. reflexivity.
  - cbn in St. injection St as <- <-. reflexivity.
  - destruct (assign _ _ _) eqn:As; cbn [obind] in St; try discriminate. injection St as <- <-. apply assign_ok in As. tauto.
  - unfold delete in St. destruct (heap w3 _); cbn [obind] in St; try discriminate. injection St as <- <-. reflexivity.
  - destruct (fr_readPacket w3); cbn [obind] in St; try discriminate. injection St as <- <-. reflexivity.
  - unfold fr_sendPacket in St. destruct (sent_packet w3) as [b|] eqn:Eb; cbn [new_packet] in St; destruct (assign _ _ _) eqn:As; cbn [obind] in St; try discriminate;
      injection St as <- <-; apply assign_ok in As; destruct As as (_ & _ & _ & Q & _); cbn [received_packet] in Q; exact Q.
  - cbn in St. injection St as <- <-. reflexivity.
Qed.
Print Assumptions C108_inbox.

(** A packet whose buffer holds rubbish behind its three bytes, delivered twice;
    two packets sent, of which the test sees the second. *)
Example C108_example :
  let p := mkPacket 7 2 3 ([1; 2; 3] ++ repeat 99 55) in
  let q := mkPacket 7 2 3 ([1; 2; 3] ++ repeat 0 55) in
  let a := mkPacket 1 0 4 (repeat 5 58) in
  let b := mkPacket 2 0 4 (repeat 6 58) in
  let os := [FNew p; FSet (Some 0%nat); FRead; FSend a; FRead; FSend b; FGet; FGet] in
  fair os /\ wf_packet p /\ dlen p <= 58 /\
  exists w, fr_run os fr_init =
    Ok ([RAddr (Some 0%nat); RNone; RPacket (Some q); RNone; RPacket (Some q); RNone; RAddr (Some 1%nat); RAddr None], w) /\
  deref 1 w = Ok b.
Proof.
  cbv zeta. split; [|split; [|split; [cbn; lia|]]].
  - intros os1 o os2 a rs w E T R.
    destruct os1 as [|x [|y os1]]; [injection E as <- _; discriminate T| |].
    + injection E as <- <- _. cbn in T. injection T as <-. cbn in R. injection R as <- _. left. reflexivity.
    + exfalso. injection E as _ _ E.
      destruct os1 as [|x1 [|x2 [|x3 [|x4 [|x5 [|x6 l]]]]]]; injection E; intros; subst; cbn in T; try discriminate T.
      all: destruct l; discriminate.
  - unfold wf_packet, is_byte. cbn [pid ptype dlen pdata]. repeat split; try lia. apply Forall_app. split; [repeat constructor; lia|].
    apply Forall_forall. intros x X. apply repeat_spec in X. lia.
  - eexists. split; vm_compute; reflexivity.
Qed.
