(** Proof support: the runs of the network manager's unit tests. *)
From Coq Require Import ZArith Lia List Bool.
From Coq Require Import ZifyBool.
From Verif Require Import CInt CIntFacts Packet SpecPacket PacketFacts NetMgr NetHist SpecNet NetFacts Rsm RsmStep RsmEval RsmFacts Bench FakeNetFacts UnitTests UnitFacts UnitRuns.
Import ListNotations.
Open Scope Z_scope.
Ltac Zify.zify_post_hook ::= Z.div_mod_to_equations.

Lemma packet_eqb_same p q : wf_packet p -> dlen p <= 58 -> pid q = pid p -> ptype q = ptype p -> dlen q = dlen p -> pdata q = pdata p ->
  packet_eqb p q = true.
Proof.
  intros W L E1 E2 E3 E4. destruct q as [a b c dd]. cbn in *. subst. 
  replace (mkPacket (pid p) (ptype p) (dlen p) (pdata p)) with p by (destruct p; reflexivity).
  apply (proj2 (packet_eqb_spec p p W W)). repeat split; auto.
Qed.

Lemma receive_nothing a now m i H f s ok :
  receive a (mkRig now (m, i) (mkWorld H f None s) ok) = Ok (Some false, mkRig now (m, i) (mkWorld H f None s) ok).
Proof. reflexivity. Qed.

Lemma receive_new a b now m i H f ok p q : H b = Some p -> H a = Some q -> nm_wf m ->
  existsb (fun x => x =? pid p) (nm_cache m) = false -> exists H',
  receive a (mkRig now (m, i) (mkWorld H f (Some b) None) ok) =
    Ok (Some true, mkRig now (nm_push m (pid p), i) (mkWorld H' (S f) (Some b) (Some f)) ok) /\
  forall c, H' c = put (put H a p) f p c.
Proof.
  intros Eb Ea W N. unfold receive, fr_readPacket, deref. cbn [g_radio received_packet heap g_sut fst snd g_now g_ok]. rewrite Eb.
  cbn [obind]. unfold assign. cbn [heap]. rewrite Ea. cbn [obind]. unfold nm_receive. rewrite N, nm_add_push by exact W. cbn [obind].
  cbn [transmit_all tx_packet]. unfold fr_sendPacket, new_packet, assign. cbn [heap Bench.fresh sent_packet received_packet].
  rewrite upd_same. cbn [obind]. eexists. split; [reflexivity|].
  intros c. unfold upd, put. destruct (Nat.eqb c f), (Nat.eqb c a); reflexivity.
Qed.

Lemma receive_known a b now m i H f s ok p q : H b = Some p -> H a = Some q ->
  existsb (fun x => x =? pid p) (nm_cache m) = true -> exists H',
  receive a (mkRig now (m, i) (mkWorld H f (Some b) s) ok) =
    Ok (Some false, mkRig now (m, i) (mkWorld H' f (Some b) s) ok) /\
  forall c, H' c = put H a p c.
Proof.
  intros Eb Ea N. unfold receive, fr_readPacket, deref. cbn [g_radio received_packet heap g_sut fst snd g_now g_ok]. rewrite Eb.
  cbn [obind]. unfold assign. cbn [heap]. rewrite Ea. cbn [obind]. unfold nm_receive. rewrite N. cbn [obind transmit_all].
  eexists. split; [reflexivity|]. reflexivity.
Qed.

Lemma send_eq dr a now m i H f r ok p : H a = Some p -> nm_wf m -> exists H',
  let q := set_id p (own_id (dr i)) in
  send (mkEnv Host dr) a (mkRig now (m, i) (mkWorld H f r None) ok) =
    Ok (Some tt, mkRig now (nm_push m (own_id (dr i)), S i) (mkWorld H' (S f) r (Some f)) ok) /\
  forall c, H' c = put (put H a q) f q c.
Proof.
  intros Ea W. unfold send, deref. cbn [g_radio received_packet heap g_sut fst snd g_now g_ok plat draw]. rewrite Ea. cbn [obind].
  rewrite nm_send_eq by exact W. cbn [obind]. unfold assign. cbn [heap]. rewrite Ea. cbn [obind].
  cbn [transmit_all tx_packet]. unfold fr_sendPacket, new_packet, assign. cbn [heap Bench.fresh sent_packet received_packet].
  rewrite upd_same. cbn [obind]. eexists. cbv zeta. split; [reflexivity|].
  intros c. unfold upd, put. rewrite id_of_own. destruct (Nat.eqb c f), (Nat.eqb c a); reflexivity.
Qed.

Lemma tbind_written {B} (k : nat -> T manager B) j id write now n H f r s ok : exists H',
  tbind (written j id write) k (mkRig now n (mkWorld H f r s) ok) =
    k f (mkRig now n (mkWorld H' (S f) r s) ok) /\
  forall b, H' b = put H f (write (mkPacket id (j_type j) 0 (j_data j))) b.
Proof.
  unfold written, declare. unfold tbind at 1 2, new_packet.
  cbn [g_radio g_now g_sut g_ok heap Bench.fresh sent_packet received_packet].
  unfold tbind at 1, load, deref. cbn [g_radio heap]. rewrite upd_same. cbn [obind].
  unfold tbind at 1, store, assign. cbn [g_radio g_now g_sut g_ok heap Bench.fresh sent_packet received_packet].
  rewrite upd_same. cbn [obind]. unfold tret. eexists. split; [reflexivity|].
  intros b. unfold upd, put. destruct (Nat.eqb b f); reflexivity.
Qed.
Lemma tbind_declare {B} {X} (k : nat -> T X B) ty dd now n H f r s ok : exists H',
  tbind (declare ty dd) k (mkRig now n (mkWorld H f r s) ok) =
    k f (mkRig now n (mkWorld H' (S f) r s) ok) /\
  forall b, H' b = put H f (mkPacket 0 ty 0 dd) b.
Proof. eexists. split; reflexivity. Qed.
Lemma tbind_received {B} {X} (k : unit -> T X B) now n H f r s ok a p : H a = Some p -> sound p -> exists H',
  tbind (setReceived a) k (mkRig now n (mkWorld H f r s) ok) = k tt (mkRig now n (mkWorld H' f (Some a) s) ok) /\
  forall b, H' b = put H a (zero_tail p) b.
Proof.
  intros E So. destruct (set_received_eq H f r s a p E So) as (H' & E1 & E2). exists H'. split; [|exact E2].
  unfold tbind, setReceived. cbn [g_radio g_now g_sut g_ok]. rewrite E1. reflexivity.
Qed.

Ltac write_local := match goal with
  | |- context [tbind (written ?j ?id ?w) ?k (mkRig ?now ?n (mkWorld ?H ?f ?r ?s) ?ok)] =>
      let H' := fresh "H" in let E := fresh "E" in let D := fresh "D" in
      destruct (tbind_written k j id w now n H f r s ok) as (H' & E & D); rewrite E; clear E
  end.
Ltac new_local := match goal with
  | |- context [tbind (declare ?ty ?dd) ?k (mkRig ?now ?n (mkWorld ?H ?f ?r ?s) ?ok)] =>
      let H' := fresh "H" in let E := fresh "E" in let D := fresh "D" in
      destruct (tbind_declare k ty dd now n H f r s ok) as (H' & E & D); rewrite E; clear E
  end.
Ltac store_it := match goal with
  | |- context [tbind (store (Some ?a) ?p) ?k (mkRig ?now ?n (mkWorld ?H ?f ?r ?s) ?ok)] =>
      let H' := fresh "H" in let E := fresh "E" in let D := fresh "D" in
      edestruct (tbind_store k now n H f r s ok a p) as (H' & E & D); [look; reflexivity|]; rewrite E; clear E
  end.
Ltac offer so := match goal with
  | |- context [tbind (setReceived ?a) ?k (mkRig ?now ?n (mkWorld ?H ?f ?r ?s) ?ok)] =>
      let H' := fresh "H" in let E := fresh "E" in let D := fresh "D" in
      edestruct (tbind_received k now n H f r s ok a) as (H' & E & D); [look; reflexivity|so|]; rewrite E; clear E
  end.
Ltac delete_it := match goal with
  | |- context [tbind (deleting (Some ?a)) ?k (mkRig ?now ?n (mkWorld ?H ?f ?r ?s) ?ok)] =>
      let H' := fresh "H" in let E := fresh "E" in let D := fresh "D" in
      edestruct (tbind_delete k now n H f r s ok a) as (H' & E & D); [look; reflexivity|]; rewrite E; clear E
  end.

Lemma tbind_bool {B} c b (k : unit -> T manager B) g r g' : c g = Ok (Some r, g') ->
  tbind (expect_bool c b) k g = k tt (mkRig (g_now g') (g_sut g') (g_radio g') (g_ok g' && Bool.eqb r b)).
Proof. intros E. unfold tbind at 1, expect_bool. unfold tbind at 1. rewrite E. reflexivity. Qed.

Section Runs.
Variable d : nat -> N.
Local Notation e := (mkEnv Host d).
Variables j j' j'' : junk.
Hypothesis J : junk_ok j.
Hypothesis J' : junk_ok j'.
Hypothesis J'' : junk_ok j''.

Ltac begin := unfold on_manager, fr_init.

Lemma run_noPackets : on_manager (receive_noPackets j j') = Ok true.
Proof.
  begin. unfold receive_noPackets. write_local. new_local.
  erewrite tbind_load by (look; reflexivity). store_it.
  erewrite tbind_bool by apply receive_nothing. cbn [g_now g_sut g_radio g_ok].
  erewrite tbind_load by (look; reflexivity). erewrite tbind_load by (look; reflexivity).
  unfold expect. cbn [g_now g_sut g_radio g_ok]. rewrite report_none. f_equal. cbn [Bool.eqb andb].
  apply packet_eqb_same; try reflexivity; [|cbn; lia].
  destruct J as (A & L & F). unfold wf_packet, is_byte, HEARTBEAT. cbn [pid ptype dlen pdata].
  rewrite list_set_length. repeat split; try lia; auto.
  apply list_set_Forall; [exact F|]. unfold is_byte. lia.
Qed.

Lemma heartbeat_eq id t : 0 <= id < 65536 -> packet_eqb (heartbeat_of id t) (heartbeat_of id t) = true.
Proof.
  intros R. apply packet_eqb_same; try reflexivity; [|cbn; lia].
  pose proof (hb_ok j J id t R) as W. exact W.
Qed.

Lemma run_setsPacket : on_manager (receive_setsPacket j j') = Ok true.
Proof.
  begin. unfold receive_setsPacket. new_local. write_local.
  offer ltac:(apply hb_sound; [exact J'|lia]). rewrite zero_heartbeat in D1 by exact J'.
  match goal with |- context [receive ?a] => match goal with |- context [mkRig ?now _ (mkWorld ?H ?f (Some ?b) None) ?ok] =>
    edestruct (receive_new a b now nm_init 0 H f ok) as (H3 & E3 & D3); [look; reflexivity|look; reflexivity|apply nm_init_wf|reflexivity|] end end.
  rewrite (tbind_bool _ _ _ _ _ _ E3). clear E3. cbn [g_now g_sut g_radio g_ok].
  erewrite tbind_load by (look; reflexivity). erewrite tbind_load by (look; reflexivity).
  unfold expect. cbn [g_now g_sut g_radio g_ok]. erewrite report_some by (look; reflexivity).
  rewrite heartbeat_eq by lia. reflexivity.
Qed.

Lemma run_doesntRebroadcast : on_manager (receive_doesntRebroadcastSentId e j j' j'') = Ok true.
Proof.
  begin. unfold receive_doesntRebroadcastSentId. write_local.
  match goal with |- context [mkRig ?now _ (mkWorld ?H ?f ?r None) ?ok] =>
    edestruct (send_eq d 0 now nm_init 0 H f r ok) as (H2 & E2 & D2); [look; reflexivity|apply nm_init_wf|] end.
  rewrite (tbind_ok _ _ _ _ _ E2). clear E2. rewrite tbind_sent. delete_it.
  erewrite tbind_load by (look; reflexivity). cbn [pid set_id]. write_local.
  assert (R : 0 <= own_id (d 0%nat) < 65536) by (rewrite <- id_of_own; apply id_of_range).
  offer ltac:(apply hb_sound; [exact J'|exact R]). rewrite zero_heartbeat in D3 by exact J'. new_local.
  match goal with |- context [receive ?a] => match goal with |- context [mkRig ?now (?m, ?i) (mkWorld ?H ?f (Some ?b) ?s) ?ok] =>
    edestruct (receive_known a b now m i H f s ok) as (H7 & E7 & D7); [look; reflexivity|look; reflexivity| |] end end.
  { change (nm_cache (nm_push nm_init (own_id (d 0%nat)))) with [own_id (d 0%nat); 0; 0; 0; 0].
    cbn [existsb pid heartbeat_of]. rewrite Z.eqb_refl. reflexivity. }
  rewrite (tbind_bool _ _ _ _ _ _ E7). reflexivity.
Qed.

Lemma run_send : on_manager (send_sendsPacket e j) = Ok (negb (Z.of_N (d 0%nat) mod 65535 =? 65534)).
Proof.
  begin. unfold send_sendsPacket. write_local.
  match goal with |- context [mkRig ?now _ (mkWorld ?H ?f ?r None) ?ok] =>
    edestruct (send_eq d 0 now nm_init 0 H f r ok) as (H2 & E2 & D2); [look; reflexivity|apply nm_init_wf|] end.
  rewrite (tbind_ok _ _ _ _ _ E2). clear E2. rewrite tbind_sent.
  erewrite tbind_load by (look; reflexivity). rewrite tbind_expect. cbn [pid set_id]. rewrite own_zero.
  erewrite tbind_load by (look; reflexivity). store_it.
  erewrite tbind_load by (look; reflexivity). erewrite tbind_load by (look; reflexivity). rewrite tbind_expect.
  edestruct (last_delete (X := manager)) as (Hz & Ez & _); [|rewrite Ez, report_none; f_equal].
  { look. reflexivity. }
  rewrite packet_eqb_same; try reflexivity.
  - cbn [andb]. rewrite andb_true_r. reflexivity.
  - apply set_id_wf; [|rewrite <- id_of_own; apply id_of_range]. apply writeHeartbeat_wf, junk_wf; [exact J|lia].
  - cbn. lia.
Qed.

Lemma push_in m id x : nm_wf m -> In x (nm_cache (nm_push m id)) -> In x (nm_cache m) \/ x = id.
Proof.
  intros _. unfold nm_push. cbn [nm_cache]. generalize (Z.to_nat (nm_index m)) as k. induction (nm_cache m) as [|y l IH]; intros k; cbn [list_set]; [tauto|].
  destruct k as [|k]; cbn [In]; intros [->|I]; auto. destruct (IH _ I); auto.
Qed.
Lemma push_has m id : nm_wf m -> existsb (fun x => x =? id) (nm_cache (nm_push m id)) = true.
Proof.
  intros W. apply (existsb_window _ _ (nm_push_wf m id W)).
  destruct (nm_add_ok m id W) as (m' & E & _ & Ew). rewrite (nm_add_push m id W) in E. injection E as <-.
  rewrite Ew. apply in_or_app. right. left. reflexivity.
Qed.
Lemma cache_new m id : (forall x, In x (nm_cache m) -> x <> id) -> existsb (fun x => x =? id) (nm_cache m) = false.
Proof.
  intros N. destruct (existsb _ _) eqn:E; [|reflexivity]. apply existsb_exists in E as (x & I & Ex).
  apply N in I. lia.
Qed.

Lemma hb_of_sound id t : 0 <= id < 65536 -> sound (heartbeat_of id t).
Proof. intros R. rewrite <- (zero_heartbeat j id t J). apply zero_tail_sound, hb_sound; auto. Qed.

Lemma tbind_renumber {B} (k : unit -> T manager B) i now n H f r s ok id b : H b = Some (heartbeat_of id 1) -> 0 <= i < 65536 -> exists H',
  tbind (renumber b i) k (mkRig now n (mkWorld H f r s) ok) = k tt (mkRig now n (mkWorld H' f (Some b) s) ok) /\
  forall c, H' c = put H b (heartbeat_of i 1) c.
Proof.
  intros Eb R.
  assert (E : exists H', renumber b i (mkRig now n (mkWorld H f r s) ok) = Ok (Some tt, mkRig now n (mkWorld H' f (Some b) s) ok) /\
    forall c, H' c = put H b (heartbeat_of i 1) c).
  { unfold renumber. rewrite (tbind_load _ _ _ _ _ _ _ _ _ _ Eb).
    change (mkPacket i (ptype (heartbeat_of id 1)) (dlen (heartbeat_of id 1)) (pdata (heartbeat_of id 1))) with (heartbeat_of i 1).
    destruct (tbind_store (fun _ => setReceived b) now n H f r s ok b (heartbeat_of i 1) _ Eb) as (Hx & Ex & Dx). rewrite Ex. clear Ex.
    assert (Bx : Hx b = Some (heartbeat_of i 1)) by (rewrite Dx; unfold put; rewrite Nat.eqb_refl; reflexivity).
    destruct (set_received_eq Hx f r s b _ Bx (hb_of_sound i 1 R)) as (Hy & Ey & Dy).
    unfold setReceived. cbn [g_radio g_now g_sut g_ok]. rewrite Ey. cbn [obind]. exists Hy. split; [reflexivity|].
    intros c. rewrite Dy. unfold put. rewrite Dx. unfold put. destruct (Nat.eqb c b); [|reflexivity].
    rewrite <- (zero_heartbeat j i 1 J) at 1. rewrite zero_tail_idem by (apply hb_sound; [exact J|exact R]). rewrite zero_heartbeat by exact J. reflexivity. }
  destruct E as (H' & E & D). exists H'. split; [|exact D]. rewrite (tbind_ok _ _ _ _ _ E). reflexivity.
Qed.
Lemma tbind_checked {B} (k : unit -> T manager B) i now n H f r ok a b : a <> b -> 0 <= i < 65536 ->
  H a = Some (heartbeat_of i 1) -> H b = Some (heartbeat_of i 1) -> exists H',
  tbind (expectEqualAndDelete (Some a) b) k (mkRig now n (mkWorld H f r None) ok) = k tt (mkRig now n (mkWorld H' f r None) ok) /\
  forall c, H' c = drop H a c.
Proof.
  intros Ne R Ea Eb.
  assert (E : exists H', expectEqualAndDelete (Some a) b (mkRig now n (mkWorld H f r None) ok) = Ok (Some tt, mkRig now n (mkWorld H' f r None) ok) /\
    forall c, H' c = drop H a c).
  { unfold expectEqualAndDelete. rewrite (tbind_load _ _ _ _ _ _ _ _ _ _ Ea), (tbind_load _ _ _ _ _ _ _ _ _ _ Eb).
    rewrite tbind_expect, heartbeat_eq by exact R. rewrite andb_true_r. apply last_delete with (q := heartbeat_of i 1). exact Ea. }
  destruct E as (H' & E & D). exists H'. split; [|exact D]. rewrite (tbind_ok _ _ _ _ _ E). reflexivity.
Qed.
Lemma tbind_nothing {B} (k : unit -> T manager B) now n H f r ok :
  tbind expect_nothing_sent k (mkRig now n (mkWorld H f r None) ok) = k tt (mkRig now n (mkWorld H f r None) ok).
Proof. unfold tbind, expect_nothing_sent, getSent, expect, tbind. cbn. rewrite andb_true_r. reflexivity. Qed.

Lemma run_round {B} (k : unit -> T manager B) i m n H f ok id q :
  H 0%nat = Some q -> H 1%nat = Some (heartbeat_of id 1) -> nm_wf m -> 0 <= i < 65536 ->
  (forall x, In x (nm_cache m) -> x <> i) -> exists H',
  H' 0%nat = Some (heartbeat_of i 1) /\ H' 1%nat = Some (heartbeat_of i 1) /\
  (renumber 1 i ;~ expect_bool (receive 0) true ;~ s <~ getSent; expectEqualAndDelete s 1 ;~ k tt) (mkRig 0 (m, n) (mkWorld H (S (S f)) (Some 1%nat) None) ok) =
  k tt (mkRig 0 (nm_push m i, n) (mkWorld H' (S (S (S f))) (Some 1%nat) None) ok).
Proof.
  intros H0 H1 W R N.
  match goal with |- context [tbind (renumber _ _) ?k0] => edestruct (tbind_renumber k0 i) as (Ha & Ea & Da); [exact H1|exact R|] end.
  rewrite Ea. clear Ea.
  edestruct (receive_new 0 1 0 m n Ha (S (S f)) ok) as (Hb & Eb & Db);
    [rewrite Da; reflexivity|rewrite Da; exact H0|exact W|apply cache_new; exact N|].
  rewrite (tbind_bool _ _ _ _ _ _ Eb). clear Eb. cbn [g_radio g_now g_sut g_ok Bool.eqb]. rewrite andb_true_r.
  rewrite tbind_sent.
  match goal with |- context [tbind (expectEqualAndDelete (Some ?a) ?b) ?k0] => edestruct (tbind_checked k0 i 0 (nm_push m i, n) Hb (S (S (S f))) (Some 1%nat) ok a b) as (Hc & Ec & Dc) end.
  { lia. } { exact R. }
  { rewrite Db. unfold put. rewrite Nat.eqb_refl. reflexivity. }
  { rewrite Db. unfold put. cbn [Nat.eqb]. rewrite Da. reflexivity. }
  exists Hc. split; [|split].
  - rewrite Dc. unfold drop. cbn [Nat.eqb]. rewrite Db. reflexivity.
  - rewrite Dc. unfold drop. cbn [Nat.eqb]. rewrite Db. unfold put. cbn [Nat.eqb]. rewrite Da. reflexivity.
  - exact Ec.
Qed.

Lemma run_rounds todo : forall i m n H f ok id q,
  H 0%nat = Some q -> H 1%nat = Some (heartbeat_of id 1) -> nm_wf m ->
  1 <= i -> i + Z.of_nat todo <= 6789 ->
  (forall x, In x (nm_cache m) -> x < i \/ 6789 <= x) ->
  report (rounds 0 1 todo i (mkRig 0 (m, n) (mkWorld H (S (S f)) (Some 1%nat) None) ok)) = Ok ok.
Proof.
  induction todo as [|todo IH]; intros i m n H f ok id q H0 H1 W Ri Rt N.
  { reflexivity. }
  cbn [rounds].
  match goal with |- context [tbind (expectEqualAndDelete _ _) ?k0] => 
    edestruct (run_round k0 i m n H f ok id q H0 H1 W) as (H' & A0 & A1 & E); [lia|intros x I; destruct (N x I); lia|] end.
  rewrite E. clear E. cbv beta.
  edestruct (receive_known 0 1 0 (nm_push m i) n H' (S (S (S f))) None ok) as (Hd & Ed & Dd);
    [exact A1|exact A0|apply push_has; exact W|].
  rewrite (tbind_bool _ _ _ _ _ _ Ed). clear Ed. cbn [g_radio g_now g_sut g_ok Bool.eqb]. rewrite andb_true_r, tbind_nothing.
  apply (IH (i + 1)) with (id := i) (q := heartbeat_of i 1); [rewrite Dd; reflexivity|rewrite Dd; exact A1|apply nm_push_wf; exact W|lia|lia|].
  intros x I. destruct (push_in _ _ _ W I) as [I'| ->]; [destruct (N x I')|]; lia.
Qed.

Lemma run_rebroadcasts n : Z.of_nat n <= 6788 -> on_manager (receive_rebroadcasts_for n j j') = Ok true.
Proof.
  intros Rn. begin. unfold receive_rebroadcasts_for. new_local. write_local.
  offer ltac:(apply hb_sound; [exact J'|lia]). rewrite zero_heartbeat in D1 by exact J'.
  edestruct (receive_new 0 1 0 nm_init 0 H1 2 true) as (H2 & E2 & D2);
    [look; reflexivity|look; reflexivity|apply nm_init_wf|reflexivity|].
  rewrite (tbind_bool _ _ _ _ _ _ E2). clear E2. cbn [g_radio g_now g_sut g_ok Bool.eqb andb].
  rewrite tbind_sent.
  match goal with |- context [tbind (expectEqualAndDelete (Some ?a) ?b) ?k0] => edestruct (tbind_checked k0 12345 0 (nm_push nm_init 12345, 0%nat) H2 3 (Some 1%nat) true a b) as (H3 & E3 & D3) end;
    [lia|lia|look; reflexivity|look; reflexivity|].
  change (pid (heartbeat_of 12345 1)) with 12345. rewrite E3. clear E3.
  edestruct (receive_known 0 1 0 (nm_push nm_init 12345) 0 H3 3 None true) as (H4 & E4 & D4);
    [look; reflexivity|look; reflexivity|reflexivity|].
  rewrite (tbind_ok _ _ _ _ _ E4). clear E4. rewrite tbind_nothing.
  assert (B1 : H4 1%nat = Some (heartbeat_of 12345 1)) by (look; reflexivity).
  assert (B0 : H4 0%nat = Some (heartbeat_of 12345 1)) by (look; reflexivity).
  match goal with |- context [tbind (expectEqualAndDelete _ _) ?k0] => 
    edestruct (run_round k0 6789 (nm_push nm_init 12345) 0 H4 1 true 12345 _ B0 B1) as (H5 & A0 & A1 & E5);
    [apply nm_push_wf, nm_init_wf|lia|intros x I; vm_compute in I; lia|] end.
  rewrite E5. clear E5.
  apply (run_rounds n 1 _ _ _ _ _ _ _ A0 A1); [apply nm_push_wf, nm_push_wf, nm_init_wf|lia|lia|].
  intros x I. vm_compute in I. lia.
Qed.
End Runs.
