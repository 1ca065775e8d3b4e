(** Proof support: running the tests of the effects. *)
From Coq Require Import ZArith Lia List Bool.
From Coq Require Import ZifyBool.
From Verif Require Import CInt CIntFacts Packet SpecPacket PacketFacts NetMgr NetHist SpecNet NetFacts Rsm RsmStep RsmEval RsmFacts Bench FakeNetFacts UnitTests UnitFacts.
From Verif Require Import Fastled Maths Palette Device LedMgr SpecLed LedFacts RenderFacts PropRender Effects SpecEffect RgbFacts Show ShowFacts PropShow EffectTests.
Import ListNotations.
Open Scope Z_scope.
Ltac Zify.zify_post_hook ::= Z.div_mod_to_equations.

(** Which object answers to effect number [i]. *)
Definition object_of (i : Z) : nat :=
  nth (Z.to_nat i) [0;0;1;1;2;3;3;4;5;6;6;6;6;7;7;7;7;8;8;9;9;9;9;10;10;10;10;11;12;13;14;15;16;17;18]%nat 0%nat.

Definition the_table (o : offsets) : table pointer_to := built (numbered (builtin o)).
Lemma table_made o : add_all Host empty_table (numbered (builtin o)) = Ok (the_table o).
Proof. reflexivity. Qed.
Lemma table_gives o i : 0 <= i < 35 -> GetEffect Host (the_table o) i = Ok (object_of i, effect_number o i).
Proof.
  revert i. apply below35. repeat (apply Forall_cons; [reflexivity|]). apply Forall_nil.
Qed.
Lemma table_count o : GetNumEffects (the_table o) = 27.
Proof. reflexivity. Qed.
Lemma table_gone o : exists l, destroy (the_table o) control_pointer = Ok l.
Proof. eexists. reflexivity. Qed.

Lemma pointer_is o p i k : asks_for Host p i k -> i < 35 ->
  CurrentPointer (the_table o) p = Ok (object_of i, effect_number o i).
Proof.
  intros A I. destruct (asked_bytes Host p i k A) as [[I1 I2] _]. unfold CurrentPointer. rewrite (proj1 (proj2 A)).
  change (SET_EFFECT =? SET_CONTROL) with false. cbv iota. rewrite (effect_read Host p i k A). cbn [obind]. apply table_gives. lia.
Qed.

(** A device on which the firefly effect cannot shift by 32 or more. *)
Definition drawable (d : device) : Prop :=
  Forall wf_strip (strips d) /\ leds_in (strips d) <= 255 /\
  forall s, In s (strips d) -> FlagEnabled s Controller = true -> led_count s <= 32.

Lemma drawn_once fl d o p i k t leds : fl_ok fl -> drawable d -> asks_for Host p i k -> 0 <= i < 35 -> k < 22 ->
  Z.of_nat (length leds) = GetLedCount d ->
  exists leds', RunEffect Host Fake d (fun s j tm => x <- CurrentPointer (the_table o) p ;; GetRGB Host fl (snd x) j tm s p)
     (fun _ => t) leds = Ok leds' /\ length leds' = length leds.
Proof.
  intros OK (W & L & C) A I K B.
  assert (Se : selects Host i i) by (split; [rewrite Z.mod_small; lia|intros _; lia]).
  destruct (C58_whole_picture Host fl Fake d o p i k i (fun _ => t) leds OK A K Se W L B) as (b & E & Lb).
  - intros s j Hs J (_ & Cf & _ & J32). specialize (C s Hs Cf). lia.
  - exists b. split; [|exact Lb]. rewrite <- E, Show_eval. apply RunEffect_ext. intros s j q _.
    rewrite (pointer_is o p i k A) by lia. unfold current_pixel.
    destruct (current_selected Host o p i k i A Se) as [-> _]. reflexivity.
Qed.

(** What is around between two statements of the loops. *)
Definition packets_ok (w : world) (a : nat) : Prop :=
  (forall b p, heap w b = Some p -> wf_packet p) /\ heap w a <> None /\
  match sent_packet w with None => True | Some b => heap w b <> None end.
Definition node_ok (n : node) : Prop := RsmStep.good n /\ millis_offset n = 0.

Lemma send_ok p w a : wf_packet p -> packets_ok w a -> exists w', fr_sendPacket p w = Ok w' /\ packets_ok w' a.
Proof.
  intros Wp (H1 & H2 & H3). destruct w as [H f r s]. cbn [heap sent_packet] in *. unfold fr_sendPacket. cbn [sent_packet].
  destruct s as [b|].
  - unfold assign. cbn [heap Bench.fresh received_packet sent_packet]. destruct (H b) as [q|] eqn:E; [|congruence]. eexists. split; [reflexivity|].
    split; [|split]; cbn [heap sent_packet]; unfold upd.
    + intros c q'. destruct (Nat.eqb c b); [intros [= <-]; exact Wp|apply H1].
    + destruct (Nat.eqb a b); [discriminate|exact H2].
    + rewrite Nat.eqb_refl. discriminate.
  - unfold new_packet, assign. cbn [heap Bench.fresh received_packet sent_packet]. rewrite upd_same. eexists. split; [reflexivity|].
    split; [|split]; cbn [heap sent_packet]; unfold upd.
    + intros c q'. destruct (Nat.eqb c f); [intros [= <-]; exact Wp|apply H1].
    + destruct (Nat.eqb a f); [discriminate|exact H2].
    + rewrite Nat.eqb_refl. discriminate.
Qed.

Lemma write_asks i k p : wf_packet p -> 0 <= i < 256 -> 0 <= k < 256 -> asks_for Host (writeSetEffect i 0 k p) i k.
Proof.
  intros W I K. pose proof (writeSetEffect_wf i 0 k p W) as W'. split; [exact W'|]. split; [reflexivity|]. split; [reflexivity|].
  destruct W as (_ & _ & _ & L & _). unfold writeSetEffect. cbn [pdata].
  destruct (pdata p) as [|x0 [|x1 [|x2 r]]]; try (cbn in L; lia). cbn [list_set nth]. rewrite !u8_id by lia. auto.
Qed.

Lemma set_effect_runs e a now n w i k p : node_ok n -> plat e = Host -> 0 <= now < 4294967296 -> packets_ok w a ->
  heap w a = Some p -> asks_for Host p i k -> exists n' w',
  set_effect e a (mkRig now n w true) = Ok (Some tt, mkRig now n' w' true) /\
  node_ok n' /\ packets_ok w' a /\ asks_for Host (GetSetEffect n') i k.
Proof.
  intros [G Mo] P R Pk E A. unfold set_effect, deref. cbn [g_radio g_now g_sut g_ok]. rewrite E. cbn [obind].
  pose proof A as (Wp & Ty & Ln & B0 & B2). specialize (Ln eq_refl).
  rewrite (SetEffect_eq e now n p G Wp).
  assert (Rd : readableb e SET_EFFECT 3 p = true).
  { unfold readableb. rewrite P. unfold kind_ok. rewrite Ty, Ln. reflexivity. }
  rewrite Rd. cbn [obind transmit].
  assert (Ri : 0 <= RsmStep.fresh e n < 65536) by (unfold RsmStep.fresh; apply id_of_range).
  assert (G' : RsmStep.good (api_after e now n p)).
  { eapply (step_good e now n (OSetEffect p)); eauto. eapply step_inv; eauto. cbn [step]. rewrite (SetEffect_eq e now n p G Wp), Rd. reflexivity. }
  destruct (send_ok (set_id p (RsmStep.fresh e n)) w a (set_id_wf _ _ Wp Ri) Pk) as (w' & -> & Pk').
  cbn [obind]. eexists _, w'. split; [reflexivity|]. split; [split; [exact G'|exact Mo]|]. split; [exact Pk'|].
  split; [apply set_id_wf; assumption|]. split; [exact Ty|]. split; [intros _; exact Ln|]. split; [exact B0|exact B2].
Qed.

Lemma on_node_eq {A} (c : T node A) now n leds l w ok a now' n' w' ok' :
  c (mkRig now n w ok) = Ok (a, mkRig now' n' w' ok') ->
  on_node c (mkRig now (mkStand n leds l) w ok) = Ok (a, mkRig now' (mkStand n' leds l) w' ok').
Proof. intros E. unfold on_node. cbn [g_now g_sut g_radio g_ok st_node st_leds st_drawn]. rewrite E. reflexivity. Qed.
Lemma tbind_eq {S A B} (c : T S A) (k : A -> T S B) g a g' : c g = Ok (Some a, g') -> tbind c k g = k a g'.
Proof. intros E. unfold tbind. rewrite E. reflexivity. Qed.

(** The inner loop. *)
Lemma draw_runs fl d o i k n w : fl_ok fl -> drawable d -> node_ok n -> asks_for Host (GetSetEffect n) i k -> 0 <= i < 35 -> k < 22 ->
  forall ts now leds l, 0 <= now < 4294967296 -> Z.of_nat (length leds) = GetLedCount d ->
  exists now' leds', draw_at fl d (the_table o) ts (mkRig now (mkStand n leds l) w true) =
    Ok (Some tt, mkRig now' (mkStand n leds' (l ++ map (fun t => mkDrawing (object_of i) k (u32 t)) ts)) w true) /\
    0 <= now' < 4294967296 /\ length leds' = length leds.
Proof.
  intros OK D [G Mo] A I K. induction ts as [|t ts IH]; intros now leds l R L.
  - exists now, leds. cbn [draw_at map]. rewrite app_nil_r. split; [reflexivity|]. split; [exact R|reflexivity].
  - cbn [draw_at]. erewrite tbind_eq by (unfold setMillis; reflexivity). cbn [g_now g_sut g_radio g_ok].
    destruct (drawn_once fl d o (GetSetEffect n) i k (GetNetworkMillis (u32 t) n) leds OK D A I K L) as (leds1 & E1 & L1).
    assert (Nt : GetNetworkMillis (u32 t) n = u32 t).
    { unfold GetNetworkMillis. rewrite Mo. unfold u32. lia. }
    destruct (IH (u32 t) leds1 (l ++ [mkDrawing (object_of i) k (u32 t)]) (u32_range _)) as (now' & leds' & E & R' & L').
    { rewrite L1. exact L. }
    exists now', leds'. split; [|split; [exact R'|congruence]].
    erewrite tbind_eq; [|unfold run_effect; cbn [g_now g_sut g_radio g_ok st_node st_leds st_drawn]; rewrite E1; cbn [obind]; reflexivity].
    rewrite (pointer_is o _ i k A) by lia. cbn [fst]. rewrite Nt.
    pose proof A as (_ & _ & _ & _ & B2). rewrite B2. rewrite E. cbn [map]. rewrite <- app_assoc. reflexivity.
Qed.

(** The outer loop draws each object the first time it comes up. *)
Fixpoint firsts (asked : list (Z * Z)) (ran : list nat) : list (nat * Z) :=
  match asked with
  | [] => []
  | (i, k) :: rest =>
      if existsb (Nat.eqb (object_of i)) ran then firsts rest ran
      else (object_of i, k) :: firsts rest (ran ++ [object_of i])
  end.
Definition all_drawn (ts : list Z) (l : list (nat * Z)) : list drawing :=
  flat_map (fun xk => map (fun t => mkDrawing (fst xk) (snd xk) (u32 t)) ts) l.

Lemma loop_runs e fl d o ts a : plat e = Host -> fl_ok fl -> drawable d ->
  forall asked ran now n leds l w, Forall (fun ik => 0 <= fst ik < 35 /\ 0 <= snd ik < 22) asked ->
  0 <= now < 4294967296 -> node_ok n -> packets_ok w a -> Z.of_nat (length leds) = GetLedCount d ->
  exists now' n' leds' w', run_all e fl d (the_table o) ts a asked ran (mkRig now (mkStand n leds l) w true) =
    Ok (Some tt, mkRig now' (mkStand n' leds' (l ++ all_drawn ts (firsts asked ran))) w' true) /\
    0 <= now' < 4294967296 /\ node_ok n' /\ packets_ok w' a.
Proof.
  intros P OK D. induction asked as [|[i k] asked IH]; intros ran now n leds l w F R N Pk L.
  - exists now, n, leds, w. cbn [run_all firsts all_drawn flat_map]. rewrite app_nil_r. split; [reflexivity|]. auto.
  - inversion F as [|? ? [I K] F']; subst. cbn [fst snd] in I, K. cbn [run_all].
    destruct Pk as (H1 & H2 & H3). destruct (heap w a) as [p|] eqn:E; [|congruence]. pose proof (H1 a p E) as Wp.
    erewrite tbind_eq by (unfold load, deref; cbn [g_radio]; rewrite E; reflexivity).
    pose proof (write_asks i k p Wp ltac:(lia) ltac:(lia)) as A0.
    set (w1 := mkWorld (upd (heap w) a (Some (writeSetEffect i 0 k p))) (Bench.fresh w) (received_packet w) (sent_packet w)).
    erewrite tbind_eq by (unfold store, assign; cbn [g_radio g_now g_sut g_ok]; rewrite E; reflexivity). fold w1.
    assert (Pk1 : packets_ok w1 a).
    { subst w1. split; [|split]; cbn [heap sent_packet]; unfold upd.
      - intros b q. destruct (Nat.eqb b a); [intros [= <-]; apply A0|apply H1].
      - rewrite Nat.eqb_refl. discriminate.
      - destruct (sent_packet w) as [b|]; [|exact Logic.I]. destruct (Nat.eqb b a); [discriminate|exact H3]. }
    assert (Ea : heap w1 a = Some (writeSetEffect i 0 k p)) by (subst w1; cbn [heap]; apply upd_same).
    destruct (set_effect_runs e a now n w1 i k _ N P R Pk1 Ea A0) as (n2 & w2 & E2 & N2 & Pk2 & A2).
    erewrite tbind_eq by (apply on_node_eq; exact E2).
    erewrite tbind_eq.
    2:{ unfold current_pointer. cbn [g_sut st_node]. unfold lifting. rewrite (pointer_is o _ i k A2) by lia. reflexivity. }
    cbn [fst firsts]. destruct (existsb (Nat.eqb (object_of i)) ran).
    + apply IH; assumption.
    + destruct (draw_runs fl d o i k n2 w2 OK D N2 A2 ltac:(lia) ltac:(lia) ts now leds l R L) as (now3 & leds3 & E3 & R3 & L3).
      rewrite (tbind_eq _ _ _ _ _ E3).
      destruct (IH (ran ++ [object_of i]) now3 n2 leds3 (l ++ map (fun t => mkDrawing (object_of i) k (u32 t)) ts) w2 F' R3 N2 Pk2 ltac:(congruence))
        as (now' & n' & leds' & w' & E' & R' & N' & Pk').
      exists now', n', leds', w'. rewrite E'. split; [|auto]. unfold all_drawn. cbn [flat_map fst snd]. rewrite <- app_assoc. reflexivity.
Qed.

(** Between the parts of a test: packets are sound, and the radio's outbox is
    empty or holds one that lives. *)
Definition radio_ok (w : world) : Prop :=
  (forall b p, heap w b = Some p -> wf_packet p) /\
  match sent_packet w with None => True | Some b => heap w b <> None end.
Lemma packets_radio w a : packets_ok w a -> radio_ok w.
Proof. intros (A & _ & C). split; assumption. Qed.

Lemma manager_made o memory now n leds l w : node_ok n -> exists n',
  new_manager o memory (mkRig now (mkStand n leds l) w true) =
    Ok (Some (the_table o), mkRig now (mkStand n' memory l) w true) /\ node_ok n' /\ num_effects n' = 27 /\ num_palettes n' = 22.
Proof.
  intros [G Mo]. unfold new_manager. rewrite (tbind_eq _ _ _ (the_table o) (mkRig now (mkStand n leds l) w true)) by (unfold lifting; rewrite table_made; reflexivity).
  erewrite tbind_eq; [|apply on_node_eq; unfold set_num_effects, SetNumEffects, mupd; cbn [g_sut g_now g_radio g_ok obind]; reflexivity].
  erewrite tbind_eq; [|apply on_node_eq; unfold set_num_palettes, SetNumPalettes, mupd; cbn [g_sut g_now g_radio g_ok obind]; reflexivity].
  cbn [g_now g_sut g_radio g_ok st_node st_drawn]. eexists. split; [reflexivity|]. split; [|split; reflexivity].
  split; [|exact Mo]. destruct G. constructor; cbn; try assumption; apply u8_range.
Qed.

Lemma declare_runs {X} j now (s : X) w : junk_ok j -> radio_ok w -> exists w',
  declare (j_type j) (j_data j) (mkRig now s w true) = Ok (Some (Bench.fresh w), mkRig now s w' true) /\ packets_ok w' (Bench.fresh w).
Proof.
  intros J (A & B). unfold declare, new_packet. cbn [g_radio g_now g_sut g_ok]. eexists. split; [reflexivity|].
  split; [|split]; cbn [heap sent_packet]; unfold upd.
  - intros b p. destruct (Nat.eqb b (Bench.fresh w)); [intros [= <-]; apply junk_wf; [exact J|lia]|apply A].
  - rewrite Nat.eqb_refl. discriminate.
  - destruct (sent_packet w) as [b|]; [|exact Logic.I]. destruct (Nat.eqb b (Bench.fresh w)); [discriminate|exact B].
Qed.

Definition random_ones : list (nat * Z) := map (fun k => (k, 0)) (seq 0 11).
Lemma asked_firsts : firsts (map (fun i => (i, 0)) (numbers 27)) [] = random_ones.
Proof. reflexivity. Qed.
Lemma palettes_firsts : firsts (list_prod (numbers 27) (numbers 22)) [] = random_ones.
Proof. vm_compute. reflexivity. Qed.

Lemma numbers_in n i : In i (numbers n) -> 0 <= i < n.
Proof. unfold numbers. intros I. apply in_map_iff in I as (k & <- & I). apply in_seq in I. lia. Qed.

Section Device.
Variable d : nat -> N.
Let e := mkEnv Host d.
Variable fl : fastled.
Hypothesis OK : fl_ok fl.
Variable j : junk.
Hypothesis J : junk_ok j.

Lemma device_runs dev o memory maxTime step now n leds l w : drawable dev -> Z.of_nat (length memory) = GetLedCount dev ->
  0 <= now < 4294967296 -> node_ok n -> radio_ok w -> exists now' n' leds' w',
  on_device e fl j o memory dev maxTime step (mkRig now (mkStand n leds l) w true) =
    Ok (Some tt, mkRig now' (mkStand n' leds' (l ++ all_drawn (loop_times maxTime step) random_ones)) w' true) /\
  0 <= now' < 4294967296 /\ node_ok n' /\ radio_ok w'.
Proof.
  intros D M R N Rw. unfold on_device. destruct (manager_made o memory now n leds l w N) as (n1 & E1 & N1 & _).
  rewrite (tbind_eq _ _ _ _ _ E1). unfold runEffectsTest.
  destruct (declare_runs j now (mkStand n1 memory l) w J Rw) as (w1 & E2 & P1).
  destruct (loop_runs e fl dev o (loop_times maxTime step) (Bench.fresh w) eq_refl OK D
     (map (fun i => (i, 0)) (numbers (GetNumEffects (the_table o)))) [] now n1 memory l w1) as (now' & n' & leds' & w' & E3 & R' & N' & P'); auto.
  { apply Forall_forall. intros [i k] I. apply in_map_iff in I as (z & [= -> <-] & I). rewrite table_count in I. apply numbers_in in I. cbn [fst snd]. lia. }
  exists now', n', leds', w'. split; [|split; [exact R'|split; [exact N'|eapply packets_radio; exact P']]].
  rewrite table_count, asked_firsts in E3.
  erewrite tbind_eq; [|rewrite (tbind_eq _ _ _ _ _ E2); rewrite table_count; exact E3].
  destruct (table_gone o) as (gone & E4). unfold delete_manager. unfold tbind, lifting. rewrite E4. reflexivity.
Qed.

Lemma start_stand now j1 j2 body : junk_ok j1 -> junk_ok j2 -> 0 <= now < 4294967296 -> exists n, node_ok n /\
  on_stand e now j1 j2 body = body (mkRig now (mkStand n [] []) fr_init true).
Proof.
  intros J1 J2 R. unfold on_stand. rewrite construct_eq. cbn [obind]. eexists. split; [|reflexivity].
  split; [|reflexivity]. constructor; cbn; try lia; try apply u32_range.
  - split; cbn; [reflexivity|lia].
  - reflexivity.
  - apply junk_wf; auto; lia.
  - apply writeSetEffect_wf, junk_wf; auto; lia.
Qed.
Lemma radio_new : radio_ok fr_init.
Proof. split; [discriminate|exact Logic.I]. Qed.

Lemma reports_true now s w : radio_ok w -> report (S := stand) (Ok (Some tt, mkRig now s w true)) = Ok true.
Proof.
  intros (A & B). unfold report. cbn [g_radio g_ok]. unfold fr_destroy. destruct (sent_packet w) as [b|]; [|reflexivity].
  unfold delete. destruct (heap w b); [reflexivity|congruence].
Qed.

(** A test passes, and this is what it had the LED manager draw. *)
Definition passes (r : outcome (option unit * rig stand)) (l : list drawing) : Prop :=
  report r = Ok true /\ exists g, r = Ok (Some tt, g) /\ st_drawn (g_sut g) = l.

Lemma device_passes now j1 j2 dev o memory maxTime step : junk_ok j1 -> junk_ok j2 -> 0 <= now < 4294967296 ->
  drawable dev -> Z.of_nat (length memory) = GetLedCount dev ->
  passes (on_stand e now j1 j2 (on_device e fl j o memory dev maxTime step)) (all_drawn (loop_times maxTime step) random_ones).
Proof.
  intros J1 J2 R D M. destruct (start_stand now j1 j2 (on_device e fl j o memory dev maxTime step) J1 J2 R) as (n & N & ->).
  destruct (device_runs dev o memory maxTime step now n [] [] fr_init D M R N radio_new) as (now' & n' & leds' & w' & E & R' & N' & Rw).
  rewrite E. split; [apply reports_true; exact Rw|]. eexists. split; [reflexivity|]. reflexivity.
Qed.

Lemma values_run os ms todo : (forall z, In z todo -> 0 <= z <= 255 /\ Z.of_nat (length (ms z)) = z) ->
  forall now n leds l w, 0 <= now < 4294967296 -> node_ok n -> radio_ok w -> exists now' n' leds' w',
  led_values e fl j os ms todo (mkRig now (mkStand n leds l) w true) =
    Ok (Some tt, mkRig now' (mkStand n' leds' (l ++ flat_map (fun _ => all_drawn (loop_times 10000 100) random_ones) todo)) w' true) /\
  0 <= now' < 4294967296 /\ node_ok n' /\ radio_ok w'.
Proof.
  induction todo as [|z todo IH]; intros F now n leds l w R N Rw.
  - exists now, n, leds, w. cbn [led_values flat_map]. rewrite app_nil_r. split; [reflexivity|auto].
  - destruct (F z (or_introl eq_refl)) as [Z1 Z2]. cbn [led_values].
    assert (Lc : GetLedCount (strip_of z) = z).
    { unfold GetLedCount, strip_of, DeviceDescription, StripDescription. cbn [strips fold_left led_count]. unfold u16, u8. lia. }
    assert (D : drawable (strip_of z)).
    { unfold drawable, strip_of, DeviceDescription, StripDescription. cbn [strips].
      split; [apply Forall_cons; [|apply Forall_nil]; split; cbn [led_count flags fold_left]; [apply u8_range|split; reflexivity || discriminate]|].
      split; [unfold leds_in; cbn; unfold u8; lia|]. intros s [<-|[]] C. discriminate C. }
    destruct (device_runs (strip_of z) (os z) (ms z) 10000 100 now n leds l w D ltac:(lia) R N Rw) as (now1 & n1 & leds1 & w1 & E1 & R1 & N1 & Rw1).
    rewrite (tbind_eq _ _ _ _ _ E1).
    destruct (IH (fun z I => F z (or_intror I)) now1 n1 leds1 (l ++ all_drawn (loop_times 10000 100) random_ones) w1 R1 N1 Rw1) as (now' & n' & leds' & w' & E & H).
    exists now', n', leds', w'. rewrite E. split; [|exact H]. cbn [flat_map]. rewrite <- app_assoc. reflexivity.
Qed.
End Device.
