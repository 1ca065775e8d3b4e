(** C131: what the small unit tests show. *)
From Coq Require Import ZArith Lia List Bool.
From Coq Require Import ZifyBool.
From Verif Require Import CInt CIntFacts Packet SpecPacket PacketFacts NetMgr SpecNet Rsm RsmHist SpecRsm RsmStep RsmEval RsmFacts Bench FakeNet FakeNetFacts PropFakeNet UnitTests UnitFacts PropUnitTests.
From Verif Require Import Fastled Maths Palette SpecColor PaletteFacts Device Effects PropNoise PropApi SmallTests.
Import ListNotations.
Open Scope Z_scope.
Ltac Zify.zify_post_hook ::= Z.div_mod_to_equations.

(** ** Colours, circles, strips and packets *)

(** Where the contract of the graphics library leaves no choice: the exact value
    has the same whole part for this fraction and the next. *)
Lemma determined fl a b f : fl_ok fl -> 0 <= a < 65536 -> 0 <= b < 65536 -> 0 <= f < 65536 ->
  Z.abs (b - a) * (f + 1) / 65536 = Z.abs (b - a) * f / 65536 ->
  fl_lerp16by16 fl a b f = if a <=? b then a + Z.abs (b - a) * f / 65536 else a - Z.abs (b - a) * f / 65536.
Proof.
  intros O A B F E. pose proof (ok_lerp16_between fl O a b f A B F) as X. pose proof (ok_lerp16_not_ahead fl O a b f A B F) as Y.
  pose proof (ok_lerp16_not_behind fl O a b f A B F) as Z0.
  set (x := fl_lerp16by16 fl a b f) in *. clearbody x. unfold between in X.
  assert (K : Z.abs (x - a) = Z.abs (b - a) * f / 65536).
  { set (u := Z.abs (b - a) * (f + 1)) in *. set (v := Z.abs (b - a) * f) in *. clearbody u v. lia. }
  set (q := Z.abs (b - a) * f / 65536) in *. clearbody q. destruct (a <=? b) eqn:L; lia.
Qed.

Ltac gradient_value O :=
  match goal with |- GetGradient ?fl ?p ?pos ?w = _ =>
    rewrite gradient_eval by (vm_compute; repeat constructor; try discriminate; reflexivity); cbv zeta;
    match goal with |- context [if ?c then _ else _] => let c' := eval vm_compute in c in change c with c'; cbv iota end;
    lazymatch goal with
    | |- context [mix_colors _ ?a ?b ?t] =>
        let a' := eval vm_compute in a in let b' := eval vm_compute in b in let t' := eval vm_compute in t in
        change a with a'; change b with b'; change t with t';
        unfold mix_colors; cbv zeta; cbn [hue sat val];
        repeat match goal with |- context [fl_lerp16by16 fl ?x ?y ?z] =>
          rewrite (determined fl x y z O) by (vm_compute; repeat split; try discriminate; reflexivity) end;
        vm_compute; reflexivity
    | _ => vm_compute; reflexivity
    end
  end.
(** Replaces the next gradient by what [fl_ref] gives. *)
Ltac next_gradient O :=
  match goal with |- context [GetGradient ?fl ?p ?pos ?w] =>
    let pos' := eval vm_compute in pos in
    let v := eval vm_compute in (GetGradient fl_ref p pos w) in
    let E := fresh in
    assert (E : GetGradient fl p pos w = v) by (change pos with pos'; gradient_value O); rewrite E; clear E; cbn [obind]
  end.

(** The tests of the palettes pass for every graphics library that keeps the
    contract; those of the mathematics, the strips and the packets always. *)
Theorem C131_colour_tests_pass fl : fl_ok fl ->
  indexColors = Ok true /\ lerpValues fl = Ok true /\ lerpOddNumberOfValues fl = Ok true /\
  wrapHueRedBlue fl = Ok true /\ wrapHueOrangePurple fl = Ok true /\ wrapHueNotValues fl = Ok true.
Proof.
  intros O. split; [reflexivity|].
  unfold lerpValues, lerpOddNumberOfValues, wrapHueRedBlue, wrapHueOrangePurple, wrapHueNotValues, red_green_blue.
  repeat split; cbv zeta; repeat next_gradient O; reflexivity.
Qed.
Print Assumptions C131_colour_tests_pass.
Example C131_colour_example : fl_ok fl_ref /\ GetGradient fl_ref red_green_blue 32767 true = Ok (mkHSV 127 255 255).
Proof. split; [exact fl_ref_ok|reflexivity]. Qed.

Theorem C131_other_tests_pass j : any_memory j ->
  shouldGetCardinalCordinates = Ok true /\ shouldMirrorIndicies = Ok true /\ usesFlagsCorrectly = Ok true /\
  serializesHeartbeat0 j = Ok true /\ serializesHeartbeat1 j = Ok true /\ serializesHeartbeatBig j = Ok true /\
  serializesSetEffect0 j = Ok true.
Proof.
  intros (T & L & B). repeat (split; [reflexivity|]).
  unfold serializesHeartbeat0, serializesHeartbeat1, serializesHeartbeatBig, serializesSetEffect0, serializesHeartbeat, expect_effect, fresh_packet.
  destruct j as [ty d]. cbn [j_type j_data] in *.
  destruct d as [|d0 [|d1 [|d2 [|d3 d]]]]; try discriminate L.
  repeat split; reflexivity.
Qed.
Print Assumptions C131_other_tests_pass.
Example C131_memory_example : any_memory (mkJunk 200 (repeat 77 58)).
Proof. split; [cbn; lia|]. split; [reflexivity|]. intros b I. apply (repeat_spec 58) in I. lia. Qed.

(** What passing means: a test passes exactly when every check in it holds, so
    the tests of the mathematics pass exactly when every listed call has the
    listed results. *)
Theorem C131_passing_means_every_check_holds : forall b rest,
  (EXPECT b rest = Ok true <-> b = true /\ rest = Ok true) /\ (ASSERT b rest = Ok true <-> b = true /\ rest = Ok true).
Proof.
  intros b rest. unfold EXPECT, ASSERT. destruct b, rest as [[|]| |]; cbn; repeat split; intros; try discriminate; try reflexivity; try (destruct H; discriminate).
Qed.
Print Assumptions C131_passing_means_every_check_holds.

Theorem C131_what_the_tests_of_the_mathematics_check : forall cases,
  (on_circle cases = Ok true <-> forall n i a r, In (n, i, a, r) cases -> GetPosOnCircle n i = Ok (a, r)) /\
  (mirrored cases = Ok true <-> forall i n i' n', In (i, n, i', n') cases -> MirrorIndex i n = Ok (i', n')).
Proof.
  induction cases as [|[[[x y] a] r] l [IH1 IH2]]; [split; (split; [intros _ ? ? ? ? []|reflexivity])|].
  cbn [on_circle mirrored]. split.
  - destruct (GetPosOnCircle x y) as [[u v]| |] eqn:E; cbn [obind].
    + rewrite (proj2 (C131_passing_means_every_check_holds _ _)), (proj2 (C131_passing_means_every_check_holds _ _)), IH1, !Z.eqb_eq. split.
      * intros (-> & -> & H) n i a' r' [[= <- <- <- <-]|I]; [exact E|apply H; exact I].
      * intros H. pose proof (H x y a r (or_introl eq_refl)) as Q. rewrite E in Q. injection Q as -> ->. split; [reflexivity|]. split; [reflexivity|]. intros. apply H. right. assumption.
    + split; [discriminate|]. intros H. specialize (H x y a r (or_introl eq_refl)). congruence.
    + split; [discriminate|]. intros H. specialize (H x y a r (or_introl eq_refl)). congruence.
  - destruct (MirrorIndex x y) as [[u v]| |] eqn:E; cbn [obind].
    + rewrite (proj2 (C131_passing_means_every_check_holds _ _)), (proj2 (C131_passing_means_every_check_holds _ _)), IH2, !Z.eqb_eq. split.
      * intros (-> & -> & H) n i a' r' [[= <- <- <- <-]|I]; [exact E|apply H; exact I].
      * intros H. pose proof (H x y a r (or_introl eq_refl)) as Q. rewrite E in Q. injection Q as -> ->. split; [reflexivity|]. split; [reflexivity|]. intros. apply H. right. assumption.
    + split; [discriminate|]. intros H. specialize (H x y a r (or_introl eq_refl)). congruence.
    + split; [discriminate|]. intros H. specialize (H x y a r (or_introl eq_refl)). congruence.
Qed.
Print Assumptions C131_what_the_tests_of_the_mathematics_check.
Example C131_a_wrong_case_is_noticed : mirrored [(0, 5, 0, 3); (4, 5, 1, 3)] = Ok false /\ MirrorIndex 4 5 = Ok (0, 3).
Proof. split; reflexivity. Qed.

(** ** The noise *)

Definition random_results (rnd : nat -> Z) : Prop := forall k, 0 <= rnd k < 2147483648.

Lemma for_all_iff todo : forall i body, for_all_from todo i body = true <-> forall k, (i <= k < i + todo)%nat -> body k = true.
Proof.
  induction todo as [|n IH]; intros i body; cbn [for_all_from].
  - split; [intros _ k K; lia|reflexivity].
  - rewrite andb_true_iff, IH. split.
    + intros [A B] k K. destruct (Nat.eq_dec k i) as [->|]; [exact A|]. apply B. lia.
    + intros H. split; [apply H; lia|]. intros k K. apply H. lia.
Qed.

Lemma clamp_near a b : Z.abs (a - b) <= 2 -> Z.abs (clamp (4 * a + 128) - clamp (4 * b + 128)) <= 8.
Proof.
  intros D. unfold clamp. destruct (256 <=? 4 * a + 128) eqn:E1, (256 <=? 4 * b + 128) eqn:E2,
      (4 * a + 128 <? 0) eqn:E3, (4 * b + 128 <? 0) eqn:E4; lia.
Qed.

(** Across an edge between tiles the field moves by at most 2. *)
Lemma row_edge G j v : (forall a b, grad (G a b)) -> -256 <= v <= 256 -> Z.abs (row G j 0 v - row G j (-1) v) <= 2.
Proof.
  intros Gok V. unfold row. change (0 mod 256) with 0. change (-1 mod 256) with 255. change (0 / 256) with 0. change (-1 / 256) with (-1).
  change (weight 255) with 256. change (weight 0) with 1. rewrite mix_end.
  pose proof (mix_start (dot 0 v (G 0 j)) (dot (0 - 256) v (G (0 + 1) j)) ltac:(apply dot_apart_x; auto; lia)).
  pose proof (dot_step (255 - 256) v 0 v (G (-1 + 1) j) ltac:(auto) ltac:(lia) ltac:(lia)). change (-1 + 1) with 0 in *. lia.
Qed.
Lemma field_edge_x G y : (forall a b, grad (G a b)) -> Z.abs (field G 0 y - field G (-1) y) <= 2.
Proof.
  intros Gok. unfold field. pose proof (weight_range (y mod 256) ltac:(lia)). apply mix_near; [lia| |]; apply row_edge; auto; lia.
Qed.
Lemma field_edge_y G x : (forall a b, grad (G a b)) -> Z.abs (field G x 0 - field G x (-1)) <= 2.
Proof.
  intros Gok. unfold field. change (0 mod 256) with 0. change (-1 mod 256) with 255. change (0 / 256) with 0. change (-1 / 256) with (-1).
  change (weight 255) with 256. change (weight 0) with 1. rewrite mix_end.
  pose proof (mix_start (row G 0 x 0) (row G (0 + 1) x (0 - 256)) ltac:(apply row_apart; auto; lia)).
  pose proof (row_step_v G Gok (-1 + 1) x (255 - 256) 0 ltac:(lia)). change (-1 + 1) with 0 in *. lia.
Qed.

(** shouldWrapAround passes for all random numbers: where the coordinates wrap
    around, the noise is as continuous as the test asks. *)
Theorem C131_wrap_around_passes fl rnd : fastled_lerp fl -> random_results rnd -> shouldWrapAround fl rnd = true.
Proof.
  intros H R. unfold shouldWrapAround. apply andb_true_iff. split; apply for_all_iff; intros k _; cbv zeta; unfold close, tolerance;
    apply Z.leb_le; specialize (R k).
  - pose proof (noise_wrapped fl 0 (rnd k) H) as N1. pose proof (noise_wrapped fl (-1) (rnd k) H) as N2.
    change (u32 0) with 0 in N1. change (u32 (-1)) with 4294967295 in N2. rewrite (u32_id (rnd k)) in N1, N2 by lia. rewrite N1, N2.
    apply clamp_near. apply field_edge_x. apply corner_grad.
  - pose proof (noise_wrapped fl (rnd k) 0 H) as N1. pose proof (noise_wrapped fl (rnd k) (-1) H) as N2.
    change (u32 0) with 0 in N1. change (u32 (-1)) with 4294967295 in N2. rewrite (u32_id (rnd k)) in N1, N2 by lia. rewrite N1, N2.
    apply clamp_near. apply field_edge_y. apply corner_grad.
Qed.
Print Assumptions C131_wrap_around_passes.

(** The other four tests of the noise do not pass for all random numbers. *)
Definition numbers_at (k : nat) (l : list Z) (m : nat) : Z := if (m <? k)%nat then 0 else nth (m - k) l 0.
Lemma numbers_random k l : (forall z, In z l -> 0 <= z < 2147483648) -> random_results (numbers_at k l).
Proof.
  intros H m. unfold numbers_at. destruct (m <? k)%nat; [lia|]. destruct (nth_in_or_default (m - k) l 0) as [I| ->]; [auto|lia].
Qed.
Lemma round_fails todo body k : (k < todo)%nat -> body k = false -> for_all_from todo 0 body <> true.
Proof. intros K B H. rewrite for_all_iff in H. rewrite (H k ltac:(lia)) in B. discriminate. Qed.

Theorem C131_noise_tests_pass_refuted :
  ~ (forall rnd, random_results rnd -> shouldProduceContiguousNoise fl_ref rnd = true) /\
  ~ (forall rnd, random_results rnd -> shouldProduceContiguousNoiseLinearly fl_ref rnd = true) /\
  ~ (forall rnd, random_results rnd -> shouldProduceContiguousNoiseRadially fl_ref rnd = true) /\
  ~ (forall rnd, random_results rnd -> shouldWrapAroundPolar fl_ref rnd = true).
Proof.
  repeat split; intros H.
  - specialize (H (numbers_at 0 [489; 253]) ltac:(apply numbers_random; cbn [In]; intuition lia)).
    unfold shouldProduceContiguousNoise, shouldProduceContiguousNoiseLinearly, shouldProduceContiguousNoiseRadially, shouldWrapAroundPolar in H.
    eapply (round_fails 255 _ 0); [apply Nat.ltb_lt; reflexivity| |exact H]. vm_compute. reflexivity.
  - specialize (H (numbers_at 642 [95060; 676; 24]) ltac:(apply numbers_random; cbn [In]; intuition lia)).
    unfold shouldProduceContiguousNoise, shouldProduceContiguousNoiseLinearly, shouldProduceContiguousNoiseRadially, shouldWrapAroundPolar in H.
    eapply (round_fails 255 _ 214); [apply Nat.ltb_lt; reflexivity| |exact H]. vm_compute. reflexivity.
  - specialize (H (numbers_at 243 [11045; 978; 219]) ltac:(apply numbers_random; cbn [In]; intuition lia)).
    unfold shouldProduceContiguousNoise, shouldProduceContiguousNoiseLinearly, shouldProduceContiguousNoiseRadially, shouldWrapAroundPolar in H.
    eapply (round_fails 255 _ 81); [apply Nat.ltb_lt; reflexivity| |exact H]. vm_compute. reflexivity.
  - specialize (H (numbers_at 0 [24719; 256; 254]) ltac:(apply numbers_random; cbn [In]; intuition lia)).
    unfold shouldProduceContiguousNoise, shouldProduceContiguousNoiseLinearly, shouldProduceContiguousNoiseRadially, shouldWrapAroundPolar in H.
    eapply (round_fails 255 _ 0); [apply Nat.ltb_lt; reflexivity| |exact H]. vm_compute. reflexivity.
Qed.
Print Assumptions C131_noise_tests_pass_refuted.
(** The formulas of [fl_ref] are those the wrap-around test needs. *)
Example C131_noise_example : fastled_lerp fl_ref /\ random_results (fun k => Z.of_nat k mod 1000) /\
  close (perlinNoise fl_ref 0 100) (perlinNoise fl_ref 4294967295 100) = true /\
  close (perlinNoise fl_ref 489 253) (perlinNoise fl_ref 490 254) = false.
Proof. split; [exact ref_lerp|]. split; [intros k; lia|]. split; vm_compute; reflexivity. Qed.

(** ** Invalid packets *)

Lemma time_passes s N k w : fsteps s N (repeat (FAdvance 1) k) w = Ok (FakeNet.advanceMillis (Z.of_nat k) w).
Proof.
  revert w. induction k as [|k IH]; intros w.
  - destruct w. unfold FakeNet.advanceMillis, set_clock. cbn. do 2 f_equal. lia.
  - cbn [repeat fsteps fstep obind]. rewrite IH. destruct w. unfold FakeNet.advanceMillis, set_clock. cbn -[Z.of_nat]. do 2 f_equal. lia.
Qed.

(** Whatever packet it is given, the test ends well and no node sees the packet:
    the network that gets it is never run, and its nodes are as they were when it
    was made. *)
Theorem C131_invalid_packets_reach_nobody s s' id type length :
  FakeNetFacts.junk_ok s -> FakeNetFacts.junk_ok s' ->
  In id kPacketIds -> In type kPacketTypes -> In length kPacketLengths ->
  exists w w' new, InvalidPacketTest s s' (invalid_packet id type length) = Ok (w, w') /\
    (exists v v', FakeDestroy kNumNodes w = Ok v /\ FakeDestroy kNumNodes w' = Ok v' /\ forall a, f_heap v a = None /\ f_heap v' a = None) /\
    FakeNetwork s' kNumNodes = Ok new /\ f_log w' = f_log new /\ forall i, (i < kNumNodes)%nat -> f_node w' i = f_node new i.
Proof.
  intros J J' I T L.
  assert (W : wf_packet (invalid_packet id type length)).
  { unfold invalid_packet, kPacketIds, kPacketTypes, kPacketLengths in *. cbn [In] in I, T, L.
    split; [cbn; lia|]. split; [cbn; lia|]. split; [unfold is_byte; cbn; lia|]. split; [reflexivity|].
    cbn [pdata]. repeat (apply Forall_cons; [unfold is_byte; lia|]). apply Forall_nil. }
  set (p := invalid_packet id type length) in *. clearbody p.
  assert (F1 : Forall (fop_ok kNumNodes) (runTicks 10 ++ runTicks 10)) by (cbn; repeat constructor; cbn; lia).
  assert (F2 : Forall (fop_ok kNumNodes) (repeat (FAdvance 1) 10 ++ [FTransmit p] ++ repeat (FAdvance 1) 10)) by (cbn; repeat constructor; cbn; try lia; apply W).
  assert (B : Z.of_nat kNumNodes < 4000000000) by (vm_compute; reflexivity).
  destruct (C117_the_simulation_is_sound s kNumNodes _ J B F1) as (w & E1 & v & D1 & H1).
  destruct (C117_the_simulation_is_sound s' kNumNodes _ J' B F2) as (w' & E2 & v' & D2 & H2).
  destruct (FakeNetwork_ok s' kNumNodes J' B) as (new & E3 & _).
  exists w, w', new. split.
  { unfold InvalidPacketTest. rewrite E1. cbn [obind]. rewrite E2. reflexivity. }
  split. { exists v, v'. repeat split; auto. }
  split; [exact E3|].
  assert (Sm : simulated s' kNumNodes (repeat (FAdvance 1) 10 ++ [FTransmit p] ++ repeat (FAdvance 1) 10) w') by (repeat (split; [assumption|]); exact E2).
  destruct (C117_injected_packets_reach_nobody _ _ _ _ Sm) as (u & (_ & _ & _ & E4) & L1 & _ & _ & N1).
  change (filter _ _) with (repeat (FAdvance 1) 20) in E4. unfold frun in E4. rewrite E3 in E4. cbn [obind] in E4. rewrite time_passes in E4. injection E4 as <-.
  split; [rewrite <- L1; reflexivity|]. intros i Hi. destruct (N1 i Hi) as [<- _]. reflexivity.
Qed.
Print Assumptions C131_invalid_packets_reach_nobody.

(** That the packets are harmless is not so: a node of the host build that does
    hear one of them, with an id it has not seen lately, stops with a failed
    assertion.  An effect of the wrong length is enough, in either state. *)
Theorem C131_invalid_packets_are_harmless_refuted e t0 h n t id length :
  hist e t0 h n -> plat e = Host -> In id kPacketIds -> In length kPacketLengths ->
  ~ In id (last5 (all_ids h)) -> length <> 3 ->
  step e (u32 t) (OTick (Some (invalid_packet id 2 length))) n = Abort.
Proof.
  intros H P I L N3 Ne. apply (C38_host_abort_iff e t0 h n _ t H P).
  - unfold invalid_packet, kPacketIds, kPacketLengths in *. cbn [In] in I, L. cbn [op_ok].
    split; [cbn; lia|]. split; [cbn; lia|]. split; [unfold is_byte; cbn; lia|]. split; [reflexivity|].
    cbn [pdata]. repeat (apply Forall_cons; [unfold is_byte; lia|]). apply Forall_nil.
  - exists (invalid_packet id 2 length). split; [reflexivity|]. split; [exact N3|]. right. left. split; [reflexivity|exact Ne].
Qed.
Print Assumptions C131_invalid_packets_are_harmless_refuted.
(** A node that has just been switched on and a packet of the test. *)
Example C131_invalid_example : exists n, hist (mkEnv Host (fun _ => 7%N)) 0 [] n /\
  step (mkEnv Host (fun _ => 7%N)) 0 (OTick (Some (invalid_packet 1 2 4))) n = Abort.
Proof.
  eexists. split.
  - apply (hist_start _ _ 0 0 (repeat 0 58) (repeat 0 58)); [lia| | |reflexivity]; repeat split; cbn; try lia;
      apply Forall_forall; intros b I; apply (repeat_spec 58) in I; subst b; unfold is_byte; lia.
  - vm_compute. reflexivity.
Qed.
