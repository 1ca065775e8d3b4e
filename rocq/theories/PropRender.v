(** C55, C56: rendering a device. *)
From Coq Require Import ZArith Lia List Bool.
From Coq Require Import ZifyBool.
From Verif Require Import CInt CIntFacts Packet Fastled Device LedMgr SpecLed LedFacts RenderFacts.
Import ListNotations.
Open Scope Z_scope.
Ltac Zify.zify_post_hook ::= Z.div_mod_to_equations.

(** ** C55 *)
(** Position of the device's first LED in the LED buffer: the device's driver
    puts the on-board pixel first. *)
Definition device_starts_at (m : manager) : Z := match m with FastLed => 1 | Fake => 0 end.

Theorem C55_every_led_right : forall pl m d pixel picture clock buf,
  Forall wf_strip (strips d) -> leds_in (strips d) <= 255 ->
  Z.of_nat (length buf) = buffer_size m d ->
  (forall s j t, In s (strips d) -> 0 <= j < led_count s -> pixel s j t = Ok (picture s j t)) ->
  exists buf', RunEffect pl m d pixel clock buf = Ok buf' /\ length buf' = length buf /\
    (* LED j of the strip after [pre] *)
    (forall pre s post j, strips d = pre ++ s :: post -> 0 <= j < led_count s ->
       let position := leds_in pre + j in
       aget buf' (device_starts_at m + position) = Ok (shown picture s j (clock position))) /\
    (* the on-board pixel: a copy on devices with a single LED, else untouched *)
    (m = FastLed -> leds_in (strips d) = 1 -> aget buf' 0 = aget buf' 1) /\
    (m = FastLed -> leds_in (strips d) <> 1 -> aget buf' 0 = aget buf 0).
Proof.
  intros pl m d pixel picture clock buf W L B PX.
  pose proof (leds_in_pos _ W) as LP.
  assert (C : GetLedCount d = leds_in (strips d)) by (rewrite GetLedCount_eval by assumption; lia).
  destruct (strips_loop_ok pl m d pixel picture clock PX (strips d) 0 buf W) as (b & S & V & G & Z0 & O); auto; try lia.
  exists b. split; [exact S|]. split; [unfold vsize in V; lia|]. split; [|split].
  - intros pre s post j D J. cbv zeta. specialize (G pre s post j D J).
    replace (device_starts_at m + (leds_in pre + j)) with (first_led m + 0 + leds_in pre + j)
      by (unfold device_starts_at, first_led; destruct m; lia).
    rewrite G. repeat f_equal.
  - intros Q1 Q2. apply Z0; auto; lia.
  - intros -> Q. apply O; cbn [first_led]; intros; lia.
Qed.
Print Assumptions C55_every_led_right.

(** When the effect fails on some LED that is drawn, so does the rendering:
    nothing is skipped.  ("Drawn": on a strip that is not off.) *)
Theorem C55_nothing_skipped : forall pl m d pixel clock buf buf',
  Forall wf_strip (strips d) -> RunEffect pl m d pixel clock buf = Ok buf' ->
  forall pre s post j, strips d = pre ++ s :: post -> 0 <= j < led_count s -> FlagEnabled s Off = false ->
  exists c, pixel s (if FlagEnabled s Reversed then led_count s - 1 - j else j)
                  (clock (leds_in pre + j)) = Ok c.
Proof.
  intros pl m d pixel clock buf buf' W R pre s post j D J NO.
  assert (STEP : forall todo s i k b r, strip_loop pl m d pixel clock todo s i k b = Ok r -> fst r = k + Z.of_nat todo).
  { induction todo as [|n IH]; intros s0 i k b r; cbn [strip_loop]; [intros E; injection E as <-; cbn [fst]; lia|].
    intros E. destruct (led_colour _ _ _ _); cbn [obind] in E; try discriminate.
    destruct (SetLed _ _ _ _ _ _); cbn [obind] in E; try discriminate. apply IH in E. lia. }
  assert (IN : forall todo i k b r, strip_loop pl m d pixel clock todo s i k b = Ok r ->
            forall q, 0 <= q < Z.of_nat todo -> exists c, led_colour pixel s (i + q) (clock (k + q)) = Ok c).
  { induction todo as [|n IH]; intros i k b r E q Q; [lia|]. cbn [strip_loop] in E.
    destruct (led_colour pixel s i (clock k)) as [c| |] eqn:LC; cbn [obind] in E; try discriminate.
    destruct (SetLed _ _ _ _ _ _); cbn [obind] in E; try discriminate.
    destruct (Z.eq_dec q 0) as [->|N]; [rewrite !Z.add_0_r; eauto|].
    destruct (IH _ _ _ _ E (q - 1)) as (c' & Hc); [lia|].
    replace (i + 1 + (q - 1)) with (i + q) in Hc by lia. replace (k + 1 + (q - 1)) with (k + q) in Hc by lia. eauto. }
  assert (OUT : forall pre k b, strips_loop pl m d pixel clock (pre ++ s :: post) k b = Ok buf' ->
            Forall (fun s => 0 <= led_count s) pre ->
            exists c, led_colour pixel s j (clock (k + leds_in pre + j)) = Ok c).
  { clear pre D. induction pre as [|p pre IH]; intros k b E F; cbn [app strips_loop leds_in] in *.
    - destruct (strip_loop pl m d pixel clock (Z.to_nat (led_count s)) s 0 k b) as [[k' b']| |] eqn:SL; cbn [obind] in E; try discriminate.
      destruct (IN _ _ _ _ _ SL j) as (c & Hc); [lia|]. rewrite Z.add_0_l in Hc. rewrite Z.add_0_r. eauto.
    - inversion F; subst.
      destruct (strip_loop pl m d pixel clock (Z.to_nat (led_count p)) p 0 k b) as [[k' b']| |] eqn:SL; cbn [obind] in E; try discriminate.
      apply STEP in SL. cbn [fst] in SL. rewrite Z2Nat.id in SL by assumption.
      destruct (IH _ _ E) as (c & Hc); [assumption|]. exists c. rewrite <- Hc. f_equal. f_equal. lia. }
  assert (F : Forall (fun s => 0 <= led_count s) pre).
  { rewrite D in W. apply Forall_app in W as [W _]. eapply Forall_impl; [|exact W]. intros x [X _]. lia. }
  assert (WS : wf_strip s) by (rewrite D in W; apply Forall_elt in W; exact W).
  unfold RunEffect in R. rewrite D in R. destruct (OUT pre 0 buf R F) as (c & Hc).
  rewrite Z.add_0_l in Hc. unfold led_colour in Hc. rewrite NO in Hc.
  destruct WS as [WC _].
  destruct (FlagEnabled s Reversed).
  - rewrite u8_id in Hc by lia. replace (led_count s - 1 - j) with (led_count s - j - 1) by lia.
      destruct (pixel _ _ _); cbn [obind] in Hc; try discriminate. eauto.
  - destruct (pixel _ _ _); cbn [obind] in Hc; try discriminate. eauto.
Qed.
Print Assumptions C55_nothing_skipped.

Definition demo_device : device :=
  DeviceDescription 500 [StripDescription 3 [Reversed]; StripDescription 2 [Dim]; StripDescription 1 [Off]; StripDescription 2 []].
Definition demo_pixel (s : strip) (j t : Z) : rgb := mkRGB (8 * j) (16 * led_count s) (t mod 256).
Example C55_example : Forall wf_strip (strips demo_device) /\ leds_in (strips demo_device) = 8 /\
  RunEffect Arduino FastLed demo_device (fun s j t => Ok (demo_pixel s j t)) (fun k => 100 + k) (repeat black 9) =
  Ok [black; mkRGB 16 48 100; mkRGB 8 48 101; mkRGB 0 48 102; mkRGB 0 4 12; mkRGB 1 4 13; black; mkRGB 0 32 106; mkRGB 8 32 107].
Proof. split; [wf_strips|]. split; [reflexivity|]. vm_compute. reflexivity. Qed.

(** ** C56 *)
Theorem C56_no_bad_write_iff_at_most_255 : forall pl m d pixel picture clock buf,
  Forall wf_strip (strips d) -> Z.of_nat (length buf) = buffer_size m d ->
  (forall s j t, In s (strips d) -> 0 <= j < led_count s -> pixel s j t = Ok (picture s j t)) ->
  ((exists buf', RunEffect pl m d pixel clock buf = Ok buf') <-> leds_in (strips d) <= 255).
Proof.
  intros pl m d pixel picture clock buf W B PX. split.
  - intros (b & R). destruct (Z.le_gt_cases (leds_in (strips d)) 255) as [L|L]; [assumption|exfalso].
    pose proof (GetLedCount_eval d W) as GE. unfold RunEffect in R.
    rewrite (strips_loop_out pl m d pixel picture clock PX) in R; auto; try lia.
    unfold out_of_buffer in R. destruct m, pl; discriminate.
  - intros L. destruct (C55_every_led_right pl m d pixel picture clock buf W L B PX) as (b & R & _). eauto.
Qed.
Print Assumptions C56_no_bad_write_iff_at_most_255.

(** What happens beyond 255 LEDs: on the device a write outside the buffer; the
    host tests' manager notices it. *)
Theorem C56_out_of_bounds : forall pl m d pixel picture clock buf,
  Forall wf_strip (strips d) -> Z.of_nat (length buf) = buffer_size m d ->
  (forall s j t, In s (strips d) -> 0 <= j < led_count s -> pixel s j t = Ok (picture s j t)) ->
  255 < leds_in (strips d) ->
  RunEffect pl m d pixel clock buf = match m, pl with Fake, Host => Abort | _, _ => Undef end.
Proof.
  intros pl m d pixel picture clock buf W B PX L. pose proof (GetLedCount_eval d W) as GE.
  unfold RunEffect. rewrite (strips_loop_out pl m d pixel picture clock PX); auto; lia.
Qed.
Print Assumptions C56_out_of_bounds.

(** The reported LED count is the total modulo 256. *)
Theorem C56_reported_count : forall d, Forall wf_strip (strips d) -> GetLedCount d = leds_in (strips d) mod 256.
Proof. exact GetLedCount_eval. Qed.
Print Assumptions C56_reported_count.
Example C56_example :
  let d := DeviceDescription 500 [StripDescription 200 []; StripDescription 60 []] in
  Forall wf_strip (strips d) /\ leds_in (strips d) = 260 /\ GetLedCount d = 4 /\ buffer_size FastLed d = 5 /\
  RunEffect Arduino FastLed d (fun s j t => Ok (demo_pixel s j t)) (fun k => k) (repeat black 5) = Undef.
Proof. split; [wf_strips|]. vm_compute. auto. Qed.
