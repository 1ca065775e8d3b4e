(** C130: what the tests of the effects and of the LED manager show. *)
From Coq Require Import ZArith Lia List Bool.
From Coq Require Import ZifyBool.
From Verif Require Import CInt CIntFacts Packet SpecPacket PacketFacts NetMgr NetHist SpecNet NetFacts Rsm RsmStep RsmEval RsmFacts Bench FakeNetFacts UnitTests UnitFacts PropUnitTests.
From Verif Require Import Fastled Maths Palette SpecColor PaletteFacts PropColor Device LedMgr SpecLed LedFacts RenderFacts PropRender Effects SpecEffect RgbFacts Show ShowFacts PropShow PropMotion EffectTests EffectRuns.
Import ListNotations.
Open Scope Z_scope.
Ltac Zify.zify_post_hook ::= Z.div_mod_to_equations.

(** ** The tests of the effects *)

(** The calls of RunEffect, one after another, when the eleven effects the
    network can choose by itself are drawn once each, in order and with palette 0,
    at the times 0, step, 2 step, ... below [max]. *)
Definition eleven_drawn (max step : Z) : list drawing :=
  flat_map (fun object => map (fun k => mkDrawing object 0 (Z.of_nat k * step))
                              (seq 0 (Z.to_nat ((max + step - 1) / step))))
           [0; 1; 2; 3; 4; 5; 6; 7; 8; 9; 10]%nat.

Lemma eleven_is max step : 0 < step -> 0 <= max -> max + step <= 4294967296 ->
  all_drawn (loop_times max step) random_ones = eleven_drawn max step.
Proof.
  intros S M B. unfold all_drawn, eleven_drawn, random_ones.
  rewrite flat_map_concat_map, map_map, <- flat_map_concat_map.
  change (seq 0 11) with [0; 1; 2; 3; 4; 5; 6; 7; 8; 9; 10]%nat.
  apply flat_map_ext. intros x. cbn [fst snd]. unfold loop_times. rewrite map_map. apply map_ext_in. intros k I. apply in_seq in I.
  rewrite u32_id; [reflexivity|]. assert (Z.of_nat k < (max + step - 1) / step) by lia. nia.
Qed.

Lemma expected e now j1 j2 b body : b = true -> on_stand e now j1 j2 (expect b ;~ body) = on_stand e now j1 j2 body.
Proof. intros ->. unfold on_stand. destruct (construct _ _ _ _ _ _); reflexivity. Qed.

Lemma eleven_objects max step x : In x (eleven_drawn max step) -> (dr_object x < 11)%nat /\ dr_palette x = 0.
Proof.
  unfold eleven_drawn. rewrite in_flat_map. intros (k & K & I). apply in_map_iff in I as (i & <- & _). cbn [dr_object dr_palette].
  split; [|reflexivity]. cbn [In] in K. lia.
Qed.

(** The closed form of the loop: [time] runs over the multiples of the step
    below the limit, in order. *)
Lemma loop_times_are max step t : 0 < step -> 0 <= max ->
  In t (loop_times max step) <-> 0 <= t < max /\ t mod step = 0.
Proof.
  intros S M. unfold loop_times. rewrite in_map_iff. split.
  - intros (k & <- & I). apply in_seq in I. assert (Z.of_nat k < (max + step - 1) / step) by lia.
    split; [nia|]. apply Z.mod_mul. lia.
  - intros (R & D). exists (Z.to_nat (t / step)). split.
    + rewrite Z2Nat.id by (apply Z.div_pos; lia). pose proof (Z.div_mod t step ltac:(lia)). nia.
    + apply in_seq. pose proof (Z.div_mod t step ltac:(lia)). pose proof (Z.div_pos t step ltac:(lia) S).
      split; [lia|]. apply Nat2Z.inj_lt. rewrite Nat2Z.inj_add, !Z2Nat.id by (try apply Z.div_pos; lia). 
      assert (t / step + 1 <= (max + step - 1) / step); [|lia].
      apply Z.div_le_lower_bound; [lia|]. lia.
Qed.

(** Memory full of sevens and nines; the second drawing of the second effect. *)
Example C130_example :
  let memory := fun z => repeat (mkRGB 7 7 7) (Z.to_nat z) in
  let j := mkJunk 3 (repeat 9 58) in
  fl_ok fl_ref /\ any_memory j /\ (forall z, 0 <= z <= 255 -> length (memory z) = Z.to_nat z) /\
  nth_error (eleven_drawn 600 10) 61 = Some (mkDrawing 1 0 10) /\ length (eleven_drawn 600 10) = 660%nat.
Proof.
  cbv zeta. split; [exact fl_ref_ok|]. split; [|split; [|split; reflexivity]].
  - split; [cbn; lia|]. split; [reflexivity|]. intros b I. apply (repeat_spec 58) in I. lia.
  - intros z _. apply repeat_length.
Qed.

#[local] Opaque loop_times eleven_drawn all_drawn.

(** The five tests of EffectsTest.cpp pass, for every value of every random
    number, whatever uninitialised memory holds and whatever the clock shows at
    the start; and what they draw is fixed. *)
Theorem C130_effect_tests_pass d fl j1 j2 j now (o : offsets) (os : Z -> offsets) (memory : Z -> list rgb) :
  fl_ok fl -> any_memory j1 -> any_memory j2 -> any_memory j -> 0 <= now < 4294967296 ->
  (forall z, 0 <= z <= 255 -> length (memory z) = Z.to_nat z) ->
  let e := mkEnv Host d in
  passes (on_stand e now j1 j2 (oneLed e fl j o (memory 1))) (eleven_drawn 60000 1) /\
  passes (on_stand e now j1 j2 (hundredLeds e fl j o (memory 100))) (eleven_drawn 60000 1) /\
  passes (on_stand e now j1 j2 (multipleStrips e fl j o (memory 42))) (eleven_drawn 60000 1) /\
  passes (on_stand e now j1 j2 (allLedValues e fl j os memory))
         (concat (repeat (eleven_drawn 10000 100) 256)) /\
  passes (on_stand e now j1 j2 (allColorPalettes e fl j o (memory 20))) (eleven_drawn 60000 10).
Proof.
  intros OK M1 M2 M R Mem e. apply any_memory_ok in M1, M2, M.
  assert (D1 : forall z, 0 <= z <= 255 -> drawable (strip_of z) /\ Z.of_nat (length (memory z)) = GetLedCount (strip_of z)).
  { intros z Z0. unfold drawable, strip_of, DeviceDescription, StripDescription, GetLedCount. cbn [strips].
    split; [split; [|split]|].
    - apply Forall_cons; [|apply Forall_nil]. split; cbn [led_count flags fold_left]; [apply u8_range|split; reflexivity || discriminate].
    - unfold leds_in; cbn. unfold u8. lia.
    - intros s [<-|[]] C. discriminate C.
    - cbn [fold_left led_count]. rewrite (Mem z Z0). unfold u16, u8. lia. }
  assert (D3 : drawable three_strips).
  { split; [|split].
    - repeat (apply Forall_cons; [split; split; reflexivity || discriminate|]). apply Forall_nil.
    - vm_compute. discriminate.
    - intros s [<-|[<-|[<-|[]]]] C; discriminate C. }
  split; [|split; [|split; [|split]]].
  - rewrite <- eleven_is by lia. destruct (D1 1 ltac:(lia)) as [D L]. unfold oneLed.
    exact (device_passes d fl OK j M now j1 j2 (strip_of 1) o (memory 1) 60000 1 M1 M2 R D L).
  - rewrite <- eleven_is by lia. destruct (D1 100 ltac:(lia)) as [D L]. unfold hundredLeds.
    exact (device_passes d fl OK j M now j1 j2 (strip_of 100) o (memory 100) 60000 1 M1 M2 R D L).
  - rewrite <- eleven_is by lia. unfold multipleStrips.
    pose proof (device_passes d fl OK j M now j1 j2 three_strips o (memory 42) 60000 1 M1 M2 R D3) as P. fold e in P.
    rewrite (Mem 42 ltac:(lia)) in P. specialize (P eq_refl).
    rewrite expected by reflexivity. exact P.
  - unfold allLedValues. destruct (start_stand d now j1 j2 (led_values e fl j os memory (numbers 256)) M1 M2 R) as (n & N & E).
    fold e in E. rewrite E.
    destruct (values_run d fl OK j M os memory (numbers 256)) with (now := now) (n := n) (leds := @nil rgb) (l := @nil drawing) (w := fr_init)
      as (now' & n' & leds' & w' & E' & R' & N' & Rw); auto using radio_new.
    { intros z I. apply numbers_in in I. split; [lia|]. rewrite Mem by lia. lia. }
    fold e in E'. rewrite E'. split; [apply reports_true; exact Rw|]. eexists. split; [reflexivity|]. cbn [g_sut st_drawn app].
    rewrite (eleven_is 10000 100) by lia. rewrite flat_map_concat_map. f_equal.
  - rewrite <- eleven_is by lia. destruct (D1 20 ltac:(lia)) as [D L]. unfold allColorPalettes.
    match goal with |- passes (on_stand _ _ _ _ ?b) _ => destruct (start_stand d now j1 j2 b M1 M2 R) as (n & N & E) end.
    fold e in E. rewrite E. clear E.
    destruct (manager_made o (memory 20) now n [] [] fr_init N) as (n1 & E1 & N1 & _). rewrite (tbind_eq _ _ _ _ _ E1).
    destruct (declare_runs j now (mkStand n1 (memory 20) []) fr_init M radio_new) as (w1 & E2 & P1). rewrite (tbind_eq _ _ _ _ _ E2).
    destruct (loop_runs e fl (strip_of 20) o (loop_times 60000 10) (Bench.fresh fr_init) eq_refl OK D
      (list_prod (numbers (GetNumEffects (the_table o))) (numbers (Z.of_nat (length palettes)))) [] now n1 (memory 20) [] w1)
      as (now' & n' & leds' & w' & E3 & R' & N' & P'); auto.
    { apply Forall_forall. intros [i k] I. apply in_prod_iff in I as [I K]. rewrite table_count in I. apply numbers_in in I, K.
      change (Z.of_nat (length palettes)) with 22 in K. cbn [fst snd]. lia. }
    rewrite (tbind_eq _ _ _ _ _ E3). rewrite table_count in *. change (Z.of_nat (length palettes)) with 22 in *. rewrite palettes_firsts in *.
    destruct (table_gone o) as (gone & E4). unfold delete_manager. unfold tbind at 1, lifting. rewrite E4.
    split; [apply reports_true; eapply packets_radio; exact P'|]. eexists. split; [reflexivity|]. cbn [g_sut st_drawn app]. reflexivity.
Qed.
Print Assumptions C130_effect_tests_pass.



(** The effect tests as one list. *)
Definition effect_tests (e : env) (fl : fastled) (j : junk) (o : offsets) (os : Z -> offsets) (memory : Z -> list rgb) : list (T stand unit) :=
  [oneLed e fl j o (memory 1); hundredLeds e fl j o (memory 100); multipleStrips e fl j o (memory 42);
   allLedValues e fl j os memory; allColorPalettes e fl j o (memory 20)].

Lemma tests_draw d fl j1 j2 j now o os memory test :
  fl_ok fl -> any_memory j1 -> any_memory j2 -> any_memory j -> 0 <= now < 4294967296 ->
  (forall z, 0 <= z <= 255 -> length (memory z) = Z.to_nat z) ->
  In test (effect_tests (mkEnv Host d) fl j o os memory) -> exists g,
  on_stand (mkEnv Host d) now j1 j2 test = Ok (Some tt, g) /\
  forall x, In x (st_drawn (g_sut g)) -> (dr_object x < 11)%nat /\ dr_palette x = 0.
Proof.
  intros OK M1 M2 M R Mem I.
  destruct (C130_effect_tests_pass d fl j1 j2 j now o os memory OK M1 M2 M R Mem) as ((_ & g1 & E1 & D1) & (_ & g2 & E2 & D2) & (_ & g3 & E3 & D3) & (_ & g4 & E4 & D4) & (_ & g5 & E5 & D5)).
  unfold effect_tests in I. destruct I as [<-|[<-|[<-|[<-|[<-|[]]]]]].
  - exists g1. split; [exact E1|]. rewrite D1. intros x. exact (eleven_objects 60000 1 x).
  - exists g2. split; [exact E2|]. rewrite D2. intros x. exact (eleven_objects 60000 1 x).
  - exists g3. split; [exact E3|]. rewrite D3. intros x. exact (eleven_objects 60000 1 x).
  - exists g4. split; [exact E4|]. rewrite D4. intros x X. apply in_concat in X as (l & L & X). apply repeat_spec in L. rewrite L in X.
    exact (eleven_objects 10000 100 x X).
  - exists g5. split; [exact E5|]. rewrite D5. intros x. exact (eleven_objects 60000 10 x).
Qed.

(** For every effect a person can choose (numbers 0 to 34), some test draws it:
    false for the numbers 27 to 34. *)
Theorem C130_every_effect_is_drawn_refuted d fl j1 j2 j now o os memory i :
  fl_ok fl -> any_memory j1 -> any_memory j2 -> any_memory j -> 0 <= now < 4294967296 ->
  (forall z, 0 <= z <= 255 -> length (memory z) = Z.to_nat z) -> 27 <= i < 35 ->
  (exists p x, asks_for Host p i 0 /\ CurrentPointer (the_table o) p = Ok x /\ snd x = effect_number o i /\ forall test, In test (effect_tests (mkEnv Host d) fl j o os memory) ->
     exists g, on_stand (mkEnv Host d) now j1 j2 test = Ok (Some tt, g) /\
     ~ exists dr, In dr (st_drawn (g_sut g)) /\ dr_object dr = fst x).
Proof.
  intros OK M1 M2 M R Mem I.
  pose (p := writeSetEffect i 0 0 (mkPacket 0 0 0 (repeat 0 58))).
  assert (W : wf_packet (mkPacket 0 0 0 (repeat 0 58))).
  { repeat split; cbn; try lia. apply Forall_forall. intros x X. apply (repeat_spec 58) in X. subst x. unfold is_byte. lia. }
  exists p, (object_of i, effect_number o i).
  assert (A : asks_for Host p i 0) by (apply write_asks; [exact W|lia|lia]).
  split; [exact A|]. split; [exact (pointer_is o p i 0 A ltac:(lia))|]. split; [reflexivity|]. intros test T.
  destruct (tests_draw d fl j1 j2 j now o os memory test OK M1 M2 M R Mem T) as (g & E & D).
  exists g. split; [exact E|]. intros (dr & I' & Ob). destruct (D dr I') as [L _]. cbn [fst] in Ob. rewrite Ob in L.
  assert (C : i = 27 \/ i = 28 \/ i = 29 \/ i = 30 \/ i = 31 \/ i = 32 \/ i = 33 \/ i = 34) by lia.
  clear - C L. destruct C as [->|[->|[->|[->|[->|[->|[->| ->]]]]]]]; vm_compute in L; lia.
Qed.
Print Assumptions C130_every_effect_is_drawn_refuted.

(** allColorPalettes tries every palette: false; no test draws with a palette
    other than number 0, the plain red. *)
Theorem C130_every_palette_is_drawn_refuted d fl j1 j2 j now o os memory :
  fl_ok fl -> any_memory j1 -> any_memory j2 -> any_memory j -> 0 <= now < 4294967296 ->
  (forall z, 0 <= z <= 255 -> length (memory z) = Z.to_nat z) ->
  forall test k, In test (effect_tests (mkEnv Host d) fl j o os memory) -> 0 < k -> exists g,
  on_stand (mkEnv Host d) now j1 j2 test = Ok (Some tt, g) /\
  ~ exists dr, In dr (st_drawn (g_sut g)) /\ dr_palette dr = k.
Proof.
  intros OK M1 M2 M R Mem test k T K.
  destruct (tests_draw d fl j1 j2 j now o os memory test OK M1 M2 M R Mem T) as (g & E & D).
  exists g. split; [exact E|]. intros (dr & I' & P). destruct (D dr I') as (_ & Z0). lia.
Qed.
Print Assumptions C130_every_palette_is_drawn_refuted.

(** ** The tests of the LED manager *)

(** The 256 colours of the fire effect. *)
Definition flame_colour (fl : fastled) (b : Z) : rgb :=
  match GetGradient fl fire_palette (256 * b) false with Ok c => fl_hsv2rgb fl c | _ => mkRGB 0 0 0 end.

(** What the third test needs of the colour conversion of the graphics library:
    no colour of the fire is the half bright red of a blink, or full red. *)
Definition tells_apart (fl : fastled) : Prop := forall b, 0 <= b < 256 ->
  flame_colour fl b <> fl_hsv2rgb fl (mkHSV 0 255 127) /\ flame_colour fl b <> mkRGB 255 0 0.

Lemma fire_is fl x t : fl_ok fl -> exists b, 0 <= b < 256 /\
  Fire_GetRGB fl x 0 t (StripDescription 1 []) = Ok (flame_colour fl b).
Proof.
  intros OK. unfold Fire_GetRGB. cbv zeta.
  change (maybe_mirror (StripDescription 1 []) 0) with (Ok (0, 1)). cbn [obind].
  change (FlagEnabled (StripDescription 1 []) Circular) with false. cbv iota. cbn [obind].
  match goal with |- context [u8 ?z] => pose proof (u8_range z) as B; set (b := u8 z) in * end. clearbody b.
  exists b. split; [exact B|]. rewrite Z.shiftl_mul_pow2 by lia. change (2 ^ 8) with 256. rewrite u16_id by lia.
  unfold flame_colour. rewrite (Z.mul_comm 256 b).
  destruct (C48_between_neighbours fl fire_palette false (b * 256) OK fire_gradient ltac:(lia)) as (c & -> & _). reflexivity.
Qed.

Lemma blink_is fl p : asks_for Host p 0 0 -> 
  SimpleBlink_GetRGB Host fl 10 0 0 (StripDescription 1 []) p = Ok (fl_hsv2rgb fl (mkHSV 0 255 127)) /\
  SimpleBlink_GetRGB Host fl 10 0 15 (StripDescription 1 []) p = Ok (mkRGB 0 0 0).
Proof.
  intros A. split; [|reflexivity].
  unfold SimpleBlink_GetRGB. change (udiv 0 10) with (Ok 0). cbn [obind]. change (0 mod 3 =? 0) with true. cbv iota.
  destruct (packet_palette_eval Host p 0 0 A ltac:(lia)) as [PP _]. rewrite PP. cbn [obind]. reflexivity.
Qed.

Lemma police_is : Police_GetRGB 0 0 (StripDescription 1 []) = Ok (mkRGB 255 0 0).
Proof. reflexivity. Qed.

Lemma police_is15 : Police_GetRGB 0 15 (StripDescription 1 []) = Ok (mkRGB 255 0 0).
Proof. reflexivity. Qed.
Lemma load_runs {X} a p now (s : X) w ok : heap w a = Some p -> load (Some a) (mkRig now s w ok) = Ok (Some p, mkRig now s w ok).
Proof. intros E. unfold load, deref. cbn [g_radio]. rewrite E. reflexivity. Qed.
Lemma store_runs {X} a p q now (s : X) w ok : heap w a = Some p ->
  store (Some a) q (mkRig now s w ok) = Ok (Some tt, mkRig now s (mkWorld (upd (heap w) a (Some q)) (Bench.fresh w) (received_packet w) (sent_packet w)) ok).
Proof. intros E. unfold store, assign. cbn [g_radio g_now g_sut g_ok]. rewrite E. reflexivity. Qed.
Lemma expect_runs {X} b now (s : X) w ok : expect b (mkRig now s w ok) = Ok (Some tt, mkRig now s w (ok && b)).
Proof. reflexivity. Qed.
Lemma lift_runs {X A} (x : outcome A) a (g : rig X) : x = Ok a -> lifting x g = Ok (Some a, g).
Proof. intros ->. reflexivity. Qed.

Ltac lifted :=
  match goal with |- context [tbind (lifting ?x) ?k ?g] =>
    let v := eval vm_compute in x in
    match v with Ok ?a =>
      rewrite (tbind_eq (lifting x) k g a g) by (apply lift_runs; vm_compute; reflexivity)
    end
  end; cbv beta.
Ltac expects := erewrite tbind_eq; [|apply expect_runs]; cbv beta.

Lemma non_random fl j o memory fire now n : fl_ok fl -> junk_ok j -> node_ok n -> exists n' w b, 0 <= b < 256 /\
  hasNonRandomEffects fl j o memory fire (mkRig now (mkStand n [] []) fr_init true) =
  Ok (Some tt, mkRig now n' w (same_rgb (fl_hsv2rgb fl (mkHSV 0 255 127)) (fl_hsv2rgb fl (mkHSV 0 255 127)) &&
     negb (same_rgb (fl_hsv2rgb fl (mkHSV 0 255 127)) (flame_colour fl b)) &&
     negb (same_rgb (mkRGB 0 0 0) (mkRGB 255 0 0)) && negb (same_rgb (flame_colour fl b) (mkRGB 255 0 0)))) /\
  radio_ok w /\ st_drawn n' = [].
Proof.
  intros OK J N. unfold hasNonRandomEffects. cbv zeta.
  expects.
  destruct (manager_made o memory now n [] [] fr_init N) as (n1 & E1 & N1 & _).
  change (true && (GetLedCount (DeviceDescription 2000 [StripDescription 1 []]) =? 1)) with true.
  rewrite (tbind_eq _ _ _ _ _ E1).
  lifted. lifted. lifted. lifted.
  expects. expects. lifted. expects. lifted. expects. lifted. expects.
  match goal with |- context [mkRig now _ _ ?b] => change b with true end.
  destruct (declare_runs j now (mkStand n1 memory []) fr_init J radio_new) as (w1 & E2 & P1). rewrite (tbind_eq _ _ _ _ _ E2).
  change (Bench.fresh fr_init) with 0%nat in *.
  destruct (heap w1 0%nat) as [p|] eqn:Hp; [|destruct P1 as (_ & C & _); congruence].
  assert (Wp : wf_packet p) by (destruct P1 as (C & _); eauto).
  rewrite (tbind_eq _ _ _ _ _ (load_runs _ _ _ _ _ _ Hp)).
  rewrite (tbind_eq _ _ _ _ _ (store_runs _ _ _ _ _ _ _ Hp)).
  set (q := writeSetEffect 0 0 0 p). set (w2 := mkWorld _ _ _ _).
  assert (Hq : heap w2 0%nat = Some q) by reflexivity.
  rewrite (tbind_eq _ _ _ _ _ (load_runs _ _ _ _ _ _ Hq)).
  assert (A : asks_for Host q 0 0) by (apply write_asks; [exact Wp|lia|lia]).
  destruct (blink_is fl q A) as [B0 B15].
  destruct (fire_is fl fire 0 OK) as (b & Rb & Fb).
  lifted. lifted. lifted. lifted.
  cbn [snd fst GetRGB].
  erewrite tbind_eq; [|apply lift_runs; exact B0]. erewrite tbind_eq; [|apply lift_runs; exact B0]. expects.
  erewrite tbind_eq; [|apply lift_runs; exact B0]. erewrite tbind_eq; [|apply lift_runs; exact Fb]. expects.
  erewrite tbind_eq; [|apply lift_runs; exact B15]. erewrite tbind_eq; [|apply lift_runs; exact police_is15]. expects.
  erewrite tbind_eq; [|apply lift_runs; exact Fb]. erewrite tbind_eq; [|apply lift_runs; exact police_is]. expects.
  unfold delete_manager. lifted. unfold tret.
  eexists _, w2, b. split; [exact Rb|]. split; [reflexivity|]. split; [|reflexivity].
  destruct P1 as (P1 & P2 & P3). split.
  - intros b' r. unfold w2. cbn [heap]. unfold upd. destruct (Nat.eqb b' 0); [intros [= <-]; apply A|apply P1].
  - unfold w2. cbn [sent_packet heap]. destruct (sent_packet w1) as [b'|]; [|exact Logic.I]. unfold upd. destruct (Nat.eqb b' 0); [discriminate|exact P3].
Qed.

Lemma reversed_run e j o memory now n : plat e = Host -> 0 <= now < 4294967296 -> junk_ok j -> node_ok n -> length memory = 5%nat -> exists s w,
  callStripInReverse e j o memory (mkRig now (mkStand n [] []) fr_init true) = Ok (Some tt, mkRig now s w true) /\
  radio_ok w /\ st_drawn s = [].
Proof.
  intros P R J N L. unfold callStripInReverse. cbv zeta. expects.
  change (true && (GetLedCount (DeviceDescription 2000 [StripDescription 5 [Reversed]]) =? 5)) with true.
  destruct (manager_made o memory now n [] [] fr_init N) as (n1 & E1 & N1 & _). rewrite (tbind_eq _ _ _ _ _ E1).
  lifted. lifted.
  destruct (declare_runs j now (mkStand n1 memory []) fr_init J radio_new) as (w1 & E2 & P1). rewrite (tbind_eq _ _ _ _ _ E2).
  change (Bench.fresh fr_init) with 0%nat in *.
  destruct (heap w1 0%nat) as [p|] eqn:Hp; [|destruct P1 as (_ & C & _); congruence].
  assert (Wp : wf_packet p) by (destruct P1 as (C & _); eauto).
  rewrite (tbind_eq _ _ _ _ _ (load_runs _ _ _ _ _ _ Hp)).
  rewrite (tbind_eq _ _ _ _ _ (store_runs _ _ _ _ _ _ _ Hp)).
  set (q := writeSetEffect 0 0 0 p). set (w2 := mkWorld _ _ _ _).
  assert (Hq : heap w2 0%nat = Some q) by reflexivity.
  assert (A : asks_for Host q 0 0) by (apply write_asks; [exact Wp|lia|lia]).
  assert (P2 : packets_ok w2 0%nat).
  { destruct P1 as (P1 & P1' & P3). split; [|split].
    - intros b' r. unfold w2. cbn [heap]. unfold upd. destruct (Nat.eqb b' 0); [intros [= <-]; apply A|apply P1].
    - rewrite Hq. discriminate.
    - unfold w2. cbn [sent_packet heap]. destruct (sent_packet w1) as [b'|]; [|exact Logic.I]. unfold upd. destruct (Nat.eqb b' 0); [discriminate|exact P3]. }
  destruct (set_effect_runs e 0%nat now n1 w2 0 0 q N1 P R P2 Hq A) as (n2 & w3 & E3 & N2 & P3 & A2).
  erewrite tbind_eq; [|apply on_node_eq; exact E3]. 
  destruct memory as [|m0 [|m1 [|m2 [|m3 [|m4 [|? ?]]]]]]; try discriminate L. clear L.
  match goal with |- context [tbind ?f ?k ?g] => 
    assert (E4 : f g = Ok (Some tt, mkRig now (mkStand n2 [mkRGB 4 0 0; mkRGB 3 0 0; mkRGB 2 0 0; mkRGB 1 0 0; mkRGB 0 0 0] []) w3 true)) end.
  { cbn [g_sut g_now g_radio g_ok st_node st_leds st_drawn].
    rewrite (RunEffect_ext Host Fake _ _ (fun _ i _ => Ok (mkRGB i 0 0)) _ (fun _ => 0)).
    - reflexivity.
    - intros s i tm _. rewrite (effect_read Host _ 0 0 A2). reflexivity. }
  rewrite (tbind_eq _ _ _ _ _ E4).
  erewrite tbind_eq; [|reflexivity]. lifted. unfold tret.
  eexists _, w3. split; [reflexivity|]. split; [|reflexivity]. eapply packets_radio; exact P3.
Qed.

(** The three tests of LedManagerTest.cpp.  The second and third pass whatever
    memory holds, and so does the first for all random offsets of the fire,
    provided the conversion of colours tells the colours apart. *)
Theorem C130_led_manager_tests_pass d fl j1 j2 j now o memory fire :
  fl_ok fl -> any_memory j1 -> any_memory j2 -> any_memory j -> 0 <= now < 4294967296 ->
  (tells_apart fl -> passes (on_stand (mkEnv Host d) now j1 j2 (hasNonRandomEffects fl j o memory fire)) []) /\
  passes (on_stand (mkEnv Host d) now j1 j2 (effectIndexIsInRange o memory)) [] /\
  (length memory = 5%nat -> passes (on_stand (mkEnv Host d) now j1 j2 (callStripInReverse (mkEnv Host d) j o memory)) []).
Proof.
  intros OK M1 M2 M R. apply any_memory_ok in M1, M2, M.
  split; [|split].
  - intros Ap. destruct (start_stand d now j1 j2 (hasNonRandomEffects fl j o memory fire) M1 M2 R) as (n & N & ->).
    destruct (non_random fl j o memory fire now n OK M N) as (s & w & b & Rb & E & Rw & D).
    destruct (Ap b Rb) as (A1 & A2).
    assert (Same : forall c, same_rgb c c = true) by (intros [x y z]; unfold same_rgb; cbn; lia).
    assert (Diff : forall c c', c <> c' -> same_rgb c c' = false).
    { intros [x y z] [x' y' z'] Ne. unfold same_rgb. cbn. destruct (Z.eqb_spec x x'), (Z.eqb_spec y y'), (Z.eqb_spec z z'); try reflexivity. subst. congruence. }
    rewrite Same, (Diff _ _ A2), (Diff (fl_hsv2rgb _ _) (flame_colour fl b)) in E by congruence. cbn [negb andb same_rgb red green blue] in E.
    change (0 =? 255) with false in E. cbn [negb andb] in E. rewrite E.
    split; [apply reports_true; exact Rw|]. eexists. split; [reflexivity|exact D].
  - destruct (start_stand d now j1 j2 (effectIndexIsInRange o memory) M1 M2 R) as (n & N & ->).
    unfold effectIndexIsInRange. expects. change (true && _) with true.
    destruct (manager_made o memory now n [] [] fr_init N) as (n1 & E1 & N1 & _). rewrite (tbind_eq _ _ _ _ _ E1).
    destruct (table_gone o) as (gone & E4). unfold delete_manager. unfold tbind, lifting. rewrite E4.
    split; [apply reports_true; exact radio_new|]. eexists. split; reflexivity.
  - intros L. destruct (start_stand d now j1 j2 (callStripInReverse (mkEnv Host d) j o memory) M1 M2 R) as (n & N & ->).
    destruct (reversed_run (mkEnv Host d) j o memory now n eq_refl R M N L) as (s & w & E & Rw & D). rewrite E.
    split; [apply reports_true; exact Rw|]. eexists. split; [reflexivity|exact D].
Qed.
Print Assumptions C130_led_manager_tests_pass.

(** The conversion of [fl_ref] tells them apart. *)
Example C130_conversion : fl_ok fl_ref /\ tells_apart fl_ref.
Proof.
  split; [exact fl_ref_ok|]. intros b B.
  assert (H : forallb (fun k => negb (same_rgb (flame_colour fl_ref (Z.of_nat k)) (fl_hsv2rgb fl_ref (mkHSV 0 255 127))) &&
                                negb (same_rgb (flame_colour fl_ref (Z.of_nat k)) (mkRGB 255 0 0))) (seq 0 256) = true) by (vm_compute; reflexivity).
  rewrite forallb_forall in H. specialize (H (Z.to_nat b) ltac:(apply in_seq; lia)). rewrite Z2Nat.id in H by lia.
  apply andb_prop in H as [H1 H2]. split; intros E; rewrite E in *; [discriminate H1|discriminate H2].
Qed.
