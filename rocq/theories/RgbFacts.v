(** Facts about the effects: no trap on valid input. *)
From Coq Require Import ZArith Lia List Bool.
From Coq Require Import ZifyBool.
From Verif Require Import CInt CIntFacts Packet Fastled Maths Palette SpecColor PaletteFacts PropMath Device Effects SpecEffect.
Import ListNotations.
Open Scope Z_scope.
Ltac Zify.zify_post_hook ::= Z.div_mod_to_equations.

(** A result that is a colour. *)
Definition fine (o : outcome rgb) : Prop := exists c, o = Ok c /\ wf_rgb c.

Definition good (p : palette) : Prop := p <> [] /\ count p <= 6 /\ Forall wf_hsv p.

Lemma black_wf : wf_rgb (mkRGB 0 0 0).
Proof. unfold wf_rgb, is_byte; cbn [red green blue]; lia. Qed.
Lemma fine_black : fine (Ok (mkRGB 0 0 0)).
Proof. exists (mkRGB 0 0 0). split; [reflexivity | apply black_wf]. Qed.

Ltac bytes := unfold wf_rgb, wf_hsv, is_byte; cbn [hue sat val red green blue]; lia.
Lemma palettes_good : Forall good palettes.
Proof.
  unfold palettes. cbv zeta.
  repeat (apply Forall_cons;
    [split; [discriminate|]; split; [cbv; discriminate|];
     repeat (apply Forall_cons; [unfold HUE_RED, HUE_ORANGE, HUE_YELLOW, HUE_GREEN, HUE_AQUA, HUE_BLUE, HUE_PURPLE, HUE_PINK; bytes|]);
     apply Forall_nil|]).
  apply Forall_nil.
Qed.
Lemma fire_good : good fire_palette.
Proof.
  split; [discriminate|]; split; [cbv; discriminate|].
  repeat (apply Forall_cons; [bytes|]); apply Forall_nil.
Qed.
Lemma pride_good : good pride_palette.
Proof.
  split; [discriminate|]; split; [cbv; discriminate|].
  repeat (apply Forall_cons; [bytes|]); apply Forall_nil.
Qed.

Lemma with_v_wf c v : wf_hsv c -> wf_hsv (with_v c v).
Proof. intros (H & S & _). split; [exact H|]. split; [exact S|]. apply u8_range. Qed.

Section Fine.
Context (pl : platform) (fl : fastled) (O : fl_ok fl).

Lemma fine_rgb_of c : wf_hsv c -> fine (rgb_of fl c).
Proof. intros W. eexists. split; [reflexivity|]. apply ok_hsv2rgb; assumption. Qed.

Lemma fine_gradient p pos w f : good p -> 0 <= pos < 65536 -> (forall c, wf_hsv c -> fine (f c)) ->
  fine (c <- GetGradient fl p pos w ;; f c).
Proof.
  intros (N & C & F) P H. destruct (gradient_ok fl p pos w O ltac:(lia) F P) as (c & -> & W). apply H. assumption.
Qed.
Lemma fine_color p i f : good p -> (forall c, wf_hsv c -> fine (f c)) -> fine (c <- GetColor p i ;; f c).
Proof. intros (N & C & F) H. rewrite GetColor_eval by assumption. apply H. apply colour_wf; assumption. Qed.

Lemma palette_read p i k : asks_for pl p i k -> readPaletteIndexFromSetEffect pl p = Ok k.
Proof.
  intros (W & T & L & _ & K). unfold readPaletteIndexFromSetEffect, check_kind. rewrite T.
  change (SET_EFFECT =? SET_EFFECT) with true. unfold oassert. destruct pl.
  - rewrite (L eq_refl). cbn [obind]. unfold byte_at. rewrite K. reflexivity.
  - cbn [obind]. unfold byte_at. rewrite K. reflexivity.
Qed.
Lemma effect_read p i k : asks_for pl p i k -> readEffectIndexFromSetEffect pl p = Ok i.
Proof.
  intros (W & T & L & K & _). unfold readEffectIndexFromSetEffect, check_kind. rewrite T.
  change (SET_EFFECT =? SET_EFFECT) with true. unfold oassert. destruct pl.
  - rewrite (L eq_refl). cbn [obind]. unfold byte_at. rewrite K. reflexivity.
  - cbn [obind]. unfold byte_at. rewrite K. reflexivity.
Qed.
Lemma asked_bytes p i k : asks_for pl p i k -> is_byte i /\ is_byte k.
Proof.
  intros ((_ & _ & _ & L & F) & _ & _ & <- & <-). rewrite Forall_forall in F. split; apply F, nth_In; lia.
Qed.
Lemma colour_read p c : asks_for_colour pl p c -> readRgbFromSetControl pl p = Ok c.
Proof.
  intros (W & T & L & R & G & B). unfold readRgbFromSetControl, check_kind. rewrite T.
  change (SET_CONTROL =? SET_CONTROL) with true. unfold oassert, byte_at. destruct c as [r g b]. cbn [red green blue] in *.
  destruct pl.
  - rewrite (L eq_refl). cbn [obind]. rewrite R, G, B. reflexivity.
  - cbn [obind]. rewrite R, G, B. reflexivity.
Qed.
Lemma packet_palette_eval p i k : asks_for pl p i k -> k < 22 ->
  packet_palette pl p = Ok (nth (Z.to_nat k) palettes []) /\ good (nth (Z.to_nat k) palettes []).
Proof.
  intros A K. destruct (asked_bytes p i k A) as [_ [K1 _]].
  unfold packet_palette. rewrite (palette_read _ _ _ A). cbn [obind].
  rewrite (aget_nth palettes k []) by (change (Z.of_nat (length palettes)) with 22; lia).
  split; [reflexivity|].
  pose proof palettes_good as F. rewrite Forall_forall in F. apply F. apply nth_In.
  change (length palettes) with 22%nat. lia.
Qed.
Lemma packet_palette_bad p i k : asks_for pl p i k -> 22 <= k -> packet_palette pl p = Undef.
Proof.
  intros A K. unfold packet_palette. rewrite (palette_read _ _ _ A). cbn [obind].
  unfold aget. destruct (k <? 0) eqn:E; [lia|].
  destruct (nth_error palettes (Z.to_nat k)) eqn:N; [|reflexivity].
  assert (nth_error palettes (Z.to_nat k) <> None) as Q by congruence.
  apply nth_error_Some in Q. change (length palettes) with 22%nat in Q. lia.
Qed.
Lemma fine_palette p i k f : asks_for pl p i k -> k < 22 -> (forall q, good q -> fine (f q)) ->
  fine (q <- packet_palette pl p ;; f q).
Proof. intros A K H. destruct (packet_palette_eval p i k A K) as (-> & G). apply H. assumption. Qed.

Lemma fine_mirror s j f : wf_strip s -> 0 <= j < led_count s ->
  (forall j' n, 0 <= j' < n -> n <= led_count s -> fine (f (j', n))) ->
  fine (x <- maybe_mirror s j ;; f x).
Proof.
  intros [C _] J H. unfold maybe_mirror. destruct (FlagEnabled s Mirrored).
  - rewrite C43_mirror_is_distance_to_nearer_end by lia. cbn [obind]. apply H; lia.
  - cbn [obind]. apply H; lia.
Qed.
Lemma fine_udiv a b f : b <> 0 -> (forall c, c = a / b -> fine (f c)) -> fine (c <- udiv a b ;; f c).
Proof. intros B H. unfold udiv. destruct (b =? 0) eqn:E; [lia|]. cbn [obind]. apply H. reflexivity. Qed.
Lemma fine_umod a b f : b <> 0 -> (forall c, c = a mod b -> fine (f c)) -> fine (c <- umod a b ;; f c).
Proof. intros B H. unfold umod. destruct (b =? 0) eqn:E; [lia|]. cbn [obind]. apply H. reflexivity. Qed.
Lemma fine_if_bind {A} (b : bool) (x y : outcome A) f :
  fine (z <- x ;; f z) -> fine (z <- y ;; f z) -> fine (z <- (if b then x else y) ;; f z).
Proof. destruct b; auto. Qed.
Lemma fine_if (b : bool) (x y : outcome rgb) : fine x -> fine y -> fine (if b then x else y).
Proof. destruct b; auto. Qed.

(** A tactic following the structure of the effects. *)
Ltac colours := repeat first [assumption | apply u16_range | apply with_v_wf | bytes].
Ltac go1 := first
  [ apply fine_black
  | apply fine_rgb_of; solve [repeat match goal with |- context [if ?b then _ else _] => destruct b end; colours]
  | eapply fine_palette; [eassumption | assumption | intros ? ?]
  | apply fine_gradient; [first [assumption | apply fire_good] | apply u16_range | intros ? ?]
  | apply fine_color; [first [assumption | apply pride_good] | intros ? ?]
  | apply fine_mirror; [assumption | assumption | intros ? ? ? ?]
  | apply fine_udiv; [solve [lia] | intros ? ->]
  | apply fine_umod; [solve [lia] | intros ? ->]
  | apply fine_if_bind
  | apply fine_if ].
Ltac go := repeat (cbv zeta; cbn [obind]; go1).

Variables (s : strip) (j t : Z) (p : packet) (i k : Z).
Hypotheses (W : wf_strip s) (J : 0 <= j < led_count s) (T : is_time t).
Hypotheses (A : asks_for pl p i k) (K : k < 22).

Lemma fine_ColorCycle : fine (ColorCycle_GetRGB pl fl j t s p).
Proof. unfold ColorCycle_GetRGB. go. Qed.
Lemma fine_ContrastBumps : fine (ContrastBumps_GetRGB pl fl j t s p).
Proof. unfold ContrastBumps_GetRGB. go. Qed.
Lemma fine_Fire o : fine (Fire_GetRGB fl o j t s).
Proof.
  unfold Fire_GetRGB. cbv zeta. go1.
  unfold GetPosOnCircle. cbv zeta. apply fine_if_bind.
  - unfold udiv. destruct (n =? 0) eqn:E; [lia|]. cbn [obind]. go.
  - go.
Qed.
Lemma fine_Lightning : fine (Lightning_GetRGB pl fl j t s p).
Proof. unfold Lightning_GetRGB. go. Qed.
Lemma fine_RainbowBumps : fine (RainbowBumps_GetRGB pl fl j t s p).
Proof. unfold RainbowBumps_GetRGB. go. Qed.
Lemma fine_Rainbow : fine (Rainbow_GetRGB pl fl j t s p).
Proof. unfold Rainbow_GetRGB. go. Qed.
Lemma fine_Rorschach o : fine (Rorschach_GetRGB pl fl o j t s p).
Proof. unfold Rorschach_GetRGB. go. Qed.
Lemma fine_SimpleBlink speed : 0 < speed -> fine (SimpleBlink_GetRGB pl fl speed j t s p).
Proof. intros SP. unfold SimpleBlink_GetRGB. go. Qed.
Lemma fine_DisplayColorPalette : fine (DisplayColorPalette_GetRGB pl fl j t s p).
Proof. unfold DisplayColorPalette_GetRGB. destruct W as [? _]. go. unfold udiv. destruct (led_count s =? 0) eqn:E; [lia|]. cbn [obind]. go. Qed.
Lemma fine_DisplayColorPalette_any : 0 < led_count s -> fine (DisplayColorPalette_GetRGB pl fl j t s p).
Proof. clear J. intros L. unfold DisplayColorPalette_GetRGB. destruct W as [? _]. go. unfold udiv. destruct (led_count s =? 0) eqn:E; [lia|]. cbn [obind]. go. Qed.
Lemma fine_Police : fine (Police_GetRGB j t s).
Proof.
  unfold Police_GetRGB. cbv zeta.
  assert (C : forall c, wf_rgb c -> fine (Ok c)) by (intros c ?; exists c; auto).
  repeat first [apply fine_if | apply fine_mirror; [assumption | assumption | intros ? ? ? ?]
    | apply C; unfold police_red, police_blue, police_off;
      repeat match goal with |- context [if ?b then _ else _] => destruct b end; bytes].
Qed.
Lemma fine_StopLight : fine (StopLight_GetRGB fl j t s).
Proof.
  unfold StopLight_GetRGB, stop_red, stop_amber, stop_green, stop_dimRed, stop_dimAmber, stop_dimGreen, HUE_RED.
  go. unfold rgb_of. cbn [obind]. eexists. split; [reflexivity|].
  pose proof (ok_hsv2rgb _ O (mkHSV 32 255 255) ltac:(bytes)) as (R & G & B).
  unfold wf_rgb, crgb_div, is_byte in *. cbn [red green blue]. lia.
Qed.
Lemma fine_Pride : fine (Pride_GetRGB fl j t s).
Proof.
  destruct W as [C _].
  unfold Pride_GetRGB. change (Size pride_palette) with 6. unfold depth_multiplier, fade_fract. cbv zeta.
  rewrite (u16_id (led_count s * 8)) by lia. rewrite (u16_id (led_count s * 8 / 8)) by lia.
  rewrite Z.div_mul by lia.
  apply fine_umod; [lia|]. intros v ->. apply fine_udiv; [lia|]. intros st ->.
  apply fine_umod; [lia|]. intros c ->. apply fine_umod; [lia|]. intros a ->.
  match goal with |- fine (if ?x <? ?y then _ else _) => destruct (x <? y) eqn:E end.
  - go1. go1. apply fine_udiv.
    + match type of E with (?x mod ?y <? ?z) = true => pose proof (Z.mod_pos_bound x y ltac:(lia)) end. lia.
    + intros d ->. eexists. split; [reflexivity|]. apply ok_hsv2rgb; [assumption|].
      apply ok_blend; auto; apply u8_range.
  - go.
Qed.

Lemma brightness_ok r n (rev : bool) : exists v, spark_brightness r n rev = Ok v /\
  (v <> 0 -> 0 <= r < 8) /\ In v (0 :: brightnesses).
Proof.
  unfold spark_brightness. change (u8 (Z.of_nat (length brightnesses))) with 8.
  destruct (r <? 0) eqn:E1; [exists 0; split; [reflexivity|]; split; [congruence|left; reflexivity]|].
  destruct (r <? n + 8) eqn:E2; [|exists 0; split; [reflexivity|]; split; [congruence|left; reflexivity]].
  destruct (r <? 8) eqn:E3; [|exists 0; split; [reflexivity|]; split; [congruence|left; reflexivity]].
  destruct rev.
  - rewrite (aget_nth brightnesses _ 0) by (change (Z.of_nat (length brightnesses)) with 8; lia).
    eexists. split; [reflexivity|]. split; [lia|]. right. apply nth_In. change (length brightnesses) with 8%nat. lia.
  - rewrite (aget_nth brightnesses _ 0) by (change (Z.of_nat (length brightnesses)) with 8; lia).
    eexists. split; [reflexivity|]. split; [lia|]. right. apply nth_In. change (length brightnesses) with 8%nat. lia.
Qed.
Lemma fine_Spark : fine (Spark_GetRGB pl fl j t s p).
Proof.
  unfold Spark_GetRGB. go1. go1. unfold spark_position. change (u8 (Z.of_nat (length brightnesses))) with 8. cbv zeta.
  assert (B : forall q r rev n, good q ->
     fine (hsv <- GetGradient fl q (u16 (u32 (Z.shiftl (u32 (t / 24 + r * 14)) 8))) true ;;
           v <- spark_brightness r n rev ;; rgb_of fl (with_v hsv v))).
  { intros q' r rev n' G. apply fine_gradient; auto; [apply u16_range|]. intros c Hc.
    destruct (brightness_ok r n' rev) as (v & -> & _). cbn [obind]. apply fine_rgb_of. colours. }
  destruct (FlagEnabled s Circular).
  - unfold umod. destruct (n =? 0) eqn:E; [lia|]. cbn [obind]. apply B. assumption.
  - unfold umod. destruct ((n + 8) * 2 =? 0) eqn:E; [lia|]. cbn [obind]. apply B. assumption.
Qed.

Lemma qadd8_byte a b : is_byte a -> is_byte b -> is_byte (qadd8 a b).
Proof. unfold qadd8, is_byte. lia. Qed.
Lemma addInPlace_wf c r : wf_hsv c -> wf_rgb r -> wf_rgb (addInPlace fl c r).
Proof.
  intros C (R & G & B). unfold addInPlace. cbv zeta. pose proof (ok_hsv2rgb _ O c C) as (R' & G' & B').
  repeat split; apply qadd8_byte; assumption.
Qed.
Lemma swing_fine q a l : good q -> forall todo i0 c, wf_rgb c ->
  fine (swing_loop fl todo i0 q a l c).
Proof.
  intros G. pose proof G as (N & C & F). induction todo as [|n IH]; intros i0 c Wc; cbn [swing_loop].
  - exists c. auto.
  - apply fine_udiv.
    { unfold Size, psize. unfold count in C. rewrite u8_id by lia. destruct q; [congruence|]. cbn [length]. lia. }
    intros o _. cbv zeta. apply fine_if_bind.
    + rewrite GetColor_eval by assumption. cbn [obind]. apply IH. apply addInPlace_wf; [|assumption].
      apply with_v_wf. apply colour_wf; assumption.
    + cbn [obind]. apply IH. assumption.
Qed.
Lemma fine_Swinging : fine (Swinging_GetRGB pl fl j t s p).
Proof.
  unfold Swinging_GetRGB.
  assert (B : forall j' n, n <> 0 -> fine (
     let angle := u16 (u32 (t mod kPeriod * MAX_UINT16) / kPeriod) in
     led_pos <- udiv (u32 (j' * MAX_UINT16)) n ;;
     let led_pos := u16 led_pos in
     palette <- packet_palette pl p ;;
     swing_loop fl (Z.to_nat (Size palette)) 0 palette angle led_pos (mkRGB 0 0 0))).
  { intros j' n N. cbv zeta. apply fine_udiv; [assumption|]. intros l _. go1. apply swing_fine; [assumption|apply black_wf]. }
  apply fine_if_bind.
  - cbn [obind]. apply B. lia.
  - apply fine_mirror; auto. intros. apply B. lia.
Qed.

Lemma fine_Firefly o : FlagEnabled s Controller = false \/ j mod 2 = 1 \/ j < 32 ->
  fine (Firefly_GetRGB pl fl o j t s p).
Proof.
  intros H. unfold Firefly_GetRGB.
  assert (B : forall o', fine (
    let curve := fl_sin16 fl (u16 (u32 (firefly_time o' t * kSinMultiplier))) in
    let curve := if curve <? 0 then 0 else curve in
    palette <- packet_palette pl p ;;
    color <- GetGradient fl palette (u16 (u32 (Z.shiftl (t / kBlinkPeriod) 8))) true ;;
    rgb_of fl (with_v color (curve / 256)))).
  { intros o'. go. }
  destruct (FlagEnabled s Controller && (j mod 2 =? 1)) eqn:E; [go|].
  destruct (FlagEnabled s Controller) eqn:F.
  - unfold shl32. destruct (32 <=? j) eqn:G; [cbn [andb] in E; destruct H as [H|[H|H]]; [discriminate|lia|lia]|].
    cbn [obind]. apply B.
  - cbn [obind]. apply B.
Qed.
End Fine.
