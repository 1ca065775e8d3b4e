(** Facts about the controller. *)
From Coq Require Import ZArith Lia List Bool.
From Coq Require Import ZifyBool.
From Verif Require Import CInt CIntFacts Packet SpecPacket PacketFacts Fastled Maths Palette SpecColor PaletteFacts Device LedMgr SpecLed LedFacts RenderFacts
  Effects SpecEffect RgbFacts Show ShowFacts PropShow PropTable NetMgr Rsm Controller SpecController.
Import ListNotations.
Open Scope Z_scope.
Ltac Zify.zify_post_hook ::= Z.div_mod_to_equations.

(** Physical LED of a display position. *)
Definition led (i : Z) : Z := if (11 <? i) && (i <? 24) then 38 - i else if 6 <? i then i + 3 else i.

Lemma led_display i : 0 <= i < 36 -> display_led (led i).
Proof. intros H. unfold display_led, led. destruct ((11 <? i) && (i <? 24)) eqn:E; [lia|]. destruct (6 <? i) eqn:F; lia. Qed.
Lemma led_range i : 0 <= i < 36 -> 0 <= led i < 39.
Proof. intros H. apply led_display in H. destruct H; lia. Qed.
Lemma led_inj i j : 0 <= i < 36 -> 0 <= j < 36 -> led i = led j -> i = j.
Proof.
  intros I J. unfold led. destruct ((11 <? i) && (i <? 24)) eqn:E, ((11 <? j) && (j <? 24)) eqn:F;
    destruct (6 <? i) eqn:G, (6 <? j) eqn:H; lia.
Qed.
Lemma SetMainLed_eval i c leds : 0 <= i < 36 -> SetMainLed i c leds = aset leds (led i) c.
Proof.
  intros H. unfold SetMainLed, led. destruct ((11 <? i) && (i <? 24)) eqn:E.
  - f_equal. lia.
  - destruct (6 <? i) eqn:F; reflexivity.
Qed.

(** [b] is the buffer after painting positions [i, i+n) with [g]. *)
Definition painted (b : list rgb) (a : list rgb) (i n : Z) (g : Z -> rgb) : Prop :=
  vsize b = vsize a /\ (forall j, i <= j < i + n -> aget b (led j) = Ok (g j)) /\
  (forall l, (forall j, i <= j < i + n -> l <> led j) -> aget b l = aget a l).

Lemma painted_step i c a b n g : vsize a = 42 -> 0 <= i -> 0 <= n -> i + 1 + n <= 36 -> c = g i ->
  painted b (list_set a (Z.to_nat (led i)) c) (i + 1) n g -> painted b a i (n + 1) g.
Proof.
  intros A I N L -> (P1 & P2 & P3).
  destruct (aset_ok a (led i) (g i)) as (S1 & S2 & S3 & S4); [pose proof (led_range i ltac:(lia)); lia|].
  split; [lia|]. split.
  - intros j J. destruct (Z.eq_dec j i) as [->|Ne]; [|apply P2; lia].
    rewrite P3; [exact S3|]. intros j J' E. apply led_inj in E; lia.
  - intros l H. rewrite P3; [apply S4; apply (H i); lia|]. intros j J'. apply H. lia.
Qed.

Lemma main_loop_ok f g : forall todo i base a,
  vsize a = 42 -> 0 <= base -> 0 <= i -> base + i + Z.of_nat todo <= 36 ->
  (forall j, i <= j < i + Z.of_nat todo -> f j = Ok (g j)) ->
  exists b, main_loop todo i base f a = Ok b /\ painted b a (base + i) (Z.of_nat todo) (fun j => g (j - base)).
Proof.
  induction todo as [|todo IH]; intros i base a A B I L F.
  - exists a. split; [reflexivity|]. split; [reflexivity|]. split; [intros; lia|reflexivity].
  - cbn [main_loop]. rewrite F by lia. cbn [obind]. rewrite u8_id by lia. rewrite SetMainLed_eval by lia.
    destruct (aset_ok a (led (base + i)) (g i)) as (-> & S2 & _); [pose proof (led_range (base + i) ltac:(lia)); lia|].
    cbn [obind].
    destruct (IH (i + 1) base (list_set a (Z.to_nat (led (base + i))) (g i))) as (b & E & P); try lia.
    { intros j J. apply F. lia. }
    exists b. split; [exact E|].
    replace (Z.of_nat (S todo)) with (Z.of_nat todo + 1) by lia.
    eapply painted_step with (c := g i); try lia.
    + f_equal. lia.
    + replace (base + i + 1) with (base + (i + 1)) by lia. exact P.
Qed.

Lemma set_led_channel_ok l ch v a : 0 <= l < vsize a ->
  exists b c, set_led_channel l ch v a = Ok b /\ vsize b = vsize a /\ aget a l = Ok c /\
    aget b l = Ok (set_channel ch v c) /\ forall x, x <> l -> aget b x = aget a x.
Proof.
  intros H. unfold set_led_channel. destruct (aget_in a l H) as (c & G & _). rewrite G. cbn [obind].
  destruct (aset_ok a l (set_channel ch v c) H) as (S1 & S2 & S3 & S4).
  eexists _, c. split; [exact S1|]. split; [lia|]. auto.
Qed.

Lemma left_leds_ok b1 b2 b3 a : vsize a = 42 ->
  exists b, SetLeftButtonLeds b1 b2 b3 a = Ok b /\ vsize b = 42 /\ aget b 41 = Ok (mkRGB b2 b1 b3) /\
    forall x, x <> 41 -> aget b x = aget a x.
Proof.
  intros A. unfold SetLeftButtonLeds, SetLeftButtonLed, kLeftButtonLed. cbn [Z.eqb Pos.eqb].
  destruct (set_led_channel_ok 41 ChG b1 a) as (x1 & c1 & -> & V1 & G1 & H1 & O1); [lia|]. cbn [obind].
  destruct (set_led_channel_ok 41 ChR b2 x1) as (x2 & c2 & -> & V2 & G2 & H2 & O2); [lia|]. cbn [obind].
  destruct (set_led_channel_ok 41 ChB b3 x2) as (x3 & c3 & -> & V3 & G3 & H3 & O3); [lia|].
  exists x3. split; [reflexivity|]. split; [lia|]. split.
  - rewrite H3. rewrite H2 in G3. injection G3 as <-. rewrite H1 in G2. injection G2 as <-. reflexivity.
  - intros x X. rewrite O3, O2, O1; auto.
Qed.
Lemma right_leds_ok b1 b2 b3 a : vsize a = 42 ->
  exists b, SetRightButtonLeds b1 b2 b3 a = Ok b /\ vsize b = 42 /\ aget b 39 = Ok (mkRGB b2 b3 b1) /\
    forall x, x <> 39 -> aget b x = aget a x.
Proof.
  intros A. unfold SetRightButtonLeds, SetRightButtonLed, kRightButtonLed. cbn [Z.eqb Pos.eqb].
  destruct (set_led_channel_ok 39 ChB b1 a) as (x1 & c1 & -> & V1 & G1 & H1 & O1); [lia|]. cbn [obind].
  destruct (set_led_channel_ok 39 ChR b2 x1) as (x2 & c2 & -> & V2 & G2 & H2 & O2); [lia|]. cbn [obind].
  destruct (set_led_channel_ok 39 ChG b3 x2) as (x3 & c3 & -> & V3 & G3 & H3 & O3); [lia|].
  exists x3. split; [reflexivity|]. split; [lia|]. split.
  - rewrite H3. rewrite H2 in G3. injection G3 as <-. rewrite H1 in G2. injection G2 as <-. reflexivity.
  - intros x X. rewrite O3, O2, O1; auto.
Qed.
Lemma bottom_leds_ok b1 b2 b3 a : vsize a = 42 ->
  exists b, SetBottomButtonLeds b1 b2 b3 a = Ok b /\ vsize b = 42 /\ aget b 40 = Ok (mkRGB b1 b2 b3) /\
    forall x, x <> 40 -> aget b x = aget a x.
Proof.
  intros A. unfold SetBottomButtonLeds, SetBottomButtonLed, kBottomButtonLed. cbn [Z.eqb Pos.eqb].
  destruct (set_led_channel_ok 40 ChR b1 a) as (x1 & c1 & -> & V1 & G1 & H1 & O1); [lia|]. cbn [obind].
  destruct (set_led_channel_ok 40 ChG b2 x1) as (x2 & c2 & -> & V2 & G2 & H2 & O2); [lia|]. cbn [obind].
  destruct (set_led_channel_ok 40 ChB b3 x2) as (x3 & c3 & -> & V3 & G3 & H3 & O3); [lia|].
  exists x3. split; [reflexivity|]. split; [lia|]. split.
  - rewrite H3. rewrite H2 in G3. injection G3 as <-. rewrite H1 in G2. injection G2 as <-. reflexivity.
  - intros x X. rewrite O3, O2, O1; auto.
Qed.

(** The 19 different built-in effects. *)
Lemma unique_count o : GetNumUniqueEffects (built (builtin o)) = 19.
Proof. reflexivity. Qed.
Lemma palette_count : announced_palettes = 22.
Proof. reflexivity. Qed.
Lemma below19 (P : Z -> Prop) : Forall P (map Z.of_nat (seq 0 19)) -> forall n, 0 <= n < 19 -> P n.
Proof.
  intros F n H. rewrite Forall_forall in F. apply F. apply in_map_iff.
  exists (Z.to_nat n). split; [lia|]. apply in_seq. lia.
Qed.
Lemma network_number_eval o n : 0 <= n < 19 ->
  UniqueEffectNumberToIndex (built (builtin o)) n = Ok (network_number n) /\ 0 <= network_number n < 35.
Proof.
  revert n. apply below19. repeat (apply Forall_cons; [split; [reflexivity|vm_compute; split; [discriminate|reflexivity]]|]).
  apply Forall_nil.
Qed.

(** Packets written by the controller. *)
Lemma list_set_wf l i v : length l = 58%nat -> Forall is_byte l -> length (list_set l i (u8 v)) = 58%nat /\ Forall is_byte (list_set l i (u8 v)).
Proof. intros L F. rewrite list_set_length. split; [exact L|]. apply list_set_Forall; [exact F|]. apply u8_range. Qed.
Lemma writeSetEffect_wf a b c p : wf_packet p -> wf_packet (writeSetEffect a b c p).
Proof.
  intros (P1 & P2 & P3 & P4 & P5). unfold wf_packet, writeSetEffect. cbn [pid ptype dlen pdata].
  destruct (list_set_wf (pdata p) 0 a P4 P5) as [Q1 Q2]. destruct (list_set_wf _ 1 b Q1 Q2) as [R1 R2].
  destruct (list_set_wf _ 2 c R1 R2) as [S1 S2]. unfold SET_EFFECT, is_byte. repeat split; auto; lia.
Qed.
Lemma writeControl_wf d c p : wf_packet p -> wf_packet (writeControl d c p).
Proof.
  intros (P1 & P2 & P3 & P4 & P5). unfold wf_packet, writeControl. cbn [pid ptype dlen pdata].
  destruct (list_set_wf (pdata p) 0 d P4 P5) as [Q1 Q2]. destruct (list_set_wf _ 1 (red c) Q1 Q2) as [R1 R2].
  destruct (list_set_wf _ 2 (green c) R1 R2) as [S1 S2]. destruct (list_set_wf _ 3 (blue c) S1 S2) as [T1 T2].
  unfold SET_CONTROL, is_byte. repeat split; auto; lia.
Qed.
Lemma payload_nth n p l : (length l = n)%nat -> length (pdata p) = 58%nat -> payload n p = l -> forall i, (i < n)%nat -> nth i (pdata p) 0 = nth i l 0.
Proof.
  intros L _ E i I. unfold payload in E. subst l. rewrite <- (firstn_skipn n (pdata p)) at 1.
  assert (LL : (i < length (firstn n (pdata p)))%nat) by (rewrite L; exact I).
  rewrite app_nth1 by exact LL. reflexivity.
Qed.
Lemma writeSetEffect_asks pl a b c p : wf_packet p -> is_byte a -> is_byte b -> is_byte c ->
  asks_for pl (writeSetEffect a b c p) a c /\ hold_seconds (writeSetEffect a b c p) = b.
Proof.
  intros W A B C. pose proof (writeSetEffect_wf a b c p W) as W'.
  destruct (write_set_effect_shape a b c p W A B C) as (T & D & P & _).
  pose proof (payload_nth 3 _ [a; b; c] eq_refl (wf_data_length _ W') P) as N.
  split.
  - split; [exact W'|]. split; [exact T|]. split; [intros _; exact D|]. split; [apply (N 0%nat); lia|apply (N 2%nat); lia].
  - unfold hold_seconds. rewrite T. change (2 =? SET_CONTROL) with false. cbv iota. apply (N 1%nat). lia.
Qed.
Lemma writeControl_asks pl d c p : wf_packet p -> is_byte d -> wf_rgb c ->
  asks_for_colour pl (writeControl d c p) c /\ hold_seconds (writeControl d c p) = d.
Proof.
  intros W D C. pose proof (writeControl_wf d c p W) as W'.
  destruct (write_control_shape d c p W D C) as (T & L & P & _).
  pose proof (payload_nth 4 _ [d; red c; green c; blue c] eq_refl (wf_data_length _ W') P) as N.
  split.
  - split; [exact W'|]. split; [exact T|]. split; [intros _; exact L|].
    split; [apply (N 1%nat); lia|]. split; [apply (N 2%nat); lia|apply (N 3%nat); lia].
  - unfold hold_seconds. rewrite T. change (3 =? SET_CONTROL) with true. cbv iota. apply (N 0%nat). lia.
Qed.

(** States the controller can be in. *)
Record cinv (c : ctrl) : Prop := mkCinv {
  ci_effect : 0 <= sel_effect c < 19;
  ci_palette : 0 <= sel_palette c < 22;
  ci_se : wf_packet (se_packet c);
  ci_co : wf_packet (co_packet c);
  ci_leds : vsize (cleds c) = 42
}.
Lemma zero_packet_wf : wf_packet zero_packet.
Proof.
  unfold wf_packet, zero_packet, is_byte. cbn [pid ptype dlen pdata]. repeat split; try lia.
  change (Z.to_nat PACKET_DATA_LENGTH) with 58%nat. apply Forall_forall. intros x X. apply repeat_spec in X. lia.
Qed.
Lemma cinv_init : cinv ctrl_init.
Proof. constructor; try apply zero_packet_wf; vm_compute; try (split; [discriminate|reflexivity]); reflexivity. Qed.

(** Loops as seen from outside. *)
Lemma main_loop_fine f todo i base a :
  vsize a = 42 -> 0 <= base -> 0 <= i -> base + i + Z.of_nat todo <= 36 ->
  (forall j, i <= j < i + Z.of_nat todo -> fine (f j)) ->
  exists b, main_loop todo i base f a = Ok b /\ vsize b = 42 /\
    (forall j, i <= j < i + Z.of_nat todo -> aget b (led (base + j)) = f j) /\
    (forall l, (forall j, i <= j < i + Z.of_nat todo -> l <> led (base + j)) -> aget b l = aget a l).
Proof.
  intros A B I L F.
  set (g := fun j => match f j with Ok c => c | _ => black end).
  destruct (main_loop_ok f g todo i base a A B I L) as (b & E & V & P1 & P2).
  { intros j J. unfold g. destruct (F j J) as (c & -> & _). reflexivity. }
  exists b. split; [exact E|]. split; [lia|]. split.
  - intros j J. rewrite P1 by lia. replace (base + j - base) with j by lia. unfold g. destruct (F j J) as (c & -> & _). reflexivity.
  - intros l H. apply P2. intros j J. replace j with (base + (j - base)) by lia. apply H. lia.
Qed.
Lemma led_not_status j : 0 <= j < 36 -> led j <> 7 /\ led j <> 8 /\ led j <> 9 /\ led j <> 39 /\ led j <> 40 /\ led j <> 41.
Proof. intros H. destruct (led_display j H). lia. Qed.

Definition step_effect (x : inputs) : Z := match requested x with EffectBack => -1 | EffectForward => 1 | _ => 0 end.
Definition step_palette (x : inputs) : Z := match requested x with PaletteBack => -1 | PaletteForward => 1 | _ => 0 end.

Lemma select_ok o x c : cinv c ->
  select announced_palettes x (GetNumUniqueEffects (built (builtin o))) c =
    Ok (mkCtrl (prev_mode c) ((sel_effect c + step_effect x) mod 19) ((sel_palette c + step_palette x) mod 22)
          (se_packet c) (co_packet c) (cleds c),
        match requested x with Send => [se_packet c] | _ => [] end).
Proof.
  intros [I1 I2 _ _ _]. rewrite unique_count, palette_count. unfold select, step_effect, step_palette, requested, umod.
  change (19 =? 0) with false. change (22 =? 0) with false. cbv iota. cbn [obind].
  rewrite (u8_id ((sel_effect c - 1 + 19) mod 19)), (u8_id ((sel_effect c + 1) mod 19)),
    (u8_id ((sel_palette c - 1 + 22) mod 22)), (u8_id ((sel_palette c + 1) mod 22)) by lia.
  replace ((sel_effect c - 1 + 19) mod 19) with ((sel_effect c + -1) mod 19) by lia.
  replace ((sel_palette c - 1 + 22) mod 22) with ((sel_palette c + -1) mod 22) by lia.
  assert (E0 : (sel_effect c + 0) mod 19 = sel_effect c) by lia.
  assert (P0 : (sel_palette c + 0) mod 22 = sel_palette c) by lia.
  destruct (left_rose x 0), (right_rose x 0), (left_rose x 1), (right_rose x 1), (bottom_rose x 0);
    rewrite ?E0, ?P0; try reflexivity; destruct c; reflexivity.
Qed.

Lemma effect_feedback_ok x a : vsize a = 42 ->
  exists b, effect_feedback x a = Ok b /\ vsize b = 42 /\
    aget b 41 = Ok (if left_rose x 0 then mkRGB 64 255 0 else if left_rose x 1 then mkRGB 255 64 0 else mkRGB 64 64 0) /\
    aget b 39 = Ok (if right_rose x 0 then mkRGB 64 0 255 else if left_rose x 1 then mkRGB 255 0 64 else mkRGB 64 0 64) /\
    aget b 40 = Ok (if bottom_rose x 0 then mkRGB 255 0 0 else mkRGB 64 0 0) /\
    forall l, l <> 39 -> l <> 40 -> l <> 41 -> aget b l = aget a l.
Proof.
  intros A. unfold effect_feedback. change kButtonActiveBrightness with 64. change kButtonPressedBrightness with 255.
  assert (L : exists b, (if left_rose x 0 then SetLeftButtonLeds 255 64 0 a
      else if left_rose x 1 then SetLeftButtonLeds 64 255 0 a else SetLeftButtonLeds 64 64 0 a) = Ok b /\ vsize b = 42 /\
    aget b 41 = Ok (if left_rose x 0 then mkRGB 64 255 0 else if left_rose x 1 then mkRGB 255 64 0 else mkRGB 64 64 0) /\
    forall l, l <> 41 -> aget b l = aget a l).
  { destruct (left_rose x 0); [|destruct (left_rose x 1)]; apply left_leds_ok; assumption. }
  destruct L as (b1 & -> & V1 & G1 & O1). cbn [obind].
  assert (L : exists b, (if right_rose x 0 then SetRightButtonLeds 255 64 0 b1
      else if left_rose x 1 then SetRightButtonLeds 64 255 0 b1 else SetRightButtonLeds 64 64 0 b1) = Ok b /\ vsize b = 42 /\
    aget b 39 = Ok (if right_rose x 0 then mkRGB 64 0 255 else if left_rose x 1 then mkRGB 255 0 64 else mkRGB 64 0 64) /\
    forall l, l <> 39 -> aget b l = aget b1 l).
  { destruct (right_rose x 0); [|destruct (left_rose x 1)]; apply right_leds_ok; assumption. }
  destruct L as (b2 & -> & V2 & G2 & O2). cbn [obind].
  assert (L : exists b, (if bottom_rose x 0 then SetBottomButtonLeds 255 0 0 b2 else SetBottomButtonLeds 64 0 0 b2) = Ok b /\ vsize b = 42 /\
    aget b 40 = Ok (if bottom_rose x 0 then mkRGB 255 0 0 else mkRGB 64 0 0) /\
    forall l, l <> 40 -> aget b l = aget b2 l).
  { destruct (bottom_rose x 0); apply bottom_leds_ok; assumption. }
  destruct L as (b3 & -> & V3 & G3 & O3). exists b3.
  split; [reflexivity|]. split; [exact V3|].
  split; [rewrite O3, O2 by lia; exact G1|]. split; [rewrite O3 by lia; exact G2|]. split; [exact G3|].
  intros l X Y Z. rewrite O3, O2, O1; auto.
Qed.

Section Modes.
Variable pl : platform.
Variable fl : fastled.
Variable OK : fl_ok fl.
Variable o : offsets.
Notation T := (built (builtin o)).
Notation NP := announced_palettes.

Lemma RunEffectMode_ok x c : cinv c ->
  exists c', RunEffectMode pl fl T NP x c = Ok (c', match requested x with Send => [se_packet c] | _ => [] end) /\
    cinv c' /\ prev_mode c' = prev_mode c /\
    sel_effect c' = (sel_effect c + step_effect x) mod 19 /\
    sel_palette c' = (sel_palette c + step_palette x) mod 22 /\
    se_packet c' = writeSetEffect (network_number (sel_effect c')) 60 (sel_palette c') (se_packet c) /\
    co_packet c' = co_packet c /\
    (forall i, 0 <= i < 12 -> aget (cleds c') (led i) = current_pixel pl fl T (se_packet c') kRowStrip i (net_time x i)) /\
    (forall i, 0 <= i < 12 -> aget (cleds c') (led (12 + i)) =
        DisplayColorPalette_GetRGB pl fl i (net_time x (12 + i)) kRowStrip (se_packet c')) /\
    aget (cleds c') 7 = Ok (if is_slave x then mkRGB 255 0 0 else mkRGB 0 255 0) /\
    aget (cleds c') 9 = Ok (mkRGB 0 0 (if sending x then 255 else 0)) /\
    aget (cleds c') 41 = Ok (if left_rose x 0 then mkRGB 64 255 0 else if left_rose x 1 then mkRGB 255 64 0 else mkRGB 64 64 0) /\
    aget (cleds c') 39 = Ok (if right_rose x 0 then mkRGB 64 0 255 else if left_rose x 1 then mkRGB 255 0 64 else mkRGB 64 0 64) /\
    aget (cleds c') 40 = Ok (if bottom_rose x 0 then mkRGB 255 0 0 else mkRGB 64 0 0) /\
    (forall l, 0 <= l < 42 -> l = 8 \/ 27 <= l < 39 -> aget (cleds c') l = aget (cleds c) l).
Proof.
  intros I. unfold RunEffectMode. rewrite select_ok by exact I. cbn [obind].
  set (E := (sel_effect c + step_effect x) mod 19). set (K := (sel_palette c + step_palette x) mod 22).
  assert (RE : 0 <= E < 19) by (apply Z.mod_pos_bound; lia).
  assert (RK : 0 <= K < 22) by (apply Z.mod_pos_bound; lia).
  cbn [sel_effect sel_palette se_packet co_packet cleds prev_mode].
  destruct (effect_feedback_ok x (cleds c) (ci_leds c I)) as (a & -> & VA & L41 & L39 & L40 & OA). cbn [obind].
  destruct (network_number_eval o E RE) as [-> RN]. cbn [obind].
  rewrite (get_builtin pl o _ RN). cbn [obind].
  set (p := writeSetEffect (network_number E) kSetEffectDelay K (se_packet c)).
  destruct (writeSetEffect_asks pl (network_number E) kSetEffectDelay K (se_packet c) (ci_se c I)) as [AF _];
    [unfold is_byte; lia|unfold is_byte, kSetEffectDelay; lia|unfold is_byte; lia|].
  fold p in AF.
  assert (SE : selects pl (network_number E) (network_number E)) by (split; lia).
  assert (CP : forall j tm, current_pixel pl fl T p kRowStrip j tm = GetRGB pl fl (effect_number o (network_number E)) j tm kRowStrip p).
  { intros j tm. unfold current_pixel. destruct (current_selected pl o p _ _ _ AF SE) as [-> _]. reflexivity. }
  destruct (main_loop_fine (fun i => GetRGB pl fl (effect_number o (network_number E)) i (net_time x i) kRowStrip p) 12 0 0 a)
    as (b & -> & VB & GB & OB); try lia.
  { intros j J. unfold fine. rewrite <- CP. eapply C58_effects_never_trap; eauto; [unfold number_of_palettes; lia|apply StripDescription_wf|].
    intros (_ & _ & _ & X). lia. }
  cbn [obind].
  destruct (main_loop_fine (fun i => DisplayColorPalette_GetRGB pl fl i (net_time x (12 + i)) kRowStrip p) 12 0 12 b)
    as (d & -> & VD & GD & OD); try lia.
  { intros j J. eapply fine_DisplayColorPalette; eauto; [apply StripDescription_wf|lia]. }
  cbn [obind].
  destruct (aset_ok d kStatusLeft (if is_slave x then mkRGB 255 0 0 else mkRGB 0 255 0)) as (-> & VF & GF & OF);
    [unfold kStatusLeft; lia|]. cbn [obind].
  set (f := list_set d _ _) in *.
  destruct (aset_ok f kStatusRight (mkRGB 0 0 (if sending x then 255 else 0))) as (-> & VG & GG & OG);
    [unfold kStatusRight; lia|]. cbn [obind].
  set (g := list_set f _ _) in *. unfold kStatusLeft, kStatusRight in *.
  eexists. split; [reflexivity|]. cbn [sel_effect sel_palette se_packet co_packet cleds prev_mode].
  split; [constructor; cbn [sel_effect sel_palette se_packet co_packet cleds]; auto;
    [exact (proj1 AF)|apply (ci_co c I)|lia]|].
  split; [reflexivity|]. split; [reflexivity|]. split; [reflexivity|]. split; [reflexivity|]. split; [reflexivity|].
  split.
  { intros i J. destruct (led_not_status i ltac:(lia)) as (N7 & N8 & N9 & _).
    rewrite OG, OF by assumption. rewrite OD; [|intros j JJ X; apply led_inj in X; lia].
    change (led i) with (led (0 + i)). rewrite GB by lia. symmetry. apply CP. }
  split.
  { intros i J. destruct (led_not_status (12 + i) ltac:(lia)) as (N7 & N8 & N9 & _).
    rewrite OG, OF by assumption. rewrite GD by lia. reflexivity. }
  split; [rewrite OG by lia; exact GF|]. split; [exact GG|].
  assert (Q : forall l, l <> 7 -> l <> 9 -> (forall j, 0 <= j < 24 -> l <> led j) -> aget g l = aget a l).
  { intros l N7 N9 H. rewrite OG, OF by assumption. rewrite OD; [|intros j JJ; apply H; lia].
    rewrite OB; [reflexivity|intros j JJ; apply H; lia]. }
  split; [rewrite Q; [exact L41|lia|lia|intros j JJ; pose proof (led_not_status j ltac:(lia)); lia]|].
  split; [rewrite Q; [exact L39|lia|lia|intros j JJ; pose proof (led_not_status j ltac:(lia)); lia]|].
  split; [rewrite Q; [exact L40|lia|lia|intros j JJ; pose proof (led_not_status j ltac:(lia)); lia]|].
  intros l RL H. rewrite Q; [apply OA; lia|lia|lia|].
  intros j JJ. unfold led. destruct ((11 <? j) && (j <? 24)) eqn:X; [lia|]. destruct (6 <? j) eqn:Y; lia.
Qed.

(** The direct modes. *)
Lemma direct_feedback_ok x (rest : inputs -> list rgb -> outcome (list rgb)) (r1 r2 : bool) (a : list rgb) : vsize a = 42 ->
  (forall a, rest x a = if right_rose x 0 then SetRightButtonLeds 255 64 64 a
                        else if r1 then SetRightButtonLeds 64 255 64 a
                        else if r2 then SetRightButtonLeds 64 64 255 a else SetRightButtonLeds 64 64 64 a) ->
  exists b, (l <- direct_left_feedback x a ;; l <- rest x l ;; SetBottomButtonLeds 0 0 0 l) = Ok b /\ vsize b = 42 /\
    aget b 41 = Ok (if left_rose x 0 then mkRGB 64 255 64 else if left_rose x 1 then mkRGB 255 64 64
                    else if left_rose x 2 then mkRGB 64 64 255 else mkRGB 64 64 64) /\
    aget b 39 = Ok (if right_rose x 0 then mkRGB 64 64 255 else if r1 then mkRGB 255 64 64
                    else if r2 then mkRGB 64 255 64 else mkRGB 64 64 64) /\
    aget b 40 = Ok black /\
    forall l, l <> 39 -> l <> 40 -> l <> 41 -> aget b l = aget a l.
Proof.
  intros A R. unfold direct_left_feedback. change kButtonActiveBrightness with 64. change kButtonPressedBrightness with 255.
  assert (L : exists b, (if left_rose x 0 then SetLeftButtonLeds 255 64 64 a
      else if left_rose x 1 then SetLeftButtonLeds 64 255 64 a
      else if left_rose x 2 then SetLeftButtonLeds 64 64 255 a else SetLeftButtonLeds 64 64 64 a) = Ok b /\ vsize b = 42 /\
    aget b 41 = Ok (if left_rose x 0 then mkRGB 64 255 64 else if left_rose x 1 then mkRGB 255 64 64
                    else if left_rose x 2 then mkRGB 64 64 255 else mkRGB 64 64 64) /\
    forall l, l <> 41 -> aget b l = aget a l).
  { destruct (left_rose x 0); [|destruct (left_rose x 1); [|destruct (left_rose x 2)]]; apply left_leds_ok; assumption. }
  destruct L as (b1 & -> & V1 & G1 & O1). cbn [obind]. rewrite R.
  assert (L : exists b, (if right_rose x 0 then SetRightButtonLeds 255 64 64 b1
                        else if r1 then SetRightButtonLeds 64 255 64 b1
                        else if r2 then SetRightButtonLeds 64 64 255 b1 else SetRightButtonLeds 64 64 64 b1) = Ok b /\ vsize b = 42 /\
    aget b 39 = Ok (if right_rose x 0 then mkRGB 64 64 255 else if r1 then mkRGB 255 64 64
                    else if r2 then mkRGB 64 255 64 else mkRGB 64 64 64) /\
    forall l, l <> 39 -> aget b l = aget b1 l).
  { destruct (right_rose x 0); [|destruct r1; [|destruct r2]]; apply right_leds_ok; assumption. }
  destruct L as (b2 & -> & V2 & G2 & O2). cbn [obind].
  destruct (bottom_leds_ok 0 0 0 b2 V2) as (b3 & -> & V3 & G3 & O3). exists b3.
  split; [reflexivity|]. split; [exact V3|].
  split; [rewrite O3, O2 by lia; exact G1|]. split; [rewrite O3 by lia; exact G2|]. split; [exact G3|].
  intros l X Y Z. rewrite O3, O2, O1; auto.
Qed.

Lemma chain3 {A B} (x : outcome A) (f g : A -> outcome A) (h : A -> outcome B) :
  obind x (fun a => obind (f a) (fun b => obind (g b) h)) = obind (obind x (fun a => obind (f a) g)) h.
Proof. destruct x as [a| |]; [|reflexivity|reflexivity]. cbn [obind]. destruct (f a); reflexivity. Qed.

Lemma colors_get k : 0 <= k < 6 -> aget colors k = Ok (mkHSV (256 * k / 6) 255 255).
Proof.
  intros H. assert (k = 0 \/ k = 1 \/ k = 2 \/ k = 3 \/ k = 4 \/ k = 5) as [->|[->|[->|[->|[->| ->]]]]] by lia; reflexivity.
Qed.
Lemma mode_palettes_get k : 0 <= k < 6 -> aget mode_palettes k = Ok (8 + k).
Proof.
  intros H. assert (k = 0 \/ k = 1 \/ k = 2 \/ k = 3 \/ k = 4 \/ k = 5) as [->|[->|[->|[->|[->| ->]]]]] by lia; reflexivity.
Qed.
Lemma direct_choice_range x k : direct_choice x = Some k -> 0 <= k < 6.
Proof.
  unfold direct_choice. destruct (left_rose x 0), (left_rose x 1), (left_rose x 2), (right_rose x 0), (right_rose x 1), (right_rose x 2);
    intros [= <-]; lia.
Qed.

Lemma RunColorMode_ok x c : cinv c ->
  exists c', RunColorMode fl x c = Ok (c', match direct_choice x with Some _ => [co_packet c'] | None => [] end) /\
    cinv c' /\ prev_mode c' = prev_mode c /\ sel_effect c' = sel_effect c /\ sel_palette c' = sel_palette c /\
    se_packet c' = se_packet c /\
    co_packet c' = match direct_choice x with
                   | Some k => writeControl 60 (fl_hsv2rgb fl (mkHSV (256 * k / 6) 255 255)) (co_packet c)
                   | None => co_packet c end /\
    (forall i, 0 <= i < 36 -> aget (cleds c') (led i) =
       Ok (if gap i then black else fl_hsv2rgb fl (mkHSV (256 * (i / 6) / 6) 255 255))) /\
    aget (cleds c') 41 = Ok (if left_rose x 0 then mkRGB 64 255 64 else if left_rose x 1 then mkRGB 255 64 64
                    else if left_rose x 2 then mkRGB 64 64 255 else mkRGB 64 64 64) /\
    aget (cleds c') 39 = Ok (if right_rose x 0 then mkRGB 64 64 255 else if left_rose x 1 then mkRGB 255 64 64
                    else if left_rose x 2 then mkRGB 64 255 64 else mkRGB 64 64 64) /\
    aget (cleds c') 40 = Ok black /\
    (forall l, 7 <= l <= 9 -> aget (cleds c') l = aget (cleds c) l).
Proof.
  intros I. unfold RunColorMode.
  set (f := fun i => if gap i then Ok black else k <- aget colors (i / 6) ;; Ok (fl_hsv2rgb fl k)).
  assert (F : forall i, 0 <= i < 36 -> f i = Ok (if gap i then black else fl_hsv2rgb fl (mkHSV (256 * (i / 6) / 6) 255 255))).
  { intros i H. unfold f. destruct (gap i); [reflexivity|]. rewrite colors_get by lia. reflexivity. }
  destruct (main_loop_ok f (fun i => if gap i then black else fl_hsv2rgb fl (mkHSV (256 * (i / 6) / 6) 255 255)) 36 0 0 (cleds c))
    as (a & -> & VA & GA & OA); try lia; [apply (ci_leds c I)|intros j J; apply F; lia|].
  cbn [obind]. pose proof (ci_leds c I) as VC.
  destruct (direct_feedback_ok x color_right_feedback (left_rose x 1) (left_rose x 2) a) as (b & EB & VB & L41 & L39 & L40 & OB);
    [lia|intros; reflexivity|].
  rewrite (chain3 (direct_left_feedback x a) (color_right_feedback x) (fun l => SetBottomButtonLeds 0 0 0 l)), EB. cbn [obind].
  set (q := match direct_choice x with Some k => writeControl 60 (fl_hsv2rgb fl (mkHSV (256 * k / 6) 255 255)) (co_packet c)
                   | None => co_packet c end).
  exists (mkCtrl (prev_mode c) (sel_effect c) (sel_palette c) (se_packet c) q b).
  split.
  { unfold q. destruct (direct_choice x) as [k|] eqn:D; [|reflexivity].
    rewrite (colors_get k) by (eapply direct_choice_range; eauto). reflexivity. }
  cbn [sel_effect sel_palette se_packet co_packet cleds prev_mode].
  split.
  { constructor; cbn [sel_effect sel_palette se_packet co_packet cleds]; try apply I; [|lia].
    unfold q. destruct (direct_choice x); [apply writeControl_wf|]; apply (ci_co c I). }
  repeat (split; [reflexivity|]).
  split.
  { intros i J. destruct (led_not_status i J) as (_ & _ & _ & N1 & N2 & N3). rewrite OB by assumption.
    rewrite GA by lia. rewrite Z.sub_0_r. reflexivity. }
  split; [exact L41|]. split; [exact L39|]. split; [exact L40|].
  intros l H. rewrite OB by lia. apply OA. intros j J E. pose proof (led_not_status j ltac:(lia)). lia.
Qed.

(** Palette mode. *)
Definition palette_pixel (x : inputs) (p : packet) (i : Z) : outcome rgb :=
  DisplayColorPalette_GetRGB pl fl (i mod 6) (net_time x i) kPaletteStrip (writeSetEffect 0 1 (8 + i / 6) p).

Lemma writeSetEffect_twice a b c a' b' c' p : wf_packet p ->
  writeSetEffect a b c (writeSetEffect a' b' c' p) = writeSetEffect a b c p.
Proof.
  intros (_ & _ & _ & L & _). unfold writeSetEffect. cbn [pid pdata]. f_equal.
  destruct (pdata p) as [|x [|y [|z r]]]; try discriminate L. reflexivity.
Qed.

Lemma palette_loop_ok x p0 : wf_packet p0 -> forall todo i p a,
  vsize a = 42 -> 0 <= i -> i + Z.of_nat todo <= 36 -> wf_packet p -> (forall u v w, writeSetEffect u v w p = writeSetEffect u v w p0) ->
  exists b q, palette_loop pl fl todo i x p a = Ok (q, b) /\ vsize b = 42 /\
    (forall j, i <= j < i + Z.of_nat todo -> if gap j then aget b (led j) = Ok black else aget b (led j) = palette_pixel x p0 j /\ fine (palette_pixel x p0 j)) /\
    (forall l, (forall j, i <= j < i + Z.of_nat todo -> l <> led j) -> aget b l = aget a l) /\
    wf_packet q /\ (forall u v w, writeSetEffect u v w q = writeSetEffect u v w p0) /\
    (todo = O -> q = p) /\ (i + Z.of_nat todo = 36 -> 0 < Z.of_nat todo -> q = writeSetEffect 0 1 13 p0).
Proof.
  intros W0. induction todo as [|todo IH]; intros i p a A I L WP EP.
  - exists a, p. cbn [palette_loop]. repeat (split; [auto; try (intros; lia)|]). intros; lia.
  - cbn [palette_loop]. destruct (gap i) eqn:G.
    + rewrite SetMainLed_eval by lia.
      destruct (aset_ok a (led i) black) as (-> & V & S1 & S2); [pose proof (led_range i ltac:(lia)); lia|]. cbn [obind].
      destruct (IH (i + 1) p _ ltac:(rewrite V; exact A) ltac:(lia) ltac:(lia) WP EP) as (b & q & -> & VB & GB & OB & WQ & EQ & F0 & FQ).
      exists b, q. split; [reflexivity|]. split; [exact VB|]. split.
      { intros j J. destruct (Z.eq_dec j i) as [->|Ne]; [|apply GB; lia].
        rewrite G. rewrite OB; [exact S1|]. intros j' J' X. apply led_inj in X; lia. }
      split; [|split; [exact WQ|split; [exact EQ|split; [discriminate|]]]].
      { intros l H. rewrite OB by (intros; apply H; lia). apply S2. apply (H i). lia. }
      { intros E Pz. apply FQ; [lia|]. unfold gap in G. lia. }
    + rewrite mode_palettes_get by lia. cbn [obind]. rewrite EP.
      change (DisplayColorPalette_GetRGB pl fl (i mod 6) (net_time x i) kPaletteStrip (writeSetEffect 0 1 (8 + i / 6) p0)) with (palette_pixel x p0 i).
      assert (FN : fine (palette_pixel x p0 i)).
      { destruct (writeSetEffect_asks pl 0 1 (8 + i / 6) p0 W0) as [AF _]; [unfold is_byte; lia..|].
        unfold palette_pixel. eapply fine_DisplayColorPalette_any; [exact OK|apply StripDescription_wf|exact AF|lia|reflexivity]. }
      destruct FN as (cl & FE & FW). rewrite FE. cbn [obind]. rewrite SetMainLed_eval by lia.
      destruct (aset_ok a (led i) cl) as (-> & V & S1 & S2); [pose proof (led_range i ltac:(lia)); lia|]. cbn [obind].
      destruct (IH (i + 1) (writeSetEffect 0 1 (8 + i / 6) p0) (list_set a (Z.to_nat (led i)) cl)) as (b & q & -> & VB & GB & OB & WQ & EQ & F0 & FQ);
        [lia|lia|lia|apply writeSetEffect_wf; exact W0|intros; apply writeSetEffect_twice; exact W0|].
      exists b, q. split; [reflexivity|]. split; [exact VB|]. split.
      { intros j J. destruct (Z.eq_dec j i) as [->|Ne]; [|apply GB; lia].
        rewrite G. split; [|exists cl; auto]. rewrite FE, OB; [exact S1|]. intros j' J' X. apply led_inj in X; lia. }
      split; [|split; [exact WQ|split; [exact EQ|split; [discriminate|]]]].
      { intros l H. rewrite OB by (intros; apply H; lia). apply S2. apply (H i). lia. }
      { intros E Pz. destruct todo as [|todo].
        - rewrite F0 by reflexivity. replace (8 + i / 6) with 13 by lia. reflexivity.
        - apply FQ; lia. }
Qed.

Lemma RunPaletteMode_ok x c : cinv c -> is_byte (radio_effect x) ->
  exists c', RunPaletteMode pl fl x c = Ok (c', match direct_choice x with Some _ => [se_packet c'] | None => [] end) /\
    cinv c' /\ prev_mode c' = prev_mode c /\ sel_effect c' = sel_effect c /\ sel_palette c' = sel_palette c /\
    co_packet c' = co_packet c /\
    se_packet c' = match direct_choice x with
                   | Some k => writeSetEffect (radio_effect x) 60 (8 + k) (se_packet c)
                   | None => writeSetEffect 0 1 13 (se_packet c) end /\
    (forall i, 0 <= i < 36 -> if gap i then aget (cleds c') (led i) = Ok black
       else aget (cleds c') (led i) = palette_pixel x (se_packet c) i /\ fine (palette_pixel x (se_packet c) i)) /\
    aget (cleds c') 41 = Ok (if left_rose x 0 then mkRGB 64 255 64 else if left_rose x 1 then mkRGB 255 64 64
                    else if left_rose x 2 then mkRGB 64 64 255 else mkRGB 64 64 64) /\
    aget (cleds c') 39 = Ok (if right_rose x 0 then mkRGB 64 64 255 else if right_rose x 1 then mkRGB 255 64 64
                    else if right_rose x 2 then mkRGB 64 255 64 else mkRGB 64 64 64) /\
    aget (cleds c') 40 = Ok black /\
    (forall l, 7 <= l <= 9 -> aget (cleds c') l = aget (cleds c) l).
Proof.
  intros I SN. unfold RunPaletteMode. pose proof (ci_leds c I) as VC. pose proof (ci_se c I) as WS.
  destruct (palette_loop_ok x (se_packet c) WS 36 0 (se_packet c) (cleds c)) as (a & q & -> & VA & GA & OA & WQ & EQ & _ & FQ);
    auto; try lia.
  cbn [obind]. rewrite FQ by lia.
  destruct (direct_feedback_ok x palette_right_feedback (right_rose x 1) (right_rose x 2) a) as (b & EB & VB & L41 & L39 & L40 & OB);
    [lia|intros; reflexivity|].
  rewrite (chain3 (direct_left_feedback x a) (palette_right_feedback x) (fun l => SetBottomButtonLeds 0 0 0 l)), EB. cbn [obind].
  set (r := match direct_choice x with Some k => writeSetEffect (radio_effect x) 60 (8 + k) (se_packet c)
                   | None => writeSetEffect 0 1 13 (se_packet c) end).
  exists (mkCtrl (prev_mode c) (sel_effect c) (sel_palette c) r (co_packet c) b).
  split.
  { unfold r. destruct (direct_choice x) as [k|] eqn:D; [|reflexivity].
    rewrite (mode_palettes_get k) by (eapply direct_choice_range; eauto). cbn [obind].
    unfold kSetEffectDelay. rewrite writeSetEffect_twice by exact WS. reflexivity. }
  cbn [sel_effect sel_palette se_packet co_packet cleds prev_mode].
  split.
  { constructor; cbn [sel_effect sel_palette se_packet co_packet cleds]; try apply I; [|lia].
    unfold r. destruct (direct_choice x); apply writeSetEffect_wf; exact WS. }
  repeat (split; [reflexivity|]).
  split.
  { intros i J. destruct (led_not_status i J) as (_ & _ & _ & N1 & N2 & N3).
    specialize (GA i ltac:(lia)). rewrite OB by assumption. exact GA. }
  split; [exact L41|]. split; [exact L39|]. split; [exact L40|].
  intros l H. rewrite OB by lia. apply OA. intros j J E. pose proof (led_not_status j ltac:(lia)). lia.
Qed.

(** One pass. *)
Definition entered (x : inputs) (c : ctrl) : ctrl :=
  mkCtrl (mode_of (mode_switch x)) (sel_effect c) (sel_palette c) (se_packet c) (co_packet c)
    (if mode_eqb (prev_mode c) (mode_of (mode_switch x)) then cleds c else map (fun _ => black) (cleds c)).
Lemma entered_inv x c : cinv c -> cinv (entered x c).
Proof.
  intros []. constructor; auto. cbn [entered cleds].
  destruct (mode_eqb _ _); [assumption|]. unfold vsize in *. rewrite map_length. assumption.
Qed.
Lemma run_mode_eval x c : run_mode pl fl T NP x c =
  match mode_of (mode_switch x) with
  | ModeEffect => RunEffectMode pl fl T NP x (entered x c)
  | ModeDirectColor => RunColorMode fl x (entered x c)
  | ModeDirectPalette => RunPaletteMode pl fl x (entered x c)
  end.
Proof. reflexivity. Qed.
Lemma mode_effect x : in_effect_mode x -> mode_of (mode_switch x) = ModeEffect.
Proof.
  unfold in_effect_mode, mode_of. change kMode1Threshold with 173. change kMode2Threshold with 512. intros H.
  destruct (_ <? 173) eqn:E; [lia|]. destruct (_ <? 512) eqn:F; [lia|reflexivity].
Qed.
Lemma mode_color x : in_color_mode x -> mode_of (mode_switch x) = ModeDirectColor.
Proof.
  unfold in_color_mode, mode_of. change kMode1Threshold with 173. change kMode2Threshold with 512. intros H.
  destruct (_ <? 173) eqn:E; [reflexivity|lia].
Qed.
Lemma mode_palette x : in_palette_mode x -> mode_of (mode_switch x) = ModeDirectPalette.
Proof.
  unfold in_palette_mode, mode_of. change kMode1Threshold with 173. change kMode2Threshold with 512. intros H.
  destruct (_ <? 173) eqn:E; [lia|]. destruct (_ <? 512) eqn:F; [reflexivity|lia].
Qed.
Lemma mode_cases x : in_color_mode x \/ in_palette_mode x \/ in_effect_mode x.
Proof. unfold in_color_mode, in_palette_mode, in_effect_mode. lia. Qed.
Lemma effect_modeb_true x : in_effect_mode x -> effect_modeb x = true.
Proof. unfold in_effect_mode, effect_modeb. lia. Qed.
Lemma effect_modeb_false x : in_color_mode x \/ in_palette_mode x -> effect_modeb x = false.
Proof. unfold in_color_mode, in_palette_mode, effect_modeb. lia. Qed.

Lemma run_mode_ok x c : cinv c -> sane x ->
  exists c' calls, run_mode pl fl T NP x c = Ok (c', calls) /\ cinv c' /\
    sel_effect c' = (sel_effect c + effect_steps x) mod 19 /\
    sel_palette c' = (sel_palette c + palette_steps x) mod 22 /\
    (in_effect_mode x -> se_packet c' = writeSetEffect (network_number (sel_effect c')) 60 (sel_palette c') (se_packet c)) /\
    (in_effect_mode x -> calls = match requested x with Send => [se_packet c] | _ => [] end).
Proof.
  intros I S. rewrite run_mode_eval. pose proof (entered_inv x c I) as I'.
  unfold effect_steps, palette_steps. pose proof (ci_effect c I). pose proof (ci_palette c I).
  destruct (mode_cases x) as [M|[M|M]].
  - rewrite (mode_color x M), effect_modeb_false by auto.
    destruct (RunColorMode_ok x _ I') as (c' & -> & J & _ & E1 & E2 & _). cbn [entered sel_effect sel_palette] in E1, E2.
    eexists c', _. split; [reflexivity|]. split; [exact J|]. split; [lia|]. split; [lia|].
    unfold in_color_mode, in_effect_mode in *. split; intros; lia.
  - rewrite (mode_palette x M), effect_modeb_false by auto.
    destruct (RunPaletteMode_ok x _ I' S) as (c' & -> & J & _ & E1 & E2 & _). cbn [entered sel_effect sel_palette] in E1, E2.
    eexists c', _. split; [reflexivity|]. split; [exact J|]. split; [lia|]. split; [lia|].
    unfold in_palette_mode, in_effect_mode in *. split; intros; lia.
  - rewrite (mode_effect x M), effect_modeb_true by auto.
    destruct (RunEffectMode_ok x _ I') as (c' & -> & J & _ & E1 & E2 & E3 & _). cbn [entered sel_effect sel_palette se_packet] in *.
    eexists c', _. split; [reflexivity|]. split; [exact J|]. split; [exact E1|]. split; [exact E2|].
    split; intros _; [exact E3|reflexivity].
Qed.

Lemma passes_app xs : forall ys c,
  passes pl fl T NP (xs ++ ys) c =
  ('(c, u) <- passes pl fl T NP xs c ;; '(c, v) <- passes pl fl T NP ys c ;; Ok (c, u ++ v)).
Proof.
  induction xs as [|x xs IH]; intros ys c; cbn [app passes].
  - cbn [obind]. destruct (passes pl fl T NP ys c) as [[? ?]| |]; reflexivity.
  - destruct (run_mode pl fl T NP x c) as [[c1 u1]| |]; cbn [obind]; try reflexivity. rewrite IH.
    destruct (passes pl fl T NP xs c1) as [[c2 u2]| |]; cbn [obind]; try reflexivity.
    destruct (passes pl fl T NP ys c2) as [[c3 u3]| |]; cbn [obind]; reflexivity.
Qed.
Lemma passes_ok xs : forall c, cinv c -> Forall sane xs ->
  exists c' calls, passes pl fl T NP xs c = Ok (c', calls) /\ cinv c' /\ length calls = length xs /\
    sel_effect c' = (sel_effect c + total effect_steps xs) mod 19 /\
    sel_palette c' = (sel_palette c + total palette_steps xs) mod 22.
Proof.
  induction xs as [|x xs IH]; intros c I S.
  - exists c, []. pose proof (ci_effect c I). pose proof (ci_palette c I). cbn [passes total fold_right].
    repeat (split; [auto|]); lia.
  - inversion S as [|? ? S1 S2]; subst. destruct (run_mode_ok x c I S1) as (c1 & u1 & E1 & I1 & A1 & B1 & _).
    destruct (IH c1 I1 S2) as (c2 & u2 & E2 & I2 & L2 & A2 & B2).
    exists c2, (u1 :: u2). cbn [passes]. rewrite E1. cbn [obind]. rewrite E2. cbn [obind].
    split; [reflexivity|]. split; [exact I2|]. split; [cbn [length]; lia|].
    change (total effect_steps (x :: xs)) with (effect_steps x + total effect_steps xs).
    change (total palette_steps (x :: xs)) with (palette_steps x + total palette_steps xs).
    rewrite A2, B2, A1, B1. rewrite Zplus_mod_idemp_l, Zplus_mod_idemp_l. split; f_equal; lia.
Qed.
Lemma total_app f xs ys : total f (xs ++ ys) = total f xs + total f ys.
Proof. induction xs as [|x xs IH]; cbn [total app fold_right] in *; [reflexivity|]. unfold total in *. rewrite IH. lia. Qed.
End Modes.
