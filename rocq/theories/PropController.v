(** C65, C66 and C75-C80: the hand-held controller. *)
From Coq Require Import ZArith Lia List Bool.
From Coq Require Import ZifyBool.
From Verif Require Import CInt CIntFacts Packet SpecPacket PacketFacts Fastled Maths Palette SpecColor PaletteFacts Device LedMgr SpecLed LedFacts RenderFacts
  Effects SpecEffect RgbFacts Show ShowFacts NetMgr Rsm SpecRsm RsmHist RsmEval RsmStep RsmFacts RsmRun PropShow PropApi Controller SpecController ControllerFacts.
Import ListNotations.
Open Scope Z_scope.
Ltac Zify.zify_post_hook ::= Z.div_mod_to_equations.

Notation session pl fl o xs := (passes pl fl (built (builtin o)) announced_palettes xs ctrl_init).

(** ** C66: the display map *)
Lemma led_physical row col : 0 <= row < 3 -> 0 <= col < 12 -> led (12 * row + col) = physical row col.
Proof.
  intros R C. unfold led, physical.
  destruct ((11 <? 12 * row + col) && (12 * row + col <? 24)) eqn:E, (6 <? 12 * row + col) eqn:F,
    (row =? 0) eqn:G, (row =? 1) eqn:H, (col <? 7) eqn:K; lia.
Qed.

Theorem C66_display_map : forall row col c leds, 0 <= row < 3 -> 0 <= col < 12 -> vsize leds = 42 ->
  exists leds', SetMainLed (12 * row + col) c leds = Ok leds' /\ vsize leds' = 42 /\
    aget leds' (physical row col) = Ok c /\
    forall l, l <> physical row col -> aget leds' l = aget leds l.
Proof.
  intros row col c leds R C V. rewrite SetMainLed_eval by lia. rewrite led_physical by assumption.
  destruct (aset_ok leds (physical row col) c) as (E & V' & G & O).
  - rewrite <- led_physical by assumption. pose proof (led_range (12 * row + col) ltac:(lia)). lia.
  - eexists. split; [exact E|]. split; [lia|]. auto.
Qed.
Print Assumptions C66_display_map.

Theorem C66_one_to_one : 
  (forall row col, 0 <= row < 3 -> 0 <= col < 12 -> display_led (physical row col)) /\
  (forall r c r' c', 0 <= r < 3 -> 0 <= c < 12 -> 0 <= r' < 3 -> 0 <= c' < 12 ->
     physical r c = physical r' c' -> r = r' /\ c = c') /\
  (forall l, display_led l -> exists row col, 0 <= row < 3 /\ 0 <= col < 12 /\ physical row col = l).
Proof.
  split; [|split].
  - intros row col R C. rewrite <- led_physical by assumption. apply led_display. lia.
  - intros r c r' c' R C R' C' E. rewrite <- !led_physical in E by assumption. apply led_inj in E; lia.
  - intros l [R N]. unfold physical.
    destruct (Z.lt_ge_cases l 15); [|destruct (Z.lt_ge_cases l 27)].
    + destruct (Z.lt_ge_cases l 7).
      * exists 0, l. cbn [Z.eqb]. destruct (l <? 7) eqn:E; lia.
      * exists 0, (l - 3). cbn [Z.eqb]. destruct (l - 3 <? 7) eqn:E; lia.
    + exists 1, (26 - l). cbn [Z.eqb Pos.eqb]. lia.
    + exists 2, (l - 27). cbn [Z.eqb Pos.eqb]. lia.
Qed.
Print Assumptions C66_one_to_one.
Example C66_example : vsize (repeat black 42) = 42 /\ physical 0 7 = 10 /\ physical 1 0 = 26 /\ physical 2 11 = 38.
Proof. repeat split. Qed.

(** ** C79: the controller never traps *)
Theorem C79_never_traps : forall pl fl o xs, fl_ok fl -> Forall sane xs ->
  exists c sent, session pl fl o xs = Ok (c, sent) /\ length sent = length xs.
Proof.
  intros pl fl o xs OK S. destruct (passes_ok pl fl OK o xs ctrl_init cinv_init S) as (c & u & E & _ & L & _). eauto.
Qed.
Print Assumptions C79_never_traps.
Example C79_example :
  Forall sane [mkIn (fun _ => false) (fun _ => true) (fun _ => true) 1023 false true 255 (fun k => k)].
Proof. repeat constructor; unfold sane, is_byte; cbn; lia. Qed.

(** ** C65: browsing and sending *)

(** The [k]-th effect of the built-in list. *)
Definition effect_at (o : offsets) (k : Z) (e : effect) : Prop :=
  exists share, nth_error (builtin o) (Z.to_nat k) = Some (e, share).
Lemma effect_at_number o k : 0 <= k < 19 -> effect_at o k (effect_number o (network_number k)).
Proof.
  revert k. apply below19. repeat (apply Forall_cons; [eexists; reflexivity|]). apply Forall_nil.
Qed.

(** Whatever happened before: if the last pass was in effect mode, then pressing
    send hands exactly one packet to the radio; it asks for effect number
    (net forward steps mod 19), palette (net forward steps mod 22), for 60
    seconds; every node with the built-in effects shows that effect. *)
Theorem C65_send_what_was_selected : forall pl fl o xs y x, fl_ok fl -> Forall sane (xs ++ [y; x]) ->
  in_effect_mode y -> in_effect_mode x -> requested x = Send ->
  let effect_sel := total effect_steps (xs ++ [y]) mod 19 in
  let palette_sel := total palette_steps (xs ++ [y]) mod 22 in
  exists c sent p, session pl fl o (xs ++ [y; x]) = Ok (c, sent ++ [[p]]) /\ length sent = S (length xs) /\
    asks_for pl p (network_number effect_sel) palette_sel /\ hold_seconds p = 60 /\
    forall o', exists e, effect_at o' effect_sel e /\ GetCurrentEffect pl (built (builtin o')) p = Ok e.
Proof.
  intros pl fl o xs y x OK S MY MX Q es ps.
  apply Forall_app in S as [S1 S2]. inversion S2 as [|? ? SY S3]; subst. inversion S3 as [|? ? SX _]; subst.
  destruct (passes_ok pl fl OK o xs ctrl_init cinv_init S1) as (c1 & u1 & E1 & I1 & L1 & A1 & B1).
  destruct (run_mode_ok pl fl OK o y c1 I1 SY) as (c2 & u2 & E2 & I2 & A2 & B2 & P2 & _). specialize (P2 MY).
  destruct (run_mode_ok pl fl OK o x c2 I2 SX) as (c3 & u3 & E3 & I3 & _ & _ & _ & C3). specialize (C3 MX). rewrite Q in C3. subst u3.
  assert (XE : sel_effect c2 = es).
  { unfold es. rewrite total_app, A2, A1. change (total effect_steps [y]) with (effect_steps y + 0). change (sel_effect ctrl_init) with 0.
    rewrite Zplus_mod_idemp_l. f_equal. lia. }
  assert (XP : sel_palette c2 = ps).
  { unfold ps. rewrite total_app, B2, B1. change (total palette_steps [y]) with (palette_steps y + 0). change (sel_palette ctrl_init) with 0.
    rewrite Zplus_mod_idemp_l. f_equal. lia. }
  exists c3, (u1 ++ [u2]), (se_packet c2).
  split.
  { rewrite passes_app, E1. cbn [obind passes]. rewrite E2. cbn [obind]. rewrite E3. cbn [obind].
    rewrite <- app_assoc. reflexivity. }
  split; [rewrite app_length; cbn [length]; lia|].
  assert (RE : 0 <= es < 19) by (apply Z.mod_pos_bound; lia).
  assert (RP : 0 <= ps < 22) by (apply Z.mod_pos_bound; lia).
  destruct (network_number_eval o es RE) as [_ RN].
  rewrite P2, XE, XP.
  destruct (writeSetEffect_asks pl (network_number es) 60 ps (se_packet c1) (ci_se c1 I1)) as [AF H]; [unfold is_byte; lia..|].
  split; [exact AF|]. split; [exact H|].
  intros o'. exists (effect_number o' (network_number es)). split; [apply effect_at_number; exact RE|].
  destruct (current_selected pl o' _ _ _ (network_number es) AF) as [G _]; [split; lia|exact G].
Qed.
Print Assumptions C65_send_what_was_selected.

(** In effect mode nothing is sent unless send is pressed. *)
Theorem C65_nothing_else_sends : forall pl fl o xs x, fl_ok fl -> Forall sane (xs ++ [x]) ->
  in_effect_mode x -> requested x <> Send ->
  exists c sent, session pl fl o (xs ++ [x]) = Ok (c, sent ++ [[]]) /\ length sent = length xs.
Proof.
  intros pl fl o xs x OK S MX Q. apply Forall_app in S as [S1 S2]. inversion S2 as [|? ? SX _]; subst.
  destruct (passes_ok pl fl OK o xs ctrl_init cinv_init S1) as (c1 & u1 & E1 & I1 & L1 & _).
  destruct (run_mode_ok pl fl OK o x c1 I1 SX) as (c2 & u2 & E2 & _ & _ & _ & _ & C2). specialize (C2 MX).
  exists c2, u1. rewrite passes_app, E1. cbn [obind passes]. rewrite E2. cbn [obind].
  split; [|exact L1]. subst u2. destruct (requested x); congruence.
Qed.
Print Assumptions C65_nothing_else_sends.

(** Forward and back undo each other: the selections depend only on the net
    number of steps, and a step there and one back is net zero. *)
Theorem C65_back_undoes_forward : forall a b,
  in_effect_mode a -> in_effect_mode b ->
  (requested a = EffectForward /\ requested b = EffectBack \/ requested a = EffectBack /\ requested b = EffectForward \/
   requested a = PaletteForward /\ requested b = PaletteBack \/ requested a = PaletteBack /\ requested b = PaletteForward) ->
  forall pl fl o xs c sent c' sent', fl_ok fl -> Forall sane (xs ++ [a; b]) ->
  session pl fl o xs = Ok (c, sent) -> session pl fl o (xs ++ [a; b]) = Ok (c', sent') ->
  sel_effect c' = sel_effect c /\ sel_palette c' = sel_palette c /\
  0 <= sel_effect c < 19 /\ 0 <= sel_palette c < 22.
Proof.
  intros a b MA MB Q pl fl o xs c sent c' sent' OK S E E'.
  pose proof S as S'. apply Forall_app in S as [S1 _].
  destruct (passes_ok pl fl OK o xs ctrl_init cinv_init S1) as (c1 & u1 & E1 & I1 & _ & A1 & B1). rewrite E1 in E. injection E as -> ->.
  destruct (passes_ok pl fl OK o (xs ++ [a; b]) ctrl_init cinv_init S') as (c2 & u2 & E2 & _ & _ & A2 & B2). rewrite E2 in E'. injection E' as -> ->.
  rewrite total_app in A2, B2.
  assert (ZZ : total effect_steps [a; b] = 0 /\ total palette_steps [a; b] = 0).
  { unfold total, effect_steps, palette_steps. cbn [fold_right]. rewrite !effect_modeb_true by assumption.
    destruct Q as [[-> ->]|[[-> ->]|[[-> ->]|[-> ->]]]]; split; reflexivity. }
  destruct ZZ as [Z1 Z2]. rewrite Z1, Z.add_0_r in A2. rewrite Z2, Z.add_0_r in B2. split; [congruence|]. split; [congruence|].
  split; [apply I1|apply I1].
Qed.
Print Assumptions C65_back_undoes_forward.

Definition press (l r b : list Z) (switch : Z) : inputs :=
  mkIn (fun k => existsb (Z.eqb k) l) (fun k => existsb (Z.eqb k) r) (fun k => existsb (Z.eqb k) b) switch false true 0 (fun _ => 0).
(** Two effects back and three palettes forward, with a visit to colour mode in
    between, then send. *)
Example C65_example :
  let xs := [press [0] [] [] 1000; press [] [1] [] 1000; press [1] [] [] 0; press [] [1] [] 1000; press [0] [] [] 1000] in
  let y := press [] [1] [] 1000 in let x := press [] [] [0] 1000 in
  Forall sane (xs ++ [y; x]) /\ in_effect_mode y /\ in_effect_mode x /\ requested x = Send /\
  total effect_steps (xs ++ [y]) mod 19 = 17 /\ network_number 17 = 33 /\ total palette_steps (xs ++ [y]) mod 22 = 3.
Proof.
  cbv zeta. split; [repeat constructor; unfold sane, is_byte; cbn; lia|]. unfold in_effect_mode. cbn [press mode_switch].
  repeat split; try lia; reflexivity.
Qed.

(** ** C80: the preview shows what would be sent *)

(** The rows are shown as strips of twelve bright LEDs of a controller. *)
Definition row_of_twelve : strip := StripDescription 12 [Bright; Controller].
Theorem C80_preview : forall pl fl o xs x y c sent, fl_ok fl -> Forall sane (xs ++ [x; y]) ->
  in_effect_mode x -> in_effect_mode y -> requested y = Send ->
  session pl fl o (xs ++ [x]) = Ok (c, sent) ->
  exists c' p, session pl fl o (xs ++ [x; y]) = Ok (c', sent ++ [[p]]) /\
    (forall col, 0 <= col < 12 ->
       aget (cleds c) (physical 0 col) = current_pixel pl fl (built (builtin o)) p row_of_twelve col (net_time x col)) /\
    (forall col, 0 <= col < 12 ->
       aget (cleds c) (physical 1 col) = DisplayColorPalette_GetRGB pl fl col (net_time x (12 + col)) row_of_twelve p) /\
    aget (cleds c) 7 = Ok (if is_slave x then mkRGB 255 0 0 else mkRGB 0 255 0) /\
    aget (cleds c) 9 = Ok (mkRGB 0 0 (if sending x then 255 else 0)).
Proof.
  intros pl fl o xs x y c sent OK S MX MY Q E.
  apply Forall_app in S as [S1 S2]. inversion S2 as [|? ? SX S3]; subst. inversion S3 as [|? ? SY _]; subst.
  destruct (passes_ok pl fl OK o xs ctrl_init cinv_init S1) as (c1 & u1 & E1 & I1 & L1 & A1 & B1).
  rewrite passes_app, E1 in E. cbn [obind passes] in E.
  rewrite run_mode_eval, (mode_effect x MX) in E.
  destruct (RunEffectMode_ok pl fl OK o x _ (entered_inv x c1 I1)) as (c2 & E2 & I2 & _ & _ & _ & _ & _ & R0 & R1 & S7 & S9 & _).
  rewrite E2 in E. cbn [obind] in E. injection E as <- <-.
  destruct (run_mode_ok pl fl OK o y c2 I2 SY) as (c3 & u3 & E3 & _ & _ & _ & _ & C3). specialize (C3 MY). rewrite Q in C3. subst u3.
  exists c3, (se_packet c2). split.
  { rewrite passes_app, E1. cbn [obind passes]. rewrite run_mode_eval, (mode_effect x MX), E2. cbn [obind]. rewrite E3. cbn [obind].
    rewrite <- app_assoc. reflexivity. }
  split; [|split; [|split; [exact S7|exact S9]]].
  - intros col C. rewrite <- led_physical by lia. apply R0. exact C.
  - intros col C. rewrite <- led_physical by lia. apply R1. exact C.
Qed.
Print Assumptions C80_preview.
Example C80_example :
  let x := press [0] [] [] 600 in let y := press [] [] [0; 1] 512 in
  Forall sane [x; y] /\ in_effect_mode x /\ in_effect_mode y /\ requested y = Send.
Proof. cbv zeta. split; [repeat constructor; unfold sane, is_byte; cbn; lia|]. unfold in_effect_mode; cbn [press mode_switch]. repeat split; lia. Qed.

(** ** C76: a stale packet can be sent *)

(** Full statement of C65 without the condition on the previous pass: it fails.
    (1) At power-up the first press of send hands an all-zero packet to the
    radio, which is of type heartbeat.  (2) After a visit to palette mode, send
    in the first effect-mode pass asks for effect 0 with palette 13 for one
    second, not for the selection. *)
Theorem C76_stale_at_power_up : forall pl fl o x, fl_ok fl -> sane x -> in_effect_mode x -> requested x = Send ->
  exists c p, session pl fl o [x] = Ok (c, [[p]]) /\ ptype p = HEARTBEAT /\ pdata p = repeat 0 58.
Proof.
  intros pl fl o x OK S M Q.
  destruct (run_mode_ok pl fl OK o x ctrl_init cinv_init S) as (c & u & E & _ & _ & _ & _ & C). specialize (C M). rewrite Q in C. subst u.
  exists c, zero_packet. cbn [passes]. rewrite E. repeat split.
Qed.
Print Assumptions C76_stale_at_power_up.

Theorem C76_stale_after_palette_mode : forall pl fl o xs y x, fl_ok fl -> Forall sane (xs ++ [y; x]) ->
  in_palette_mode y -> no_direct_press y -> in_effect_mode x -> requested x = Send ->
  exists c sent p, session pl fl o (xs ++ [y; x]) = Ok (c, sent ++ [[p]]) /\ length sent = S (length xs) /\
    asks_for pl p 0 13 /\ hold_seconds p = 1.
Proof.
  intros pl fl o xs y x OK S MY NP MX Q.
  apply Forall_app in S as [S1 S2]. inversion S2 as [|? ? SY S3]; subst. inversion S3 as [|? ? SX _]; subst.
  destruct (passes_ok pl fl OK o xs ctrl_init cinv_init S1) as (c1 & u1 & E1 & I1 & L1 & A1 & B1).
  destruct (RunPaletteMode_ok pl fl OK y _ (entered_inv y c1 I1) SY) as (c2 & E2 & I2 & _ & _ & _ & _ & P2 & _).
  assert (D : direct_choice y = None).
  { destruct NP as (N1 & N2 & N3 & N4 & N5 & N6). unfold direct_choice. rewrite N1, N2, N3, N4, N5, N6. reflexivity. }
  rewrite D in P2, E2. cbn [entered se_packet] in P2.
  destruct (run_mode_ok pl fl OK o x c2 I2 SX) as (c3 & u3 & E3 & I3 & _ & _ & _ & C3). specialize (C3 MX). rewrite Q in C3. subst u3.
  exists c3, (u1 ++ [[]]), (se_packet c2). split.
  { rewrite passes_app, E1. cbn [obind passes]. rewrite run_mode_eval, (mode_palette y MY), E2. cbn [obind]. rewrite E3. cbn [obind].
    rewrite <- app_assoc. reflexivity. }
  split; [rewrite app_length; cbn [length]; lia|]. rewrite P2.
  apply writeSetEffect_asks; [apply (ci_se c1 I1)|unfold is_byte; lia..].
Qed.
Print Assumptions C76_stale_after_palette_mode.
Example C76_example :
  let y := press [] [] [] 300 in let x := press [] [] [0] 700 in
  Forall sane [y; x] /\ in_palette_mode y /\ no_direct_press y /\ in_effect_mode x /\ requested x = Send.
Proof.
  cbv zeta. split; [repeat constructor; unfold sane, is_byte; cbn; lia|].
  unfold in_palette_mode, in_effect_mode, no_direct_press; cbn [press mode_switch]. repeat split; lia.
Qed.

(** ** C75: colour mode *)

(** The six colours offered: hues 0, 42, 85, 128, 170, 213 at full saturation and
    value, numbered left to right, top to bottom. *)
Definition offered (fl : fastled) (side row : Z) : rgb :=
  fl_hsv2rgb fl (mkHSV (nth (Z.to_nat (2 * row + side)) [0; 42; 85; 128; 170; 213] 0) 255 255).
Lemma offered_eq fl side row : 0 <= side < 2 -> 0 <= row < 3 ->
  offered fl side row = fl_hsv2rgb fl (mkHSV (256 * (2 * row + side) / 6) 255 255).
Proof.
  intros S R. assert (side = 0 \/ side = 1) as [->| ->] by lia; assert (row = 0 \/ row = 1 \/ row = 2) as [->|[->| ->]] by lia; reflexivity.
Qed.
Lemma direct_choice_pressed x side row : direct_pressed x side row -> direct_choice x = Some (2 * row + side).
Proof.
  unfold direct_choice. intros [(-> & [(-> & ->)|[(-> & -> & ->)|(-> & -> & -> & ->)]])|(-> & -> & -> & -> & [(-> & ->)|[(-> & -> & ->)|(-> & -> & -> & ->)]])]; reflexivity.
Qed.
Lemma direct_choice_none x : no_direct_press x -> direct_choice x = None.
Proof. intros (N1 & N2 & N3 & N4 & N5 & N6). unfold direct_choice. rewrite N1, N2, N3, N4, N5, N6. reflexivity. Qed.

Theorem C75_colour_mode_shows_the_choices : forall pl fl o xs x, fl_ok fl -> Forall sane (xs ++ [x]) -> in_color_mode x ->
  exists c sent, session pl fl o (xs ++ [x]) = Ok (c, sent) /\
    (forall side row j, 0 <= side < 2 -> 0 <= row < 3 -> 0 <= j < 5 ->
       aget (cleds c) (physical row (7 * side + j)) = Ok (offered fl side row)) /\
    (forall row col, 0 <= row < 3 -> 5 <= col <= 6 -> aget (cleds c) (physical row col) = Ok black).
Proof.
  intros pl fl o xs x OK S M. apply Forall_app in S as [S1 S2].
  destruct (passes_ok pl fl OK o xs ctrl_init cinv_init S1) as (c1 & u1 & E1 & I1 & L1 & _).
  destruct (RunColorMode_ok fl x _ (entered_inv x c1 I1)) as (c2 & E2 & _ & _ & _ & _ & _ & _ & D & _).
  exists c2, (u1 ++ [match direct_choice x with Some _ => [co_packet c2] | None => [] end]). split.
  { rewrite passes_app, E1. cbn [obind passes]. rewrite run_mode_eval, (mode_color x M), E2. reflexivity. }
  split.
  - intros side row j Si R J. rewrite <- led_physical by lia. rewrite D by lia. rewrite offered_eq by lia.
    assert (G : gap (12 * row + (7 * side + j)) = false) by (unfold gap; lia). rewrite G.
    replace ((12 * row + (7 * side + j)) / 6) with (2 * row + side) by lia. reflexivity.
  - intros row col R C. rewrite <- led_physical by lia. rewrite D by lia.
    assert (G : gap (12 * row + col) = true) by (unfold gap; lia). rewrite G. reflexivity.
Qed.
Print Assumptions C75_colour_mode_shows_the_choices.

Theorem C75_colour_mode_sends_the_colour_beside_the_button : forall pl fl o xs x side row, fl_ok fl ->
  Forall sane (xs ++ [x]) -> in_color_mode x -> direct_pressed x side row ->
  exists c sent p, session pl fl o (xs ++ [x]) = Ok (c, sent ++ [[p]]) /\ length sent = length xs /\
    asks_for_colour pl p (offered fl side row) /\ hold_seconds p = 60 /\
    forall o' s j t, current_pixel pl fl (built (builtin o')) p s j t = Ok (offered fl side row).
Proof.
  intros pl fl o xs x side row OK S M P. apply Forall_app in S as [S1 S2].
  destruct (passes_ok pl fl OK o xs ctrl_init cinv_init S1) as (c1 & u1 & E1 & I1 & L1 & _).
  destruct (RunColorMode_ok fl x _ (entered_inv x c1 I1)) as (c2 & E2 & _ & _ & _ & _ & _ & C2 & _).
  assert (B : 0 <= side < 2 /\ 0 <= row < 3) by (destruct P as [(-> & P)|(-> & _ & _ & _ & P)]; lia).
  rewrite (direct_choice_pressed x side row P) in *. rewrite <- offered_eq in C2 by lia. cbn [entered co_packet] in C2.
  exists c2, u1, (co_packet c2). split.
  { rewrite passes_app, E1. cbn [obind passes]. rewrite run_mode_eval, (mode_color x M), E2. reflexivity. }
  split; [exact L1|]. rewrite C2.
  assert (W : wf_rgb (offered fl side row)).
  { rewrite offered_eq by lia. apply OK. unfold wf_hsv, is_byte; cbn [hue sat val]. lia. }
  destruct (writeControl_asks pl 60 (offered fl side row) (co_packet c1) (ci_co c1 I1)) as [A H]; [unfold is_byte; lia|exact W|].
  split; [exact A|]. split; [exact H|].
  intros o' s j t. unfold current_pixel, GetCurrentEffect. rewrite (proj1 (proj2 A)). change (SET_CONTROL =? SET_CONTROL) with true.
  cbv iota. cbn [obind GetRGB]. unfold Control_GetRGB. apply colour_read. exact A.
Qed.
Print Assumptions C75_colour_mode_sends_the_colour_beside_the_button.

Theorem C75_colour_mode_sends_only_on_a_press : forall pl fl o xs x, fl_ok fl ->
  Forall sane (xs ++ [x]) -> in_color_mode x -> no_direct_press x ->
  exists c sent, session pl fl o (xs ++ [x]) = Ok (c, sent ++ [[]]) /\ length sent = length xs.
Proof.
  intros pl fl o xs x OK S M P. apply Forall_app in S as [S1 S2].
  destruct (passes_ok pl fl OK o xs ctrl_init cinv_init S1) as (c1 & u1 & E1 & I1 & L1 & _).
  destruct (RunColorMode_ok fl x _ (entered_inv x c1 I1)) as (c2 & E2 & _).
  rewrite (direct_choice_none x P) in *. exists c2, u1. split; [|exact L1].
  rewrite passes_app, E1. cbn [obind passes]. rewrite run_mode_eval, (mode_color x M), E2. reflexivity.
Qed.
Print Assumptions C75_colour_mode_sends_only_on_a_press.
Example C75_example :
  let x := press [] [1; 2] [] 100 in sane x /\ in_color_mode x /\ direct_pressed x 1 1.
Proof.
  cbv zeta. split; [unfold sane, is_byte; cbn; lia|]. split; [unfold in_color_mode; cbn; lia|].
  right. repeat split; try reflexivity. right. left. repeat split; reflexivity.
Qed.

(** ** C77: palette mode *)
Theorem C77_palette_mode_sends : forall pl fl o xs x side row, fl_ok fl ->
  Forall sane (xs ++ [x]) -> in_palette_mode x -> direct_pressed x side row ->
  exists c sent p, session pl fl o (xs ++ [x]) = Ok (c, sent ++ [[p]]) /\ length sent = length xs /\
    asks_for pl p (radio_effect x) (8 + 2 * row + side) /\ hold_seconds p = 60.
Proof.
  intros pl fl o xs x side row OK S M P. apply Forall_app in S as [S1 S2]. inversion S2 as [|? ? SX _]; subst.
  destruct (passes_ok pl fl OK o xs ctrl_init cinv_init S1) as (c1 & u1 & E1 & I1 & L1 & _).
  destruct (RunPaletteMode_ok pl fl OK x _ (entered_inv x c1 I1) SX) as (c2 & E2 & _ & _ & _ & _ & _ & C2 & _).
  assert (B : 0 <= side < 2 /\ 0 <= row < 3) by (destruct P as [(-> & P)|(-> & _ & _ & _ & P)]; lia).
  rewrite (direct_choice_pressed x side row P) in *. cbn [entered se_packet] in C2.
  exists c2, u1, (se_packet c2). split.
  { rewrite passes_app, E1. cbn [obind passes]. rewrite run_mode_eval, (mode_palette x M), E2. reflexivity. }
  split; [exact L1|]. rewrite C2. replace (8 + 2 * row + side) with (8 + (2 * row + side)) by lia.
  apply writeSetEffect_asks; [apply (ci_se c1 I1)|exact SX|unfold is_byte; lia..].
Qed.
Print Assumptions C77_palette_mode_sends.

(** The left blocks show their palette as on a five-LED strip: the block's LED [j]
    is the pixel [j] which the palette display effect shows on such a strip; the
    gaps are dark.  The right blocks are shifted: LED [j] shows position [j + 1];
    the first colour never appears at the left end of a right block. *)
Definition five_leds : strip := StripDescription 5 [Bright; Controller].
Definition sample (pl : platform) (fl : fastled) (palette pos time : Z) : outcome rgb :=
  DisplayColorPalette_GetRGB pl fl pos time five_leds (writeSetEffect 0 1 palette zero_packet).
Lemma sample_any pl fl pal pos time p : wf_packet p -> 0 <= pal < 22 ->
  DisplayColorPalette_GetRGB pl fl pos time kPaletteStrip (writeSetEffect 0 1 pal p) = sample pl fl pal pos time.
Proof.
  intros W R. unfold sample, DisplayColorPalette_GetRGB.
  destruct (writeSetEffect_asks pl 0 1 pal p W) as [A _]; [unfold is_byte; lia..|].
  destruct (writeSetEffect_asks pl 0 1 pal zero_packet zero_packet_wf) as [B _]; [unfold is_byte; lia..|].
  destruct (packet_palette_eval pl _ _ _ A ltac:(lia)) as [-> _]. destruct (packet_palette_eval pl _ _ _ B ltac:(lia)) as [-> _].
  reflexivity.
Qed.

Theorem C77_palette_mode_display : forall pl fl o xs x, fl_ok fl -> Forall sane (xs ++ [x]) -> in_palette_mode x ->
  exists c sent, session pl fl o (xs ++ [x]) = Ok (c, sent) /\
    (forall row j, 0 <= row < 3 -> 0 <= j < 5 ->
       aget (cleds c) (physical row j) = sample pl fl (8 + 2 * row) j (net_time x (12 * row + j))) /\
    (forall row j, 0 <= row < 3 -> 0 <= j < 5 ->
       aget (cleds c) (physical row (7 + j)) = sample pl fl (8 + 2 * row + 1) (j + 1) (net_time x (12 * row + 7 + j))) /\
    (forall row col, 0 <= row < 3 -> 5 <= col <= 6 -> aget (cleds c) (physical row col) = Ok black).
Proof.
  intros pl fl o xs x OK S M. apply Forall_app in S as [S1 S2]. inversion S2 as [|? ? SX _]; subst.
  destruct (passes_ok pl fl OK o xs ctrl_init cinv_init S1) as (c1 & u1 & E1 & I1 & L1 & _).
  destruct (RunPaletteMode_ok pl fl OK x _ (entered_inv x c1 I1) SX) as (c2 & E2 & _ & _ & _ & _ & _ & _ & D & _).
  eexists c2, (u1 ++ [_]). split.
  { rewrite passes_app, E1. cbn [obind passes]. rewrite run_mode_eval, (mode_palette x M), E2. reflexivity. }
  cbn [entered se_packet] in D.
  split; [|split].
  - intros row j R J. specialize (D (12 * row + j) ltac:(lia)).
    assert (G : gap (12 * row + j) = false) by (unfold gap; lia). rewrite G in D. destruct D as [D _].
    rewrite led_physical in D by lia. rewrite D. unfold palette_pixel.
    replace ((12 * row + j) / 6) with (2 * row) by lia. replace ((12 * row + j) mod 6) with j by lia.
    apply sample_any; [apply (ci_se c1 I1)|lia].
  - intros row j R J. specialize (D (12 * row + (7 + j)) ltac:(lia)).
    assert (G : gap (12 * row + (7 + j)) = false) by (unfold gap; lia). rewrite G in D. destruct D as [D _].
    rewrite led_physical in D by lia. rewrite D. unfold palette_pixel.
    replace ((12 * row + (7 + j)) / 6) with (2 * row + 1) by lia. replace ((12 * row + (7 + j)) mod 6) with (j + 1) by lia.
    replace (8 + 2 * row + 1) with (8 + (2 * row + 1)) by lia. replace (12 * row + 7 + j) with (12 * row + (7 + j)) by lia.
    apply sample_any; [apply (ci_se c1 I1)|lia].
  - intros row col R C. specialize (D (12 * row + col) ltac:(lia)).
    assert (G : gap (12 * row + col) = true) by (unfold gap; lia). rewrite G in D. rewrite led_physical in D by lia. exact D.
Qed.
Print Assumptions C77_palette_mode_display.

(** So the right blocks do not show their palette from its first colour on, unlike
    the left ones: with palette 9 the first LED of the right block is not the
    palette's first pixel. *)
Theorem C77_right_blocks_shifted_refuted : exists pl fl x c sent, sane x /\ in_palette_mode x /\
  session pl fl (mkOffsets 0 0 0) [x] = Ok (c, sent) /\
  aget (cleds c) (physical 0 7) <> sample pl fl 9 0 (net_time x 7) /\
  aget (cleds c) (physical 0 7) = sample pl fl 9 1 (net_time x 7).
Proof.
  pose (r := session Host fl_ref (mkOffsets 0 0 0) [press [] [] [] 300]).
  exists Host, fl_ref, (press [] [] [] 300), (match r with Ok (c, _) => c | _ => ctrl_init end), (match r with Ok (_, u) => u | _ => [] end).
  split; [unfold sane, is_byte; cbn; lia|]. split; [unfold in_palette_mode; cbn; lia|].
  split; [vm_compute; reflexivity|]. split; [vm_compute; discriminate|vm_compute; reflexivity].
Qed.
Print Assumptions C77_right_blocks_shifted_refuted.

Example C77_example :
  let x := press [2] [1] [] 173 in sane x /\ in_palette_mode x /\ direct_pressed x 0 2.
Proof.
  cbv zeta. split; [unfold sane, is_byte; cbn; lia|]. split; [unfold in_palette_mode; cbn; lia|].
  left. split; [reflexivity|]. right. right. repeat split; reflexivity.
Qed.

(** ** C78: button lamps *)

(** [shows c w k v]: in the picture of [c], lamp [k] of the group [w] has brightness [v]. *)
Definition shows (c : ctrl) (w : lamps) (k v : Z) : Prop :=
  exists col, aget (cleds c) (lamp_led w) = Ok col /\ lamp w k col = v.

(** Left and bottom lamps are right in every mode, the right ones in palette mode:
    the pressed button lights up at full brightness, the other usable ones glow,
    buttons without function are dark. *)
Theorem C78_lamps : forall pl fl o xs x, fl_ok fl -> Forall sane (xs ++ [x]) ->
  exists c sent, session pl fl o (xs ++ [x]) = Ok (c, sent) /\
    (forall k, 1 <= k <= 3 ->
       shows c LeftLamps k (proper_lamp (left_rose x) (if effect_modeb x then 2 else 3) k)) /\
    (forall k, 1 <= k <= 3 ->
       shows c BottomLamps k (proper_lamp (bottom_rose x) (if effect_modeb x then 1 else 0) k)) /\
    (in_palette_mode x -> forall k, 1 <= k <= 3 -> shows c RightLamps k (proper_lamp (right_rose x) 3 k)).
Proof.
  intros pl fl o xs x OK S. apply Forall_app in S as [S1 S2]. inversion S2 as [|? ? SX _]; subst.
  destruct (passes_ok pl fl OK o xs ctrl_init cinv_init S1) as (c1 & u1 & E1 & I1 & L1 & _).
  assert (K3 : forall k, 1 <= k <= 3 -> k = 1 \/ k = 2 \/ k = 3) by (intros; lia).
  destruct (mode_cases x) as [M|[M|M]].
  - destruct (RunColorMode_ok fl x _ (entered_inv x c1 I1)) as (c2 & E2 & _ & _ & _ & _ & _ & _ & _ & L41 & L39 & L40 & _).
    eexists c2, (u1 ++ [_]). split.
    { rewrite passes_app, E1. cbn [obind passes]. rewrite run_mode_eval, (mode_color x M), E2. reflexivity. }
    rewrite effect_modeb_false by auto.
    split; [|split; [|unfold in_color_mode, in_palette_mode in *; intros; lia]].
    + intros k Hk. eexists. split; [exact L41|]. unfold proper_lamp, first_pressed.
      destruct (K3 k Hk) as [->|[->| ->]]; cbn [Z.eqb Pos.eqb]; destruct (left_rose x 0) eqn:A0, (left_rose x 1) eqn:A1, (left_rose x 2) eqn:A2;
        cbv -[left_rose]; rewrite ?A0, ?A1, ?A2; reflexivity.
    + intros k Hk. eexists. split; [exact L40|]. unfold proper_lamp. destruct (K3 k Hk) as [->|[->| ->]]; reflexivity.
  - destruct (RunPaletteMode_ok pl fl OK x _ (entered_inv x c1 I1) SX) as (c2 & E2 & _ & _ & _ & _ & _ & _ & _ & L41 & L39 & L40 & _).
    eexists c2, (u1 ++ [_]). split.
    { rewrite passes_app, E1. cbn [obind passes]. rewrite run_mode_eval, (mode_palette x M), E2. reflexivity. }
    rewrite effect_modeb_false by auto.
    split; [|split].
    + intros k Hk. eexists. split; [exact L41|]. unfold proper_lamp, first_pressed.
      destruct (K3 k Hk) as [->|[->| ->]]; cbn [Z.eqb Pos.eqb]; destruct (left_rose x 0) eqn:A0, (left_rose x 1) eqn:A1, (left_rose x 2) eqn:A2;
        cbv -[left_rose]; rewrite ?A0, ?A1, ?A2; reflexivity.
    + intros k Hk. eexists. split; [exact L40|]. unfold proper_lamp. destruct (K3 k Hk) as [->|[->| ->]]; reflexivity.
    + intros _ k Hk. eexists. split; [exact L39|]. unfold proper_lamp, first_pressed.
      destruct (K3 k Hk) as [->|[->| ->]]; cbn [Z.eqb Pos.eqb]; destruct (right_rose x 0) eqn:A0, (right_rose x 1) eqn:A1, (right_rose x 2) eqn:A2;
        cbv -[right_rose]; rewrite ?A0, ?A1, ?A2; reflexivity.
  - destruct (RunEffectMode_ok pl fl OK o x _ (entered_inv x c1 I1)) as (c2 & E2 & _ & _ & _ & _ & _ & _ & _ & _ & _ & _ & L41 & L39 & L40 & _).
    eexists c2, (u1 ++ [_]). split.
    { rewrite passes_app, E1. cbn [obind passes]. rewrite run_mode_eval, (mode_effect x M), E2. reflexivity. }
    rewrite effect_modeb_true by auto.
    split; [|split; [|unfold in_effect_mode, in_palette_mode in *; intros; lia]].
    + intros k Hk. eexists. split; [exact L41|]. unfold proper_lamp, first_pressed.
      destruct (K3 k Hk) as [->|[->| ->]]; cbn [Z.eqb Pos.eqb]; destruct (left_rose x 0) eqn:A0, (left_rose x 1) eqn:A1;
        cbv -[left_rose]; rewrite ?A0, ?A1; reflexivity.
    + intros k Hk. eexists. split; [exact L40|]. unfold proper_lamp, first_pressed.
      destruct (K3 k Hk) as [->|[->| ->]]; cbn [Z.eqb Pos.eqb]; destruct (bottom_rose x 0) eqn:A0;
        cbv -[bottom_rose]; rewrite ?A0; reflexivity.
Qed.
Print Assumptions C78_lamps.

(** In effect and colour mode the right lamps do not follow the right buttons:
    pressing only the second right button leaves its lamp at rest, and pressing
    the second left button lights the second right lamp. *)
Theorem C78_right_lamps_refuted : forall switch, switch = 100 \/ switch = 1000 ->
  exists pl fl x y c c' sent sent', sane x /\ sane y /\ mode_switch x = switch /\ mode_switch y = switch /\
    (forall k, left_rose x k = false) /\ (forall k, right_rose x k = true <-> k = 1) /\
    session pl fl (mkOffsets 0 0 0) [x] = Ok (c, sent) /\ shows c RightLamps 2 64 /\
    (forall k, left_rose y k = true <-> k = 1) /\ (forall k, right_rose y k = false) /\
    session pl fl (mkOffsets 0 0 0) [y] = Ok (c', sent') /\ shows c' RightLamps 2 255.
Proof.
  intros switch H.
  pose (r := session Host fl_ref (mkOffsets 0 0 0) [press [] [1] [] switch]).
  pose (r' := session Host fl_ref (mkOffsets 0 0 0) [press [1] [] [] switch]).
  exists Host, fl_ref, (press [] [1] [] switch), (press [1] [] [] switch),
    (match r with Ok (c, _) => c | _ => ctrl_init end), (match r' with Ok (c, _) => c | _ => ctrl_init end),
    (match r with Ok (_, u) => u | _ => [] end), (match r' with Ok (_, u) => u | _ => [] end).
  split; [unfold sane, is_byte; cbn; lia|]. split; [unfold sane, is_byte; cbn; lia|]. split; [reflexivity|]. split; [reflexivity|].
  split; [reflexivity|]. split; [intros k; cbn [press right_rose existsb]; lia|].
  split; [destruct H as [->| ->]; vm_compute; reflexivity|].
  split; [destruct H as [->| ->]; eexists; split; vm_compute; reflexivity|].
  split; [intros k; cbn [press left_rose existsb]; lia|]. split; [reflexivity|].
  split; [destruct H as [->| ->]; vm_compute; reflexivity|].
  destruct H as [->| ->]; eexists; split; vm_compute; reflexivity.
Qed.
Print Assumptions C78_right_lamps_refuted.
Example C78_example : proper_lamp (left_rose (press [1; 2] [] [] 0)) 3 2 = 255 /\ proper_lamp (left_rose (press [1; 2] [] [] 0)) 3 3 = 64 /\
  proper_lamp (left_rose (press [1] [] [] 1000)) 2 3 = 0.
Proof. repeat split. Qed.

(** ** The controller with its radio, on the device *)
Definition good_world (w : world) : Prop :=
  0 <= w_now1 w < 4294967296 /\ 0 <= w_now2 w < 4294967296 /\ 0 <= w_now w < 4294967296 /\
  inc_ok (w_inc1 w) /\ inc_ok (w_inc2 w).

Definition no_api (out : list rtx) : Prop := forall p, ~ In (Own ByApi p) out.
Lemma no_api_app a b : no_api a -> no_api b -> no_api (a ++ b).
Proof. intros A B p I. apply in_app_or in I as [I|I]; [eapply A|eapply B]; eauto. Qed.
Lemma tick_no_api e now n inc out n' : tick e now n inc out n' -> no_api out.
Proof. intros T p I. destruct T; cbn in I; intuition congruence. Qed.
Lemma with_tick_run_good b n : good n -> good (with_tick_run b n).
Proof. intros []; constructor; auto. Qed.
Lemma radio_tick_device e now n inc : plat e = Arduino -> good n -> inc_ok inc -> 0 <= now < 4294967296 ->
  exists n' out, RadioTick e now inc n = Ok (tt, n', out) /\ good n' /\ no_api out.
Proof.
  intros A G I N. destruct (tick_total e now n inc G I) as [X|[[_ X]|[_ X]]].
  - destruct X as (n' & out & E & T). exists n', out. split; [exact E|]. split; [eapply tick_good; eauto|eapply tick_no_api; eauto].
  - destruct X as (p & _ & Hp & _). congruence.
  - destruct X as (_ & _ & _ & _ & X). exfalso. apply X. left; exact A.
Qed.
Lemma tick_device e now1 inc1 now2 inc2 n : plat e = Arduino -> good n ->
  inc_ok inc1 -> inc_ok inc2 -> 0 <= now1 < 4294967296 -> 0 <= now2 < 4294967296 ->
  exists n' out, Tick e now1 inc1 now2 inc2 n = Ok (tt, n', out) /\ good n' /\ no_api out.
Proof.
  intros A G I1 I2 N1 N2. unfold Tick.
  destruct (radio_tick_device e now1 n inc1 A G I1 N1) as (n1 & o1 & E1 & G1 & Q1).
  rewrite (mbind_ok _ _ _ _ _ _ E1).
  rewrite (mbind_ok (mget tick_run) _ n1 (tick_run n1) n1 []) by reflexivity.
  destruct (tick_run n1) eqn:TR.
  - destruct (radio_tick_device e now2 n1 inc2 A G1 I2 N2) as (n2 & o2 & E2 & G2 & Q2).
    rewrite (mbind_ok _ _ _ _ _ _ E2). cbn. eexists _, _. split; [reflexivity|].
    split; [apply with_tick_run_good; exact G2|]. rewrite app_nil_r. apply no_api_app; assumption.
  - cbn. eexists _, _. split; [reflexivity|]. split; [apply with_tick_run_good; exact G1|]. rewrite app_nil_r. exact Q1.
Qed.

(** What the radio transmits for the packets handed to SetEffect. *)
Inductive transmits : list packet -> list rtx -> Prop :=
| tr_nil : transmits [] []
| tr_cons p ps id out : 0 <= id < 65536 -> transmits ps out -> transmits (p :: ps) (Own ByApi (set_id p id) :: out).

Lemma set_effects_device e now calls : plat e = Arduino -> 0 <= now < 4294967296 -> Forall wf_packet calls -> forall n, good n ->
  exists n' out, set_effects e now calls n = Ok (tt, n', out) /\ good n' /\ transmits calls out.
Proof.
  intros A N W. induction W as [|p calls W1 W2 IH]; intros n G.
  - exists n, []. split; [reflexivity|]. split; [exact G|constructor].
  - cbn [set_effects].
    assert (E : SetEffect e now p n = Ok (tt, api_after e now n p, [Own ByApi (set_id p (fresh e n))])).
    { rewrite SetEffect_eq by assumption. unfold readableb. rewrite A. reflexivity. }
    rewrite (mbind_ok _ _ _ _ _ _ E).
    assert (G' : good (api_after e now n p)).
    { eapply (step_good e now n (OSetEffect p)); eauto. eapply step_inv; eauto. }
    destruct (IH _ G') as (n2 & o2 & -> & G2 & T2). eexists _, _. split; [reflexivity|]. split; [exact G2|].
    apply (tr_cons p calls (fresh e n) o2); [|exact T2]. unfold fresh. apply id_of_range.
Qed.

(** Many passes on the device. *)
Fixpoint loops (e : env) (fl : fastled) (o : offsets) (ws : list world) (c : ctrl) (n : node)
  : outcome (ctrl * node * list (list rtx)) :=
  match ws with
  | [] => Ok (c, n, [])
  | w :: rest =>
      '(c, n, out) <- loop e fl (built (builtin o)) announced_palettes w c n ;;
      '(c, n, more) <- loops e fl o rest c n ;;
      Ok (c, n, out :: more)
  end.

Definition same_presses (w : world) (x : inputs) : Prop :=
  left_rose x = w_left w /\ right_rose x = w_right w /\ bottom_rose x = w_bottom w /\ mode_switch x = w_switch w /\ sane x.

Lemma calls_wf pl fl o x c c' calls : fl_ok fl -> cinv c -> sane x ->
  run_mode pl fl (built (builtin o)) announced_palettes x c = Ok (c', calls) -> cinv c' /\ Forall wf_packet calls.
Proof.
  intros OK I S E. pose proof (entered_inv x c I) as I'. rewrite run_mode_eval in E.
  destruct (mode_cases x) as [M|[M|M]].
  - rewrite (mode_color x M) in E. destruct (RunColorMode_ok fl x _ I') as (c2 & E2 & J & _). rewrite E2 in E. injection E as <- <-.
    split; [exact J|]. destruct (direct_choice x); constructor; [apply J|constructor].
  - rewrite (mode_palette x M) in E. destruct (RunPaletteMode_ok pl fl OK x _ I' S) as (c2 & E2 & J & _). rewrite E2 in E. injection E as <- <-.
    split; [exact J|]. destruct (direct_choice x); constructor; [apply J|constructor].
  - rewrite (mode_effect x M) in E. destruct (RunEffectMode_ok pl fl OK o x _ I') as (c2 & E2 & J & _). rewrite E2 in E. injection E as <- <-.
    split; [exact J|]. destruct (requested x); constructor; [apply I'|constructor].
Qed.

Lemma loop_device e fl o w c n : plat e = Arduino -> fl_ok fl -> cinv c -> good n -> good_world w ->
  exists c' n' x calls out1 out2,
    loop e fl (built (builtin o)) announced_palettes w c n = Ok (c', n', out1 ++ out2) /\
    same_presses w x /\ run_mode Arduino fl (built (builtin o)) announced_palettes x c = Ok (c', calls) /\
    cinv c' /\ good n' /\ no_api out1 /\ transmits calls out2.
Proof.
  intros A OK I G (W1 & W2 & W3 & W4 & W5). unfold loop.
  destruct (tick_device e (w_now1 w) (w_inc1 w) (w_now2 w) (w_inc2 w) n A G W4 W5 W1 W2) as (n1 & o1 & -> & G1 & Q1). cbn [obind].
  set (x := mkIn _ _ _ _ _ _ _ _). rewrite A.
  assert (S : sane x) by (unfold sane, x; cbn [radio_effect]; unfold GetEffectIndex; apply u8_range).
  destruct (run_mode_ok Arduino fl OK o x c I S) as (c2 & calls & E2 & _). rewrite E2. cbn [obind].
  destruct (calls_wf Arduino fl o x c c2 calls OK I S E2) as [I2 WC].
  destruct (set_effects_device e (w_now w) calls A W3 WC n1 G1) as (n2 & o2 & -> & G2 & T2). cbn [obind].
  exists c2, n2, x, calls, o1, o2. split; [reflexivity|]. split; [repeat (split; [reflexivity|]); exact S|]. auto 10.
Qed.

Lemma loops_device e fl o : plat e = Arduino -> fl_ok fl -> forall ws c n, cinv c -> good n -> Forall good_world ws ->
  exists c' n' outs xs calls,
    loops e fl o ws c n = Ok (c', n', outs) /\ Forall2 same_presses ws xs /\
    passes Arduino fl (built (builtin o)) announced_palettes xs c = Ok (c', calls) /\
    Forall2 (fun ps out => exists a b, out = a ++ b /\ no_api a /\ transmits ps b) calls outs /\ cinv c' /\ good n' /\ length outs = length ws.
Proof.
  intros A OK. induction ws as [|w ws IH]; intros c n I G W.
  - exists c, n, [], [], []. split; [reflexivity|]. split; [constructor|]. split; [reflexivity|]. split; [constructor|]. auto.
  - inversion W as [|? ? W1 W2]; subst.
    destruct (loop_device e fl o w c n A OK I G W1) as (c1 & n1 & x & cl & o1 & o2 & E1 & P1 & R1 & I1 & G1 & Q1 & T1).
    destruct (IH c1 n1 I1 G1 W2) as (c2 & n2 & outs & xs & cls & E2 & P2 & R2 & F2 & I2 & G2 & L2).
    exists c2, n2, ((o1 ++ o2) :: outs), (x :: xs), (cl :: cls). cbn [loops passes]. rewrite E1. cbn [obind]. rewrite E2. cbn [obind].
    split; [reflexivity|]. split; [constructor; assumption|]. rewrite R1. cbn [obind]. rewrite R2. cbn [obind]. split; [reflexivity|].
    split; [constructor; [exists o1, o2; auto|exact F2]|]. cbn [length]. auto.
Qed.

(** The whole device program keeps running: whatever the buttons, the clock and the
    radio do, no pass ever fails. *)
Theorem C79_device_loop_never_fails : forall e fl o t0 n ws, plat e = Arduino -> fl_ok fl ->
  hist e t0 [] n -> Forall good_world ws ->
  exists c n' outs, loops e fl o ws ctrl_init n = Ok (c, n', outs) /\ length outs = length ws.
Proof.
  intros e fl o t0 n ws A OK H W.
  destruct (loops_device e fl o A OK ws ctrl_init n cinv_init (hist_good _ _ _ _ H) W) as (c & n' & outs & xs & cls & E & _ & _ & _ & _ & _ & L).
  eauto.
Qed.
Print Assumptions C79_device_loop_never_fails.

Lemma loops_app e fl o ws : forall vs c n,
  loops e fl o (ws ++ vs) c n =
  ('(c, n, u) <- loops e fl o ws c n ;; '(c, n, v) <- loops e fl o vs c n ;; Ok (c, n, u ++ v)).
Proof.
  induction ws as [|w ws IH]; intros vs c n; cbn [app loops].
  - cbn [obind]. destruct (loops e fl o vs c n) as [[[? ?] ?]| |]; reflexivity.
  - destruct (loop e fl (built (builtin o)) announced_palettes w c n) as [[[c1 n1] u1]| |]; cbn [obind]; try reflexivity. rewrite IH.
    destruct (loops e fl o ws c1 n1) as [[[c2 n2] u2]| |]; cbn [obind]; try reflexivity.
    destruct (loops e fl o vs c2 n2) as [[[c3 n3] u3]| |]; cbn [obind]; reflexivity.
Qed.
Lemma same_presses_requested w x : same_presses w x -> requested x = requested (presses w) /\
  effect_steps x = effect_steps (presses w) /\ palette_steps x = palette_steps (presses w) /\
  (in_effect_mode (presses w) -> in_effect_mode x) /\ sane x.
Proof.
  intros (E1 & E2 & E3 & E4 & S). unfold requested, effect_steps, palette_steps, effect_modeb, in_effect_mode, presses, requested.
  cbn [left_rose right_rose bottom_rose mode_switch]. rewrite E1, E2, E3, E4. auto.
Qed.
Lemma same_presses_totals ws xs : Forall2 same_presses ws xs ->
  total effect_steps xs = total effect_steps (map presses ws) /\ total palette_steps xs = total palette_steps (map presses ws) /\ Forall sane xs.
Proof.
  induction 1 as [|w x ws xs H _ (A & B & C)]; [repeat split; constructor|].
  destruct (same_presses_requested w x H) as (_ & E1 & E2 & _ & S).
  cbn [map total fold_right] in *. unfold total in A, B. rewrite E1, E2, A, B. auto.
Qed.
Lemma set_id_asks pl p id i k : 0 <= id < 65536 -> asks_for pl p i k -> asks_for pl (set_id p id) i k.
Proof. intros B (W & T). split; [apply set_id_wf; assumption|exact T]. Qed.

(** On the air: in the pass in which send is pressed (the previous pass being in
    effect mode too) the controller transmits, besides what the protocol sends
    by itself, exactly one packet, carrying the selection. *)
Theorem C65_on_the_air : forall e fl o t0 n ws v w, plat e = Arduino -> fl_ok fl -> hist e t0 [] n ->
  Forall good_world (ws ++ [v; w]) ->
  in_effect_mode (presses v) -> in_effect_mode (presses w) -> requested (presses w) = Send ->
  let effect_sel := total effect_steps (map presses (ws ++ [v])) mod 19 in
  let palette_sel := total palette_steps (map presses (ws ++ [v])) mod 22 in
  exists c n' outs own q, loops e fl o (ws ++ [v; w]) ctrl_init n = Ok (c, n', outs ++ [own ++ [Own ByApi q]]) /\
    no_api own /\
    asks_for Arduino q (network_number effect_sel) palette_sel /\ hold_seconds q = 60.
Proof.
  intros e fl o t0 n ws v w A OK H W MV MW Q es ps.
  apply Forall_app in W as [W0 W]. inversion W as [|? ? WV W']; subst. inversion W' as [|? ? WW _]; subst.
  destruct (loops_device e fl o A OK ws ctrl_init n cinv_init (hist_good _ _ _ _ H) W0)
    as (c1 & n1 & outs & xs & cls & E1 & P1 & R1 & F1 & I1 & G1 & L1).
  destruct (loop_device e fl o v c1 n1 A OK I1 G1 WV) as (c2 & n2 & y & cl2 & a2 & b2 & E2 & P2 & R2 & I2 & G2 & Q2 & T2).
  destruct (loop_device e fl o w c2 n2 A OK I2 G2 WW) as (c3 & n3 & x & cl3 & a3 & b3 & E3 & P3 & R3 & I3 & G3 & Q3 & T3).
  destruct (same_presses_totals _ _ P1) as (U1 & V1 & S1).
  destruct (same_presses_requested _ _ P2) as (_ & U2 & V2 & M2 & S2). specialize (M2 MV).
  destruct (same_presses_requested _ _ P3) as (N3 & _ & _ & M3 & S3). specialize (M3 MW). rewrite Q in N3.
  destruct (C65_send_what_was_selected Arduino fl o xs y x OK) as (c & sent & p & SE & SL & AF & HS & _); auto.
  { apply Forall_app. split; [exact S1|]. constructor; [exact S2|]; constructor; [exact S3|constructor]. }
  rewrite passes_app, R1 in SE. cbn [obind passes] in SE. rewrite R2 in SE. cbn [obind] in SE. rewrite R3 in SE. cbn [obind] in SE.
  injection SE as <- SE.
  replace (cls ++ [cl2; cl3]) with ((cls ++ [cl2]) ++ [cl3]) in SE by (rewrite <- app_assoc; reflexivity).
  apply app_inj_tail in SE as [_ ->].
  inversion T3 as [|? ? id out B T4]; subst. inversion T4; subst.
  exists c3, n3, (outs ++ [a2 ++ b2]), a3, (set_id p id).
  split.
  { rewrite loops_app, E1. cbn [obind loops]. rewrite E2. cbn [obind]. rewrite E3. cbn [obind]. rewrite <- app_assoc. reflexivity. }
  split; [exact Q3|].
  assert (TE : total effect_steps (xs ++ [y]) = total effect_steps (map presses (ws ++ [v]))).
  { rewrite map_app, !total_app, U1. f_equal. unfold total. cbn [map fold_right]. rewrite U2. reflexivity. }
  assert (TP : total palette_steps (xs ++ [y]) = total palette_steps (map presses (ws ++ [v]))).
  { rewrite map_app, !total_app, V1. f_equal. unfold total. cbn [map fold_right]. rewrite V2. reflexivity. }
  rewrite TE, TP in AF. split; [apply set_id_asks; assumption|exact HS].
Qed.
Print Assumptions C65_on_the_air.

Definition demo_world (l r b : list Z) (switch now : Z) : world :=
  mkWorld (fun k => existsb (Z.eqb k) l) (fun k => existsb (Z.eqb k) r) (fun k => existsb (Z.eqb k) b) switch false
    now None now None now (fun _ => now).
Example C65_on_the_air_example :
  let ws := [demo_world [] [0] [] 900 1000; demo_world [1] [] [] 900 1010] in
  let v := demo_world [] [] [] 900 1020 in let w := demo_world [] [] [0] 900 1030 in
  Forall good_world (ws ++ [v; w]) /\ in_effect_mode (presses v) /\ in_effect_mode (presses w) /\ requested (presses w) = Send /\
  (exists n, hist (env0 Arduino) 0 [] n) /\
  total effect_steps (map presses (ws ++ [v])) mod 19 = 1 /\ total palette_steps (map presses (ws ++ [v])) mod 22 = 21.
Proof.
  cbv zeta. split; [repeat constructor; unfold good_world; cbn; lia|].
  unfold in_effect_mode. split; [cbn; lia|]. split; [cbn; lia|]. split; [reflexivity|]. split.
  - eexists. eapply (hist_start _ _ 0 0 zero58 zero58); [lia|vm_compute; repeat constructor; discriminate..|reflexivity].
  - split; reflexivity.
Qed.
