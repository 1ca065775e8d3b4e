(** C126: the program of the controller. *)
From Coq Require Import ZArith QArith Lia List Bool SpecFloat.
From Coq Require Import ZifyBool.
From Verif Require Import CInt CIntFacts Packet NetMgr Fastled Palette Device LedMgr LedFacts RenderFacts Effects Show ShowFacts Rsm
SpecLed Controller SpecController ControllerFacts SpecRsm RsmHist RsmStep RsmFacts RsmRun PropShow PropController Battery SpecBattery PropRender PropBattery PropFancy CtrlProgram.
Import ListNotations.
Open Scope Z_scope.
Ltac Zify.zify_post_hook ::= Z.div_mod_to_equations.

(** All 42 LEDs dark but the left status light (LED 7). *)
Definition lone_light (c : rgb) : list rgb := repeat black 7 ++ c :: repeat black 34.

Lemma announce_good n v w : good n ->
  exists n', (' (_, n, _) <- SetNumEffects v n ;; ' (_, n, _) <- SetNumPalettes w n ;; Ok n) = Ok n' /\ good n'.
Proof.
  intros G. unfold SetNumEffects, SetNumPalettes, mupd. cbn [obind]. eexists. split; [reflexivity|].
  pose proof (u8_range v). pose proof (u8_range w). unfold is_byte in *.
  destruct G. constructor; try assumption; cbn; lia.
Qed.

Lemma show_charge_eval fl held :
  exists h, (forall r, held = Some r -> battery_hue r = Ok h) /\
  show_charge fl held (repeat black 42) =
  Ok (match held with None => (repeat black 42, [])
      | Some _ => (lone_light (fl_hsv2rgb fl (mkHSV h 255 255)),
                   [lone_light (fl_hsv2rgb fl (mkHSV 0 0 32)); lone_light (fl_hsv2rgb fl (mkHSV h 255 255))]) end).
Proof.
  destruct held as [r|].
  - destruct (hue_ok r) as [h H]. exists h. split; [intros ? [= <-]; exact H|].
    unfold show_charge. rewrite H. cbn [obind]. reflexivity.
  - exists 0. split; [discriminate|reflexivity].
Qed.

Lemma ctrl_setup_eval e fl held o n : plat e = Arduino -> good n ->
  exists h n', (forall r, held = Some r -> battery_hue r = Ok h) /\ good n' /\
  ctrl_setup e fl held o n =
  Ok (built (builtin o), n',
      with_leds ctrl_init (match held with None => repeat black 42 | Some _ => lone_light (fl_hsv2rgb fl (mkHSV h 255 255)) end),
      repeat black 42 :: match held with None => [] | Some _ =>
        [lone_light (fl_hsv2rgb fl (mkHSV 0 0 32)); lone_light (fl_hsv2rgb fl (mkHSV h 255 255))] end).
Proof.
  intros A G. destruct (show_charge_eval fl held) as (h & H & S).
  unfold ctrl_setup. rewrite LedManager_eval. cbn [obind].
  destruct (announce_good n (announced_effects (built (builtin o))) announced_palettes G) as (n' & E & G').
  unfold SetNumEffects, SetNumPalettes, mupd in *. cbn [obind] in *. injection E as E.
  change (map (fun _ : rgb => black) (cleds ctrl_init)) with (repeat black 42). rewrite S. cbn [obind].
  exists h, n'. split; [exact H|]. split; [exact G'|]. rewrite <- E. destruct held; reflexivity.
Qed.

Lemma lone_cinv c : cinv (with_leds ctrl_init (lone_light c)).
Proof. destruct cinv_init. constructor; try assumption; try reflexivity. Qed.
Lemma dark_cinv : cinv (with_leds ctrl_init (repeat black 42)).
Proof. destruct cinv_init. constructor; try assumption; try reflexivity. Qed.

Lemma ctrl_passes_ok e fl o : plat e = Arduino -> fl_ok fl -> forall ws low c n, cinv c -> good n ->
  Forall (fun p => good_world (snd p)) ws ->
  exists low' c' n' log, ctrl_passes e fl (built (builtin o)) ws low c n = Ok (low', c', n', log) /\
    length log = length ws /\ cinv c' /\ good n'.
Proof.
  intros A OK. induction ws as [|[x w] ws IH]; intros low c n I G W.
  - exists low, c, n, []. auto.
  - inversion W as [|? ? W1 W2]; subst. cbn [snd] in W1. cbn [ctrl_passes].
    rewrite ctrl_pass by assumption. cbv zeta.
    set (c1 := if entered (judge 784 888 low x) then with_leds c ctrl_off_picture else c).
    assert (I1 : cinv c1) by (subst c1; destruct (entered _); [apply off_cinv|]; assumption).
    destruct (goes_on (judge 784 888 low x)).
    + destruct (loop_device e fl o w c1 n A OK I1 G W1) as (c2 & n2 & y & cl & o1 & o2 & -> & _ & _ & I2 & G2 & _). cbn [obind].
      destruct (IH (now_low (judge 784 888 low x)) c2 n2 I2 G2 W2) as (l3 & c3 & n3 & log & -> & L & R). cbn [obind].
      eexists _, _, _, _. split; [reflexivity|]. cbn [length]. split; [congruence|exact R].
    + cbn [obind]. destruct (IH (now_low (judge 784 888 low x)) c1 n I1 G W2) as (l3 & c3 & n3 & log & -> & L & R). cbn [obind].
      eexists _, _, _, _. split; [reflexivity|]. cbn [length]. split; [congruence|exact R].
Qed.

(** The controller's program never stops: whatever is pressed, whatever the
    battery does and whatever well-formed packets the radio delivers, from
    power-on through any number of passes. *)
Theorem C126_controller_never_stops : forall e fl held o t0 n ws, plat e = Arduino -> fl_ok fl ->
  hist e t0 [] n -> Forall (fun p => good_world (snd p)) ws ->
  exists pics log, ctrl_program e fl held o ws n = Ok (pics, log) /\ length log = length ws.
Proof.
  intros e fl held o t0 n ws A OK H W.
  destruct (ctrl_setup_eval e fl held o n A (hist_good _ _ _ _ H)) as (h & n' & _ & G & E).
  unfold ctrl_program. rewrite E. cbn [obind].
  destruct (ctrl_passes_ok e fl o A OK ws false (with_leds ctrl_init (match held with None => repeat black 42 | Some _ => lone_light (fl_hsv2rgb fl (mkHSV h 255 255)) end)) n') as (l & c & n2 & log & E2 & L & _);
    [destruct held; [apply lone_cinv|apply dark_cinv]|exact G|exact W|].
  rewrite E2. cbn [obind]. eauto.
Qed.
Print Assumptions C126_controller_never_stops.

(** What it shows before the first pass: darkness; and if the button is held, the
    left status light grey while the battery is measured and then in the colour of
    the charge (C81 says which), everything else dark. *)
Theorem C126_start_up_pictures : forall e fl held o t0 n ws pics log, plat e = Arduino ->
  hist e t0 [] n -> ctrl_program e fl held o ws n = Ok (pics, log) ->
  match held with
  | None => pics = [repeat (mkRGB 0 0 0) 42]
  | Some r => exists h, battery_hue r = Ok h /\
      pics = [repeat (mkRGB 0 0 0) 42; lone_light (fl_hsv2rgb fl (mkHSV 0 0 32)); lone_light (fl_hsv2rgb fl (mkHSV h 255 255))]
  end.
Proof.
  intros e fl held o t0 n ws pics log A H E.
  destruct (ctrl_setup_eval e fl held o n A (hist_good _ _ _ _ H)) as (h & n' & Hh & G & S).
  unfold ctrl_program in E. rewrite S in E. cbn [obind] in E.
  destruct (ctrl_passes _ _ _ _ _ _ _) as [[[[? ?] ?] ?]| |]; cbn [obind] in E; try discriminate.
  injection E as <- _. destruct held as [r|]; [|reflexivity]. exists h. split; [apply Hh; reflexivity|reflexivity].
Qed.
Print Assumptions C126_start_up_pictures.

(** The charge does not linger: in the very first pass the status light is
    replaced - by the role in effect mode, by darkness in a direct mode, by dim
    red when the battery is already exhausted. *)
Theorem C126_charge_does_not_linger : forall e fl held o t0 n x w ws pics log, plat e = Arduino -> fl_ok fl ->
  hist e t0 [] n -> Forall (fun p => good_world (snd p)) ((x, w) :: ws) ->
  ctrl_program e fl held o ((x, w) :: ws) n = Ok (pics, log) ->
  exists out pic rest, log = (out, [pic]) :: rest /\
    (expired x = true /\ filtered x < 784 -> pic = lone_light (mkRGB 8 0 0) /\ out = []) /\
    (~ (expired x = true /\ filtered x < 784) ->
       (512 <= w_switch w -> exists role, aget pic 7 = Ok role /\ (role = mkRGB 255 0 0 \/ role = mkRGB 0 255 0)) /\
       (w_switch w < 512 -> aget pic 7 = Ok (mkRGB 0 0 0))).
Proof.
  intros e fl held o t0 n x w ws pics log A OK H W E.
  destruct (ctrl_setup_eval e fl held o n A (hist_good _ _ _ _ H)) as (h & n' & _ & G & S).
  unfold ctrl_program in E. rewrite S in E. cbn [obind] in E. clear S.
  set (c := with_leds ctrl_init _) in *.
  assert (I : cinv c) by (subst c; destruct held; [apply lone_cinv|apply dark_cinv]).
  assert (PM : prev_mode c = ModeEffect) by reflexivity.
  inversion W as [|? ? W1 W2]; subst. cbn [snd] in W1.
  cbn [ctrl_passes] in E. rewrite ctrl_pass in E by assumption. cbv zeta in E.
  assert (J : entered (judge 784 888 false x) = (expired x && (filtered x <? 784)) /\
              goes_on (judge 784 888 false x) = negb (expired x && (filtered x <? 784))).
  { unfold judge. destruct (expired x); cbn [entered goes_on negb andb orb]; [|auto].
    destruct (Z.ltb_spec (filtered x) 784); cbn [andb negb]; [|auto].
    replace (888 <? filtered x) with false by lia. auto. }
  destruct J as [J1 J2]. rewrite J1, J2 in E. clear J1 J2.
  destruct (expired x && (filtered x <? 784)) eqn:LOW; cbn [negb] in E.
  - cbn [obind] in E. destruct (ctrl_passes _ _ _ _ _ _ _) as [[[[? ?] ?] rest]| |]; cbn [obind] in E; try discriminate.
    injection E as _ <-. exists [], ctrl_off_picture, rest. split; [reflexivity|]. split; [intros _; split; reflexivity|].
    intros N. exfalso. apply N. apply andb_true_iff in LOW as [L1 L2]. split; [exact L1|lia].
  - destruct (loop_device e fl o w c n' A OK I G W1) as (c2 & n2 & y & cl & o1 & o2 & L2 & Y & RM & _).
    rewrite L2 in E. cbn [obind] in E.
    destruct (ctrl_passes _ _ _ _ _ _ _) as [[[[? ?] ?] rest]| |]; cbn [obind] in E; try discriminate.
    injection E as _ <-. cbn [app]. exists (o1 ++ o2), (cleds c2), rest. split; [reflexivity|]. split.
    { intros [L1 L3]. rewrite L1 in LOW. cbn [andb] in LOW. lia. }
    intros _. rewrite run_mode_eval in RM. pose proof (entered_inv y c I) as I'.
    assert (MS : mode_switch y = w_switch w) by apply Y.
    split; intros SW.
    + rewrite (mode_effect y) in RM by (unfold in_effect_mode; lia).
      destruct (RunEffectMode_ok Arduino fl OK o y _ I') as (c3 & E3 & _ & _ & _ & _ & _ & _ & _ & _ & K & _).
      rewrite E3 in RM. injection RM as <- _. rewrite K. eexists. split; [reflexivity|]. destruct (is_slave y); auto.
    + assert (LE : cleds (ControllerFacts.entered y c) = repeat black 42).
      { unfold ControllerFacts.entered. cbn [cleds]. rewrite MS, PM. unfold mode_of. change kMode1Threshold with 173. change kMode2Threshold with 512.
        destruct (Z.ltb_spec (w_switch w) 173); [subst c; destruct held; reflexivity|]. destruct (Z.ltb_spec (w_switch w) 512); [subst c; destruct held; reflexivity|lia]. }
      change 7 with kStatusLeft.
      destruct (mode_cases y) as [M|[M|M]]; [| |unfold in_effect_mode in M; lia].
      * rewrite (mode_color y M) in RM.
        destruct (RunColorMode_ok fl y _ I') as (c3 & E3 & _ & _ & _ & _ & _ & _ & _ & _ & _ & _ & K).
        rewrite E3 in RM. injection RM as <- _. rewrite K by (unfold kStatusLeft; lia). rewrite LE. reflexivity.
      * rewrite (mode_palette y M) in RM.
        destruct (RunPaletteMode_ok Arduino fl OK y _ I') as (c3 & E3 & _ & _ & _ & _ & _ & _ & _ & _ & _ & _ & K); [apply Y|].
        rewrite E3 in RM. injection RM as <- _. rewrite K by (unfold kStatusLeft; lia). rewrite LE. reflexivity.
Qed.
Print Assumptions C126_charge_does_not_linger.

(** Held at start-up with a half-full battery, colour mode, then effect mode. *)
Example C126_example :
  let ws := [(mkReading false 0, demo_world [] [] [] 100 5000); (flat 900, demo_world [] [] [] 1000 5010)] in
  Forall (fun p => good_world (snd p)) ws /\
  match (n <- construct (env0 Arduino) 0 0 0 zero58 zero58 ;;
         ctrl_program (env0 Arduino) fl_ref (Some 911) (mkOffsets 0 0 0) ws n) with
  | Ok (pics, [(_, [p1]); (_, [p2])]) =>
      length pics = 3%nat /\ aget (nth 2 pics []) 7 = Ok (fl_hsv2rgb fl_ref (mkHSV 48 255 255)) /\
      aget p1 7 = Ok (mkRGB 0 0 0) /\ aget p2 7 = Ok (mkRGB 0 255 0)
  | _ => False
  end.
Proof.
  cbv zeta. split; [repeat constructor; unfold good_world; cbn; lia|]. vm_compute. repeat split; reflexivity.
Qed.
