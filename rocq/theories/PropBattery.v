(** C67, C81, C82: the battery. *)
From Coq Require Import ZArith QArith Lia List Bool SpecFloat.
From Coq Require Import ZifyBool.
From Verif Require Import CInt CIntFacts Packet NetMgr Fastled Palette Device LedMgr LedFacts RenderFacts Effects Show Rsm
SpecLed Controller SpecController ControllerFacts SpecRsm RsmHist RsmStep RsmFacts RsmRun PropController Battery SpecBattery PropRender.
Import ListNotations.
Open Scope Z_scope.
Ltac Zify.zify_post_hook ::= Z.div_mod_to_equations.

Lemma fancy_cut : BatteryVoltageToRawReading (kBatteryLowCutoff fancy_cutoffs) = Ok 830.
Proof. vm_compute. reflexivity. Qed.
Lemma fancy_resume : BatteryVoltageToRawReading (kBatteryResume fancy_cutoffs) = Ok 888.
Proof. vm_compute. reflexivity. Qed.
Lemma ctrl_cut : BatteryVoltageToRawReading (kBatteryLowCutoff controller_cutoffs) = Ok 784.
Proof. vm_compute. reflexivity. Qed.
Lemma ctrl_resume : BatteryVoltageToRawReading (kBatteryResume controller_cutoffs) = Ok 888.
Proof. vm_compute. reflexivity. Qed.
Lemma empty_raw : BatteryVoltageToRawReading kBatteryEmpty = Ok 853.
Proof. vm_compute. reflexivity. Qed.
Lemma full_raw : BatteryVoltageToRawReading kBatteryFull = Ok 969.
Proof. vm_compute. reflexivity. Qed.

(** The decision, with the thresholds evaluated. *)
Definition judge (cut resume : Z) (low : bool) (x : reading) : decision :=
  if expired x then
    let enters := negb low && (filtered x <? cut) in
    let off := (low || enters) && negb (resume <? filtered x) in
    mkDecision off enters (negb off)
  else mkDecision low false true.

Lemma supervise_judge k cut resume low x :
  BatteryVoltageToRawReading (kBatteryLowCutoff k) = Ok cut -> BatteryVoltageToRawReading (kBatteryResume k) = Ok resume ->
  supervise k low x = Ok (judge cut resume low x).
Proof.
  intros C R. unfold supervise, judge. destruct (expired x); [|reflexivity]. rewrite C. cbn [obind].
  destruct (low || negb low && (filtered x <? cut)) eqn:E.
  - rewrite R. cbn [obind andb]. destruct (resume <? filtered x); reflexivity.
  - reflexivity.
Qed.

Lemma off_snoc cut resume xs x : cut <= resume ->
  (off_after cut resume (xs ++ [x]) <->
   if expired x then filtered x < cut \/ off_after cut resume xs /\ filtered x <= resume else off_after cut resume xs).
Proof.
  intros CR. split.
  - intros (b & y & a & E & X & L & A). destruct a as [|z a _] using rev_ind.
    + apply app_inj_tail in E as [-> ->]. rewrite X. left. exact L.
    + rewrite app_comm_cons, app_assoc in E. apply app_inj_tail in E as [-> ->].
      assert (O : off_after cut resume (b ++ y :: a)).
      { exists b, y, a. repeat split; auto. intros w W. apply A. apply in_or_app. auto. }
      destruct (expired z) eqn:Z0; [|exact O]. right. split; [exact O|]. apply A; [|exact Z0].
      apply in_or_app. right. left. reflexivity.
  - intros H. assert (K : (exists b y a, xs = b ++ y :: a /\ expired y = true /\ filtered y < cut /\
      (forall w, In w a -> expired w = true -> filtered w <= resume) /\ (expired x = true -> filtered x <= resume)) \/
      (expired x = true /\ filtered x < cut)).
    { destruct (expired x) eqn:X.
      - destruct H as [H|[(b & y & a & E & Y & L & A) F]]; [right; auto|]. left. exists b, y, a. repeat split; auto.
      - destruct H as (b & y & a & E & Y & L & A). left. exists b, y, a. repeat split; auto. discriminate. }
    destruct K as [(b & y & a & -> & Y & L & A & F)|[X L]].
    + exists b, y, (a ++ [x]). rewrite <- app_assoc. repeat split; auto.
      intros w W V. apply in_app_or in W as [W|[<-|[]]]; auto.
    + exists xs, x, []. repeat split; auto. intros ? [].
Qed.

Lemma judge_off cut resume xs x low : cut <= resume -> (low = true <-> off_after cut resume xs) ->
  (now_low (judge cut resume low x) = true <-> off_after cut resume (xs ++ [x])).
Proof.
  intros CR L. rewrite off_snoc by assumption. unfold judge. destruct (expired x); cbn [now_low]; [|exact L].
  rewrite <- L. destruct low; cbn [orb andb negb].
  - split; [intros H; right|intros [H|[_ H]]]; [split; [reflexivity|]| |]; lia.
  - split; [intros H; left; lia|intros [H|[H _]]]; [lia|discriminate].
Qed.

Lemma expired_last xs x : stays_expired (xs ++ [x]) -> forall cut resume, off_after cut resume xs -> expired x = true.
Proof.
  intros S cut resume (b & y & a & -> & Y & _). apply (S b y a x []); auto. rewrite <- app_assoc. reflexivity.
Qed.
Lemma stays_prefix xs ys : stays_expired (xs ++ ys) -> stays_expired xs.
Proof. intros S a x b y c E. apply (S a x b y (c ++ ys)). rewrite E, <- !app_assoc. cbn [app]. rewrite <- app_assoc. reflexivity. Qed.
Lemma off_nil cut resume : ~ off_after cut resume [].
Proof. intros ([|? ?] & x & a & E & _); discriminate. Qed.

(** ** The fancy node *)
Section Fancy.
Variables (e : env) (fl : fastled) (t : table effect) (d : device) (battery_at_boot : Z).

(** A node that was started with a dark buffer of [k] LEDs (one for the board)
    and made the passes [ws]. *)
Inductive fancy_hist (k : nat) (n0 : node) : list fworld -> fancy -> node -> Prop :=
| FStart : fancy_hist k n0 [] (mkFancy false (repeat black k)) n0
| FPass ws f n w f' n' out pics :
    fancy_hist k n0 ws f n ->
    fancy_loop e fl t d battery_at_boot w f n = Ok (f', n', out, pics) ->
    fancy_hist k n0 (ws ++ [w]) f' n'.

Definition readings (ws : list fworld) : list reading := map fw_battery ws.

Lemma aset_len {A} (l : list A) i v l' : aset l i v = Ok l' -> length l' = length l.
Proof.
  intros H. unfold aset in H. destruct (i <? 0); [discriminate|]. destruct (_ <? _)%nat; [|discriminate]. injection H as <-.
  generalize (Z.to_nat i) as j. induction l as [|x l IH]; intros [|j]; cbn [list_set length]; auto.
Qed.

Lemma RunEffect_length pl m pixel clock : forall buf buf', RunEffect pl m d pixel clock buf = Ok buf' -> length buf' = length buf.
Proof.
  assert (SET : forall k c b b', SetLed pl m d k c b = Ok b' -> length b' = length b).
  { intros k c b b' H. unfold SetLed in H. destruct m.
    - destruct ((GetLedCount d =? 1) && (k =? 0)).
      + destruct (aset b 0 c) as [b1| |] eqn:A1; cbn [obind] in H; try discriminate.
        apply aset_len in H, A1. congruence.
      + cbn [obind] in H. eapply aset_len; eauto.
    - destruct (oassert _ _); cbn [obind] in H; try discriminate. eapply aset_len; eauto. }
  assert (ST : forall todo s i k b r, strip_loop pl m d pixel clock todo s i k b = Ok r -> length (snd r) = length b).
  { induction todo as [|q IH]; intros s i k b r; cbn [strip_loop]; [intros E; injection E as <-; reflexivity|].
    intros E. destruct (led_colour _ _ _ _); cbn [obind] in E; try discriminate.
    destruct (SetLed _ _ _ _ _ _) eqn:S1; cbn [obind] in E; try discriminate. apply IH in E. apply SET in S1. congruence. }
  unfold RunEffect. generalize 0 as k. induction (strips d) as [|s ss IH]; intros k b b' E; cbn [strips_loop] in E; [congruence|].
  destruct (strip_loop _ _ _ _ _ _ _ _ _ _) as [[k' b1]| |] eqn:S1; cbn [obind] in E; try discriminate.
  apply ST in S1. apply IH in E. cbn [snd] in S1. congruence.
Qed.

Lemma LowBatteryMode_picture leds : (2 <= length leds)%nat -> LowBatteryMode leds = Ok (off_picture (length leds)).
Proof.
  destruct leds as [|a [|b l]]; cbn [length]; intros; try lia. unfold LowBatteryMode, off_picture.
  assert (R : map (fun _ : rgb => black) l = repeat (mkRGB 0 0 0) (S (S (length l)) - 2)).
  { cbn [Nat.sub]. rewrite Nat.sub_0_r. induction l; cbn; f_equal; auto. apply IHl. cbn in *; lia. }
  cbn [map]. rewrite R. reflexivity.
Qed.

(** One pass, seen from outside. *)
Lemma fancy_pass w f n : (2 <= length (f_leds f))%nat ->
  fancy_loop e fl t d battery_at_boot w f n =
  let dec := judge 830 888 (f_low f) (fw_battery w) in
  let leds := if entered dec then off_picture (length (f_leds f)) else f_leds f in
  let pics := if entered dec then [leds] else [] in
  if goes_on dec then
    leds <- onboard fl battery_at_boot (fw_millis w) leds ;;
    '(_, n, out) <- Tick e (fw_now1 w) (fw_inc1 w) (fw_now2 w) (fw_inc2 w) n ;;
    leds <- RunEffect (plat e) FastLed d (current_pixel (plat e) fl t (GetSetEffect n))
              (fun k => GetNetworkMillis (fw_clock w k) n) leds ;;
    Ok (mkFancy (now_low dec) leds, n, out, pics ++ [leds])
  else Ok (mkFancy (now_low dec) leds, n, [], pics).
Proof.
  intros L. unfold fancy_loop. rewrite (supervise_judge _ 830 888 _ _ fancy_cut fancy_resume). cbn [obind].
  cbv zeta. destruct (entered (judge 830 888 (f_low f) (fw_battery w))); [rewrite LowBatteryMode_picture by assumption|]; reflexivity.
Qed.

Lemma fancy_len w f n f' n' out pics : (2 <= length (f_leds f))%nat ->
  fancy_loop e fl t d battery_at_boot w f n = Ok (f', n', out, pics) -> length (f_leds f') = length (f_leds f).
Proof.
  intros L H. rewrite fancy_pass in H by assumption. cbv zeta in H.
  set (dec := judge 830 888 (f_low f) (fw_battery w)) in *.
  set (leds := if entered dec then off_picture (length (f_leds f)) else f_leds f) in *.
  assert (LL : length leds = length (f_leds f)).
  { subst leds. destruct (entered dec); [|reflexivity]. cbn [off_picture length]. rewrite repeat_length. lia. }
  destruct (goes_on dec).
  - destruct (onboard _ _ _ _) as [l1| |] eqn:O; cbn [obind] in H; try discriminate.
    destruct (Tick _ _ _ _ _ _) as [[[u n1] o1]| |]; cbn [obind] in H; try discriminate.
    destruct (RunEffect _ _ _ _ _ _) as [l2| |] eqn:R; cbn [obind] in H; try discriminate.
    injection H as <- <- <- <-. cbn [f_leds]. apply RunEffect_length in R. rewrite R, <- LL.
    unfold onboard in O. destruct (_ && _); [|eapply aset_len; eassumption].
    destruct (battery_hue _); cbn [obind] in O; try discriminate. eapply aset_len; eassumption.
  - injection H as <- <- <- <-. cbn [f_leds]. exact LL.
Qed.

(** After the passes [ws] the flag says what the specification says, and the
    picture of a switched-off node has not been touched. *)
Lemma fancy_inv k n0 ws f n : (2 <= k)%nat -> fancy_hist k n0 ws f n -> stays_expired (readings ws) ->
  length (f_leds f) = k /\ (f_low f = true <-> off_after 830 888 (readings ws)) /\
  (f_low f = true -> f_leds f = off_picture k).
Proof.
  intros K H. induction H as [|ws f n w f' n' out pics H IH E]; intros S.
  - cbn [f_leds f_low readings map]. rewrite repeat_length. repeat split; try discriminate.
    intros O. destruct (off_nil _ _ O).
  - unfold readings in *. rewrite map_app in *. cbn [map] in *.
    destruct (IH (stays_prefix _ _ S)) as (L & O & P).
    assert (L2 : (2 <= length (f_leds f))%nat) by lia.
    pose proof (fancy_len _ _ _ _ _ _ _ L2 E) as L'. split; [congruence|].
    assert (NL : f_low f' = now_low (judge 830 888 (f_low f) (fw_battery w))).
    { rewrite fancy_pass in E by assumption. cbv zeta in E.
      destruct (goes_on _).
      - destruct (onboard _ _ _ _); cbn [obind] in E; try discriminate.
        destruct (Tick _ _ _ _ _ _) as [[[u n1] o1]| |]; cbn [obind] in E; try discriminate.
        destruct (RunEffect _ _ _ _ _ _); cbn [obind] in E; try discriminate. injection E as <- _ _ _. reflexivity.
      - injection E as <- _ _ _. reflexivity. }
    rewrite NL. split; [apply judge_off; [lia|exact O]|]. intros LOW.
    rewrite fancy_pass in E by assumption. cbv zeta in E. unfold judge in E, LOW.
    assert (XP : f_low f = true -> expired (fw_battery w) = true).
    { intros FL. apply O in FL. eapply expired_last; eauto. }
    destruct (expired (fw_battery w)) eqn:X; cbn [now_low entered goes_on] in *.
    + destruct ((f_low f || negb (f_low f) && (filtered (fw_battery w) <? 830)) && negb (888 <? filtered (fw_battery w))) eqn:OFF; [|discriminate].
      cbn [negb] in E. injection E as <- _ _ _. cbn [f_leds]. rewrite L.
      destruct (f_low f); cbn [negb andb orb] in *; [apply P; reflexivity|].
      destruct (filtered (fw_battery w) <? 830); [reflexivity|discriminate].
    + specialize (XP LOW). discriminate.
Qed.

(** ** C67 *)
(** While the battery is exhausted a pass does nothing: the radio is not served,
    nothing is sent, no effect is drawn; the LEDs show the off picture, which is
    sent out in the pass that switches off. *)
Theorem C67_off : forall k n0 ws f n w, (2 <= k)%nat ->
  fancy_hist k n0 ws f n -> stays_expired (readings (ws ++ [w])) ->
  off_after 830 888 (readings (ws ++ [w])) ->
  exists pics, fancy_loop e fl t d battery_at_boot w f n = Ok (mkFancy true (off_picture k), n, [], pics) /\
    (off_after 830 888 (readings ws) -> pics = []) /\
    (~ off_after 830 888 (readings ws) -> pics = [off_picture k]).
Proof.
  intros k n0 ws f n w K H S OFF. unfold readings in S, OFF. rewrite map_app in S, OFF. cbn [map] in S, OFF.
  destruct (fancy_inv k n0 ws f n K H (stays_prefix _ _ S)) as (L & O & P). fold (readings ws) in *.
  rewrite fancy_pass by lia. cbv zeta. pose proof (proj2 (judge_off 830 888 _ (fw_battery w) (f_low f) ltac:(lia) O) OFF) as NL.
  assert (XP : expired (fw_battery w) = true).
  { destruct (f_low f) eqn:FL; [apply (expired_last _ _ S 830 888); apply O; reflexivity|].
    unfold judge in NL. destruct (expired (fw_battery w)); [reflexivity|discriminate]. }
  unfold judge in *. rewrite XP in *. cbn [now_low entered goes_on] in *. rewrite NL. cbn [negb]. rewrite L.
  destruct (f_low f) eqn:FL; cbn [negb andb orb] in *.
  - rewrite P by reflexivity. exists []. split; [reflexivity|]. split; [reflexivity|]. intros N. destruct N. apply O. reflexivity.
  - destruct (filtered (fw_battery w) <? 830); [|discriminate]. exists [off_picture k]. split; [reflexivity|].
    split; [|reflexivity]. intros N. apply O in N. discriminate.
Qed.

(** Otherwise the pass is an ordinary one: it serves the radio, draws the current
    effect on every strip and shows exactly one picture. *)
Theorem C67_on : forall k n0 ws f n w f' n' out pics, (2 <= k)%nat ->
  fancy_hist k n0 ws f n -> stays_expired (readings (ws ++ [w])) ->
  ~ off_after 830 888 (readings (ws ++ [w])) ->
  fancy_loop e fl t d battery_at_boot w f n = Ok (f', n', out, pics) ->
  f_low f' = false /\ pics = [f_leds f'] /\
  Tick e (fw_now1 w) (fw_inc1 w) (fw_now2 w) (fw_inc2 w) n = Ok (tt, n', out) /\
  exists leds, onboard fl battery_at_boot (fw_millis w) (f_leds f) = Ok leds /\
    RunEffect (plat e) FastLed d (current_pixel (plat e) fl t (GetSetEffect n'))
      (fun k => GetNetworkMillis (fw_clock w k) n') leds = Ok (f_leds f').
Proof.
  intros k n0 ws f n w f' n' out pics K H S OFF E. unfold readings in S, OFF. rewrite map_app in S, OFF. cbn [map] in S, OFF.
  destruct (fancy_inv k n0 ws f n K H (stays_prefix _ _ S)) as (L & O & P). fold (readings ws) in *.
  rewrite fancy_pass in E by lia. cbv zeta in E.
  assert (NL : now_low (judge 830 888 (f_low f) (fw_battery w)) = false).
  { destruct (now_low _) eqn:NL; [|reflexivity]. destruct OFF. apply (judge_off 830 888 _ _ (f_low f) ltac:(lia) O). exact NL. }
  rewrite NL in E.
  assert (EG : entered (judge 830 888 (f_low f) (fw_battery w)) = false /\ goes_on (judge 830 888 (f_low f) (fw_battery w)) = true).
  { unfold judge in *. destruct (expired (fw_battery w)); cbn [now_low entered goes_on] in *; [|auto]. rewrite NL. split; [|reflexivity].
    destruct (f_low f); cbn [negb andb orb] in *; [reflexivity|lia]. }
  destruct EG as [E1 E2]. rewrite E1, E2 in E.
  destruct (onboard _ _ _ _) as [l1| |] eqn:OB; cbn [obind] in E; try discriminate.
  destruct (Tick _ _ _ _ _ _) as [[[u n1] o1]| |] eqn:T; cbn [obind] in E; try discriminate.
  destruct (RunEffect _ _ _ _ _ _) as [l2| |] eqn:R; cbn [obind] in E; try discriminate.
  injection E as <- <- <- <-. destruct u. cbn [f_low f_leds app]. repeat split; auto. exists l1. auto.
Qed.

(** A reading between the thresholds changes nothing, so the mode cannot
    flutter. *)
Theorem C67_between_keeps_mode : forall k n0 ws f n w, (2 <= k)%nat ->
  fancy_hist k n0 ws f n -> stays_expired (readings (ws ++ [w])) ->
  830 <= filtered (fw_battery w) <= 888 ->
  (off_after 830 888 (readings (ws ++ [w])) <-> off_after 830 888 (readings ws)) /\
  (off_after 830 888 (readings ws) -> fancy_loop e fl t d battery_at_boot w f n = Ok (f, n, [], [])).
Proof.
  intros k n0 ws f n w K H S B. assert (EQ : off_after 830 888 (readings (ws ++ [w])) <-> off_after 830 888 (readings ws)).
  { unfold readings. rewrite map_app. cbn [map]. rewrite off_snoc by lia. destruct (expired _); [|tauto]. split; [intros [X|[X _]]; [lia|exact X]|intros X; right; split; [exact X|lia]]. }
  split; [exact EQ|]. intros O. destruct (C67_off k n0 ws f n w K H S) as (pics & -> & P & _); [apply EQ; exact O|].
  rewrite (P O). unfold readings in S. rewrite map_app in S. destruct (fancy_inv k n0 ws f n K H (stays_prefix _ _ S)) as (L & LO & PI).
  apply LO in O. rewrite <- (PI O). destruct f as [l leds]. cbn in *. subst. reflexivity.
Qed.
End Fancy.
Print Assumptions C67_off.
Print Assumptions C67_on.
Print Assumptions C67_between_keeps_mode.

(** The thresholds in volts: a node in operation is switched off by a reading
    only when it stands for less than 3.6 V, and always when it stands for less
    than 3.596 V; it comes back only above 3.85 V, and always above 3.855 V. *)
Theorem C67_volts : forall x, expired x = true ->
  exists dec dec', supervise fancy_cutoffs false x = Ok dec /\ supervise fancy_cutoffs true x = Ok dec' /\
  (now_low dec = true -> (volts (filtered x) < 36 # 10)%Q) /\
  ((volts (filtered x) < 3596 # 1000)%Q -> now_low dec = true) /\
  (now_low dec' = false -> (385 # 100 < volts (filtered x))%Q) /\
  ((3855 # 1000 < volts (filtered x))%Q -> now_low dec' = false).
Proof.
  intros x X. rewrite !(supervise_judge _ 830 888 _ _ fancy_cut fancy_resume).
  do 2 eexists. split; [reflexivity|]. split; [reflexivity|]. unfold judge. rewrite X. cbn [now_low negb andb orb].
  unfold Qlt, volts. cbn [Qnum Qden]. change (Z.pos (10 * 1024 * 180)) with 1843200.
  change (Z.pos 10) with 10. change (Z.pos 100) with 100. change (Z.pos 1000) with 1000. lia.
Qed.
Print Assumptions C67_volts.

Definition flat (v : Z) : reading := mkReading true v.
Example C67_example :
  off_after 830 888 [flat 900; flat 829; flat 860; flat 888] /\
  ~ off_after 830 888 [flat 900; flat 829; flat 860; flat 889] /\
  ~ off_after 830 888 [flat 900; flat 830; flat 860] /\
  stays_expired [flat 900; flat 829].
Proof.
  split; [|split; [|split]].
  - exists [flat 900], (flat 829), [flat 860; flat 888]. split; [reflexivity|]. split; [reflexivity|]. split; [cbn; lia|].
    intros y [<-|[<-|[]]] _; cbn; lia.
  - rewrite (off_snoc 830 888 [flat 900; flat 829; flat 860] (flat 889)) by lia. cbn. lia.
  - intros H. apply (off_snoc 830 888 [flat 900; flat 830] (flat 860)) in H; [|lia]. cbn in H. destruct H as [H|[H _]]; [lia|].
    apply (off_snoc 830 888 [flat 900] (flat 830)) in H; [|lia]. cbn in H. destruct H as [H|[H _]]; [lia|].
    apply (off_snoc 830 888 [] (flat 900)) in H; [|lia]. cbn in H. destruct H as [H|[_ H]]; lia.
  - intros a x b y c E _. assert (I : In y [flat 900; flat 829]) by (rewrite E; apply in_or_app; right; right; apply in_or_app; right; left; reflexivity).
    destruct I as [<-|[<-|[]]]; reflexivity.
Qed.

(** ** The controller *)
Section Ctrl.
Variables (e : env) (fl : fastled) (o : offsets).
Hypothesis A : plat e = Arduino.
Hypothesis OK : fl_ok fl.

(** A controller that made the passes [ws] since power-on. *)
Inductive ctrl_hist (n0 : node) : list (reading * world) -> bool -> ctrl -> node -> Prop :=
| CStart : ctrl_hist n0 [] false ctrl_init n0
| CPass ws low c n x w low' c' n' out pics :
    ctrl_hist n0 ws low c n ->
    ctrl_loop e fl (built (builtin o)) announced_palettes x w low c n = Ok (low', c', n', out, pics) ->
    ctrl_hist n0 (ws ++ [(x, w)]) low' c' n'.

Lemma ctrl_pass x w low c n : cinv c ->
  ctrl_loop e fl (built (builtin o)) announced_palettes x w low c n =
  let dec := judge 784 888 low x in
  let c := if entered dec then with_leds c ctrl_off_picture else c in
  let pics := if entered dec then [ctrl_off_picture] else [] in
  if goes_on dec then
    '(c, n, out) <- loop e fl (built (builtin o)) announced_palettes w c n ;; Ok (now_low dec, c, n, out, pics ++ [cleds c])
  else Ok (now_low dec, c, n, [], pics).
Proof.
  intros L. apply ci_leds in L. unfold ctrl_loop. rewrite (supervise_judge _ 784 888 _ _ ctrl_cut ctrl_resume). cbn [obind]. cbv zeta.
  destruct (entered _); [|reflexivity]. unfold ctrl_LowBatteryMode.
  assert (M : map (fun _ : rgb => black) (cleds c) = repeat black 42).
  { replace 42%nat with (length (cleds c)) by (unfold vsize in L; lia). clear. induction (cleds c); cbn; f_equal; auto. }
  rewrite M. reflexivity.
Qed.
Lemma off_cinv c : cinv c -> cinv (with_leds c ctrl_off_picture).
Proof. intros []. constructor; auto. Qed.

Lemma ctrl_inv n0 ws low c n : good n0 -> ctrl_hist n0 ws low c n -> Forall (fun p => good_world (snd p)) ws ->
  stays_expired (map fst ws) ->
  cinv c /\ good n /\ (low = true <-> off_after 784 888 (map fst ws)) /\ (low = true -> cleds c = ctrl_off_picture).
Proof.
  intros G H. induction H as [|ws low c n x w low' c' n' out pics H IH E]; intros W S.
  - split; [apply cinv_init|]. split; [exact G|]. split; [|discriminate]. split; [discriminate|].
    intros X. destruct (off_nil _ _ X).
  - rewrite map_app in *. cbn [map fst] in *. apply Forall_app in W as [W W1]. inversion W1 as [|? ? W2 _]; subst. cbn [snd] in W2.
    destruct (IH W (stays_prefix _ _ S)) as (I & G' & O & P). rewrite ctrl_pass in E by assumption. cbv zeta in E.
    assert (RES : cinv c' /\ good n' /\ low' = now_low (judge 784 888 low x)).
    { destruct (goes_on _).
      - assert (I2 : cinv (if entered (judge 784 888 low x) then with_leds c ctrl_off_picture else c)).
        { destruct (entered _); [apply off_cinv|]; assumption. }
        destruct (loop_device e fl o w _ n A OK I2 G' W2) as (c2 & n2 & y & cl & o1 & o2 & E2 & _ & _ & I3 & G3 & _).
        rewrite E2 in E. cbn [obind] in E. injection E as <- <- <- _ _. auto.
      - injection E as <- <- <- _ _. split; [destruct (entered _); [apply off_cinv|]; assumption|auto]. }
    destruct RES as (I2 & G2 & ->). split; [exact I2|]. split; [exact G2|]. split; [apply judge_off; [lia|exact O]|]. intros LOW.
    assert (XP : low = true -> expired x = true) by (intros FL; apply O in FL; eapply expired_last; eauto).
    unfold judge in E, LOW. destruct (expired x) eqn:X; cbn [now_low entered goes_on] in *.
    + rewrite LOW in E. cbn [negb] in E. injection E as <- _ _ _.
      destruct low; cbn [negb andb orb] in *; [apply P; reflexivity|].
      destruct (filtered x <? 784); [reflexivity|discriminate].
    + specialize (XP LOW). discriminate.
Qed.

(** The controller behaves alike, with 3.4 V as its lower threshold. *)
Theorem C67_controller : forall t0 n0 ws low c n x w, hist e t0 [] n0 -> ctrl_hist n0 ws low c n ->
  Forall (fun p => good_world (snd p)) (ws ++ [(x, w)]) -> stays_expired (map fst ws ++ [x]) ->
  (off_after 784 888 (map fst ws ++ [x]) ->
     exists c' pics, ctrl_loop e fl (built (builtin o)) announced_palettes x w low c n = Ok (true, c', n, [], pics) /\
       cleds c' = ctrl_off_picture /\ sel_effect c' = sel_effect c /\ sel_palette c' = sel_palette c /\
       (off_after 784 888 (map fst ws) -> pics = []) /\ (~ off_after 784 888 (map fst ws) -> pics = [ctrl_off_picture])) /\
  (~ off_after 784 888 (map fst ws ++ [x]) ->
     exists c' n' out, loop e fl (built (builtin o)) announced_palettes w c n = Ok (c', n', out) /\
       ctrl_loop e fl (built (builtin o)) announced_palettes x w low c n = Ok (false, c', n', out, [cleds c'])).
Proof.
  intros t0 n0 ws low c n x w H0 H W S. apply Forall_app in W as [W W1]. inversion W1 as [|? ? W2 _]; subst. cbn [snd] in W2.
  destruct (ctrl_inv n0 ws low c n (hist_good _ _ _ _ H0) H W (stays_prefix _ _ S)) as (I & G & O & P).
  pose proof (judge_off 784 888 _ x low ltac:(lia) O) as J. rewrite ctrl_pass by assumption. cbv zeta.
  split; intros OFF.
  - apply J in OFF. assert (XP : expired x = true).
    { destruct low; [apply (expired_last _ _ S 784 888); apply O; reflexivity|].
      unfold judge in OFF. destruct (expired x); [reflexivity|discriminate]. }
    unfold judge in *. rewrite XP in *. cbn [now_low entered goes_on] in *. rewrite OFF. cbn [negb].
    destruct low; cbn [negb andb orb] in *.
    + exists c, []. split; [reflexivity|]. split; [apply P; reflexivity|]. split; [reflexivity|]. split; [reflexivity|].
      split; [reflexivity|]. intros N. destruct N. apply O. reflexivity.
    + destruct (filtered x <? 784); [|discriminate]. exists (with_leds c ctrl_off_picture), [ctrl_off_picture].
      split; [reflexivity|]. split; [reflexivity|]. split; [reflexivity|]. split; [reflexivity|].
      split; [|reflexivity]. intros N. apply O in N. discriminate.
  - assert (NL : now_low (judge 784 888 low x) = false).
    { destruct (now_low _) eqn:NL; [|reflexivity]. destruct OFF. apply J. reflexivity. }
    assert (EG : entered (judge 784 888 low x) = false /\ goes_on (judge 784 888 low x) = true).
    { unfold judge in *. destruct (expired x); cbn [now_low entered goes_on] in *; [|auto]. rewrite NL. split; [|reflexivity].
      destruct low; cbn [negb andb orb] in *; [reflexivity|lia]. }
    destruct EG as [-> ->]. rewrite NL.
    destruct (loop_device e fl o w c n A OK I G W2) as (c2 & n2 & y & cl & o1 & o2 & -> & _).
    cbn [obind]. exists c2, n2, (o1 ++ o2). auto.
Qed.
End Ctrl.
Print Assumptions C67_controller.

(** ** C82: the warning light after recovery *)
(** In the pass in which the controller recovers: in effect mode the warning light
    is replaced by the role light, red or green; in a direct mode it goes out if
    the mode switch was moved since the last pass in operation, otherwise it stays
    lit although the controller works. *)
Definition direct_mode (switch : Z) : mode := if switch <? 173 then ModeDirectColor else ModeDirectPalette.
Theorem C82_warning_light : forall e fl o t0 n0 ws low c n x w, plat e = Arduino -> fl_ok fl ->
  hist e t0 [] n0 -> ctrl_hist e fl o n0 ws low c n ->
  Forall (fun p => good_world (snd p)) (ws ++ [(x, w)]) -> stays_expired (map fst ws ++ [x]) ->
  off_after 784 888 (map fst ws) -> ~ off_after 784 888 (map fst ws ++ [x]) ->
  exists c' n' out, ctrl_loop e fl (built (builtin o)) announced_palettes x w low c n = Ok (false, c', n', out, [cleds c']) /\
    (512 <= w_switch w -> exists role, aget (cleds c') 7 = Ok role /\ (role = mkRGB 255 0 0 \/ role = mkRGB 0 255 0)) /\
    (w_switch w < 512 -> prev_mode c = direct_mode (w_switch w) -> aget (cleds c') 7 = Ok (mkRGB 8 0 0)) /\
    (w_switch w < 512 -> prev_mode c <> direct_mode (w_switch w) -> aget (cleds c') 7 = Ok (mkRGB 0 0 0)).
Proof.
  intros e fl o t0 n0 ws low c n x w A OK H0 H W S OFF ON.
  destruct (C67_controller e fl o A OK t0 n0 ws low c n x w H0 H W S) as [_ R]. destruct (R ON) as (c' & n' & out & L & E).
  exists c', n', out. split; [exact E|]. clear E R. apply Forall_app in W as [W W1]. inversion W1 as [|? ? W2 _]; subst. cbn [snd] in W2.
  destruct (ctrl_inv e fl o A OK n0 ws low c n (hist_good _ _ _ _ H0) H W (stays_prefix _ _ S)) as (I & G & O & P).
  destruct (loop_device e fl o w c n A OK I G W2) as (c2 & n2 & y & cl & o1 & o2 & L2 & Y & RM & _).
  rewrite L2 in L. injection L as -> _ _. rewrite run_mode_eval in RM.
  pose proof (entered_inv y c I) as I'. assert (MS : mode_switch y = w_switch w) by apply Y.
  assert (LE : cleds (ControllerFacts.entered y c) = if mode_eqb (prev_mode c) (mode_of (w_switch w)) then ctrl_off_picture else repeat black 42).
  { unfold ControllerFacts.entered. cbn [cleds]. rewrite MS, (P (proj2 O OFF)). destruct (mode_eqb _ _); reflexivity. }
  assert (MD : w_switch w < 512 -> mode_eqb (prev_mode c) (mode_of (w_switch w)) = true <-> prev_mode c = direct_mode (w_switch w)).
  { intros SW. unfold mode_of, direct_mode. change kMode1Threshold with 173. change kMode2Threshold with 512.
    destruct (Z.ltb_spec (w_switch w) 173); [|destruct (Z.ltb_spec (w_switch w) 512); [|lia]]; destruct (prev_mode c); cbn; split; congruence. }
  assert (Q : (512 <= w_switch w -> exists role, aget (cleds c') 7 = Ok role /\ (role = mkRGB 255 0 0 \/ role = mkRGB 0 255 0)) /\
    (w_switch w < 512 -> aget (cleds c') 7 = Ok (if mode_eqb (prev_mode c) (mode_of (w_switch w)) then mkRGB 8 0 0 else mkRGB 0 0 0))).
  2:{ destruct Q as [Q1 Q2]. split; [exact Q1|]. split; intros SW E; specialize (Q2 SW); specialize (MD SW);
      destruct (mode_eqb (prev_mode c) (mode_of (w_switch w))); intuition congruence. }
  change 7 with kStatusLeft in *.
  split; intros SW.
  - rewrite (mode_effect y) in RM by (unfold in_effect_mode; lia).
    destruct (RunEffectMode_ok Arduino fl OK o y _ I') as (c3 & E3 & _ & _ & _ & _ & _ & _ & _ & _ & K & _).
    rewrite E3 in RM. injection RM as <- _. unfold kStatusLeft. rewrite K. eexists. split; [reflexivity|]. destruct (is_slave y); auto.
  - destruct (mode_cases y) as [M|[M|M]]; [| |unfold in_effect_mode in M; lia].
    + rewrite (mode_color y M) in RM.
      destruct (RunColorMode_ok fl y _ I') as (c3 & E3 & _ & _ & _ & _ & _ & _ & _ & _ & _ & _ & K).
      rewrite E3 in RM. injection RM as <- _. rewrite K by (unfold kStatusLeft; lia). rewrite LE. destruct (mode_eqb _ _); reflexivity.
    + rewrite (mode_palette y M) in RM.
      destruct (RunPaletteMode_ok Arduino fl OK y _ I') as (c3 & E3 & _ & _ & _ & _ & _ & _ & _ & _ & _ & _ & K); [apply Y|].
      rewrite E3 in RM. injection RM as <- _. rewrite K by (unfold kStatusLeft; lia). rewrite LE. destruct (mode_eqb _ _); reflexivity.
Qed.
Print Assumptions C82_warning_light.

(** Colour mode, battery at 780 and then at 900. *)
Definition run_ctrl (passes : list (reading * world)) : outcome (bool * ctrl * list (list (list rgb))) :=
  n <- construct (env0 Arduino) 0 0 0 zero58 zero58 ;;
  (fix go ps low c n : outcome (bool * ctrl * list (list (list rgb))) :=
     match ps with
     | [] => Ok (low, c, [])
     | (x, w) :: ps =>
         '(low, c, n, _, pics) <- ctrl_loop (env0 Arduino) fl_ref (built (builtin (mkOffsets 0 0 0))) announced_palettes x w low c n ;;
         '(low, c, more) <- go ps low c n ;; Ok (low, c, pics :: more)
     end) passes false ctrl_init n.
Example C82_example :
  let ps := [(flat 900, demo_world [] [] [] 100 5000); (flat 780, demo_world [] [] [] 100 5010); (flat 900, demo_world [] [] [] 100 5020)] in
  Forall (fun p => good_world (snd p)) ps /\ off_after 784 888 [flat 900; flat 780] /\
  ~ off_after 784 888 [flat 900; flat 780; flat 900] /\
  match run_ctrl ps with
  | Ok (low, c, [[p1]; [p2]; [p3]]) =>
      low = false /\ aget p1 kStatusLeft = Ok (mkRGB 0 0 0) /\ p2 = ctrl_off_picture /\
      aget p3 kStatusLeft = Ok (mkRGB 8 0 0) /\ aget p3 0 = aget p1 0 /\ aget p1 0 <> Ok (mkRGB 0 0 0)
  | _ => False
  end.
Proof.
  cbv zeta. split; [repeat constructor; unfold good_world; cbn; lia|]. split; [|split].
  - exists [flat 900], (flat 780), []. split; [reflexivity|]. split; [reflexivity|]. split; [cbn; lia|]. intros y [].
  - rewrite (off_snoc 784 888 [flat 900; flat 780] (flat 900)) by lia. cbn. lia.
  - vm_compute. repeat split; try reflexivity. discriminate.
Qed.

(** ** C81: the charge shown at start-up *)
(** From an empty (3.7 V) to a full battery (4.2 V) the colour goes from red to
    green without ever going back; below empty it is red. *)
Theorem C81_charge_colour : forall r, 0 <= r < 65536 ->
  exists h, battery_hue r = Ok h /\ 0 <= h <= HUE_GREEN /\
    ((volts r <= 37 # 10)%Q -> h = 0) /\
    (forall r' h', (volts r' < 42 # 10)%Q -> r <= r' -> battery_hue r' = Ok h' -> h <= h') /\
    ((419 # 100 <= volts r < 42 # 10)%Q -> 93 <= h).
Proof.
  intros r R. assert (EV : forall r, battery_hue r = Ok (u8 ((if 116 <? u16 (r - 853) then 0 else u16 (r - 853)) * 96 / 116))).
  { intros q. unfold battery_hue. rewrite empty_raw, full_raw. cbn [obind]. reflexivity. }
  rewrite EV. eexists. split; [reflexivity|]. change HUE_GREEN with 96.
  unfold Qlt, Qle, volts. cbn [Qnum Qden]. change (Z.pos (10 * 1024 * 180)) with 1843200.
  change (Z.pos 10) with 10. change (Z.pos 100) with 100.
  assert (U : forall q, u16 q = q mod 65536) by reflexivity. assert (U8 : forall q, u8 q = q mod 256) by reflexivity.
  split; [|split; [|split]].
  - destruct (116 <? u16 (r - 853)) eqn:E; rewrite U8; rewrite U in *; lia.
  - intros V. destruct (116 <? u16 (r - 853)) eqn:E; rewrite U8; rewrite U in *; [reflexivity|lia].
  - intros r' h' V LE. rewrite EV. intros Q. injection Q as <-.
    destruct (116 <? u16 (r - 853)) eqn:E, (116 <? u16 (r' - 853)) eqn:E'; rewrite !U8; rewrite !U in *; lia.
  - intros V. destruct (116 <? u16 (r - 853)) eqn:E; rewrite U8; rewrite U in *; lia.
Qed.
Print Assumptions C81_charge_colour.

(** But a battery measured just above full looks like an empty one. *)
Theorem C81_overfull_looks_empty_refuted : exists full over, full < over /\
  (volts over < 421 # 100)%Q /\ battery_hue full = Ok HUE_GREEN /\ battery_hue over = Ok 0.
Proof. exists 969, 970. split; [lia|]. split; [reflexivity|]. split; vm_compute; reflexivity. Qed.
Print Assumptions C81_overfull_looks_empty_refuted.

Lemma onboard_kept d pl pixel clock : GetLedCount d <> 1 -> forall buf buf',
  RunEffect pl FastLed d pixel clock buf = Ok buf' -> aget buf' 0 = aget buf 0.
Proof.
  intros N1.
  assert (SET : forall k c b b', 0 <= k -> SetLed pl FastLed d (u8 k) c b = Ok b' -> aget b' 0 = aget b 0).
  { intros k c b b' K H. unfold SetLed in H. destruct (GetLedCount d =? 1) eqn:E; [lia|]. cbn [andb obind] in H.
    pose proof (u8_range k) as UR. unfold is_byte in UR. unfold aset in H. destruct (u8 k + 1 <? 0); [discriminate|].
    destruct (_ <? _)%nat eqn:LT; [|discriminate]. injection H as <-.
    destruct b as [|x b]; [reflexivity|]. destruct (Z.to_nat (u8 k + 1)) as [|q] eqn:Q; [lia|]. reflexivity. }
  assert (ST : forall todo s i k b r, 0 <= k -> strip_loop pl FastLed d pixel clock todo s i k b = Ok r -> aget (snd r) 0 = aget b 0 /\ 0 <= fst r).
  { induction todo as [|q IH]; intros s i k b r K; cbn [strip_loop]; [intros E; injection E as <-; auto|].
    intros E. destruct (led_colour _ _ _ _); cbn [obind] in E; try discriminate.
    destruct (SetLed _ _ _ _ _ _) eqn:S1; cbn [obind] in E; try discriminate. apply IH in E; [|lia]. apply SET in S1; [|lia].
    destruct E. split; [congruence|assumption]. }
  unfold RunEffect. assert (K : 0 <= 0) by lia. revert K. generalize 0 at 2 3 as k.
  induction (strips d) as [|s ss IH]; intros k K b b' E; cbn [strips_loop] in E; [congruence|].
  destruct (strip_loop _ _ _ _ _ _ _ _ _ _) as [[k' b1]| |] eqn:S1; cbn [obind] in E; try discriminate.
  apply ST in S1; [|lia]. cbn [fst snd] in S1. apply IH in E; [|lia]. destruct S1. congruence.
Qed.

(** On a device with more than one LED the board LED shows the charge during the
    first 20 seconds, provided a button was held at start-up, and is dark
    otherwise. *)
Theorem C81_board_led : forall e fl t d boot k n0 ws f n w f' n' out pics, (2 <= k)%nat ->
  fancy_hist e fl t d boot k n0 ws f n -> stays_expired (readings (ws ++ [w])) ->
  ~ off_after 830 888 (readings (ws ++ [w])) ->
  fancy_loop e fl t d boot w f n = Ok (f', n', out, pics) -> GetLedCount d <> 1 ->
  exists h, battery_hue boot = Ok h /\
    aget (f_leds f') 0 = Ok (if negb (boot =? 0) && (fw_millis w <? 20000) then fl_hsv2rgb fl (mkHSV h 255 255) else mkRGB 0 0 0).
Proof.
  intros e fl t d boot k n0 ws f n w f' n' out pics K H S OFF E N1.
  destruct (C67_on e fl t d boot k n0 ws f n w f' n' out pics K H S OFF E) as (_ & _ & _ & leds & OB & R).
  rewrite (onboard_kept d _ _ _ N1 _ _ R). unfold onboard in OB.
  assert (B : exists h, battery_hue boot = Ok h).
  { unfold battery_hue. rewrite empty_raw, full_raw. cbn [obind]. eexists. reflexivity. }
  destruct B as [h B]. exists h. split; [exact B|]. rewrite B in OB. cbn [obind] in OB.
  assert (G0 : forall v, aset (f_leds f) 0 v = Ok leds -> aget leds 0 = Ok v).
  { intros v A. unfold aset in A. cbn [Z.ltb Z.compare Z.to_nat] in A. destruct (f_leds f); [discriminate|]. injection A as <-. reflexivity. }
  destruct (_ && _); apply G0; exact OB.
Qed.
Print Assumptions C81_board_led.

Example C81_example : battery_hue 853 = Ok 0 /\ battery_hue 911 = Ok 48 /\ battery_hue 968 = Ok 95 /\
  (volts 911 < 42 # 10)%Q /\ (37 # 10 < volts 911)%Q.
Proof. repeat split; vm_compute; reflexivity. Qed.
