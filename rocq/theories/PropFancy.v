(** C97: the program of a fancy node, and its return after an exhausted battery. *)
From Coq Require Import ZArith QArith Lia List Bool SpecFloat.
From Coq Require Import ZifyBool.
From Verif Require Import CInt CIntFacts Packet SpecPacket PacketFacts NetMgr NetFacts Fastled Palette Device LedMgr SpecLed LedFacts RenderFacts PropRender Effects SpecEffect RgbFacts Show ShowFacts Rsm SpecRsm RsmStep RsmEval RsmHist RsmFacts RsmRun EffectFacts PropEffect PropShow PropTick PropController Boot PropBoot Node PropNode Battery SpecBattery PropBattery FancyNode RoleFacts PropRole PropHeartbeat PropHold PropOneMaster.
Import ListNotations.
Open Scope Z_scope.
Ltac Zify.zify_post_hook ::= Z.div_mod_to_equations.

(** ** The radio of a fancy node *)

(** The specification: a pass that finds the battery in order is one call of Tick;
    any other pass is nothing. *)
Inductive served : list fworld -> list use -> Prop :=
| served_start : served [] []
| served_off ws us w : served ws us -> off_after 830 888 (readings (ws ++ [w])) -> served (ws ++ [w]) us
| served_on ws us w : served ws us -> ~ off_after 830 888 (readings (ws ++ [w])) ->
    served (ws ++ [w]) (us ++ [UTick (fw_now1 w) (fw_inc1 w) (fw_now2 w) (fw_inc2 w)]).

(** The clock readings and deliveries of a pass. *)
Definition plausible (w : fworld) : Prop :=
  0 <= fw_now1 w < 4294967296 /\ 0 <= fw_now2 w < 4294967296 /\ harmless (fw_inc1 w) /\ harmless (fw_inc2 w).

Lemma passes_snoc e fl d b t ws w : forall f n,
  fancy_passes e fl d b t (ws ++ [w]) f n =
  (' (f, n, u) <- fancy_passes e fl d b t ws f n ;; ' (f, n, out, pics) <- fancy_loop e fl t d (battery_at_boot b) w f n ;; Ok (f, n, u ++ [(out, pics)])).
Proof.
  induction ws as [|x ws IH]; intros f n; cbn [app fancy_passes].
  - cbn [obind]. destruct (fancy_loop _ _ _ _ _ _ _ _) as [[[[? ?] ?] ?]| |]; reflexivity.
  - destruct (fancy_loop e fl t d (battery_at_boot b) x f n) as [[[[f1 n1] o1] p1]| |]; cbn [obind]; try reflexivity. rewrite IH.
    destruct (fancy_passes e fl d b t ws f1 n1) as [[[f2 n2] u2]| |]; cbn [obind]; try reflexivity.
    destruct (fancy_loop e fl t d (battery_at_boot b) w f2 n2) as [[[[f3 n3] o3] p3]| |]; cbn [obind]; reflexivity.
Qed.

Lemma passes_hist e fl d b t k n0 : forall ws f n log,
  fancy_passes e fl d b t ws (mkFancy false (repeat black k)) n0 = Ok (f, n, log) ->
  fancy_hist e fl t d (battery_at_boot b) k n0 ws f n.
Proof.
  induction ws as [|w ws IH] using rev_ind; intros f n log E.
  - cbn in E. injection E as <- <- <-. constructor.
  - rewrite passes_snoc in E. destruct (fancy_passes _ _ _ _ _ _ _ _) as [[[f1 n1] u1]| |] eqn:P; cbn [obind] in E; try discriminate.
    destruct (fancy_loop _ _ _ _ _ _ _ _) as [[[[f2 n2] o2] p2]| |] eqn:L; cbn [obind] in E; try discriminate.
    injection E as <- <- <-. econstructor; eauto.
Qed.

Lemma uses_snoc e us u : forall n n1 o1 n2 o2, do_uses e us n = Ok (tt, n1, o1) -> do_use e u n1 = Ok (tt, n2, o2) ->
  do_uses e (us ++ [u]) n = Ok (tt, n2, o1 ++ o2).
Proof.
  induction us as [|x us IH]; intros n n1 o1 n2 o2 A B; cbn [app do_uses] in *.
  - cbn in A. injection A as <- <-. unfold mbind. rewrite B. cbn. rewrite app_nil_r. reflexivity.
  - unfold mbind at 1 in A. destruct (do_use e x n) as [[[[] nx] ox]| |] eqn:X; try discriminate.
    destruct (do_uses e us nx) as [[[[] ny] oy]| |] eqn:Y; try discriminate. injection A as <- <-.
    unfold mbind at 1. rewrite X. rewrite (IH nx ny oy n2 o2 Y B). rewrite app_assoc. reflexivity.
Qed.

Lemma snoc_inv {A} (a b : list A) x y : a ++ [x] = b ++ [y] -> a = b /\ x = y.
Proof. apply app_inj_tail. Qed.

(** The passes of a program are the calls of Tick the specification lists. *)
Lemma served_uses e fl d b t k n0 : (2 <= k)%nat -> forall ws us, served ws us -> forall f n log,
  stays_expired (readings ws) -> Forall plausible ws ->
  fancy_passes e fl d b t ws (mkFancy false (repeat black k)) n0 = Ok (f, n, log) ->
  do_uses e us n0 = Ok (tt, n, concat (map fst log)).
Proof.
  intros K ws us S. induction S as [|ws us w S IH O|ws us w S IH O]; intros f n log X F E.
  - cbn in E. injection E as <- <- <-. reflexivity.
  - rewrite passes_snoc in E. destruct (fancy_passes _ _ _ _ _ _ _ _) as [[[f1 n1] u1]| |] eqn:P; cbn [obind] in E; try discriminate.
    pose proof (passes_hist _ _ _ _ _ _ _ _ _ _ _ P) as H.
    destruct (C67_off e fl t d (battery_at_boot b) k n0 ws f1 n1 w K H X O) as (pics & L & _). rewrite L in E. cbn [obind] in E.
    injection E as <- <- <-. rewrite map_app, concat_app. cbn. rewrite app_nil_r.
    unfold readings in X. rewrite map_app in X. apply stays_prefix in X. apply Forall_app in F as [F _]. eapply IH; eauto.
  - rewrite passes_snoc in E. destruct (fancy_passes _ _ _ _ _ _ _ _) as [[[f1 n1] u1]| |] eqn:P; cbn [obind] in E; try discriminate.
    pose proof (passes_hist _ _ _ _ _ _ _ _ _ _ _ P) as H.
    destruct (fancy_loop _ _ _ _ _ _ _ _) as [[[[f2 n2] o2] p2]| |] eqn:L; cbn [obind] in E; try discriminate.
    injection E as <- <- <-. destruct (C67_on e fl t d (battery_at_boot b) k n0 ws f1 n1 w f2 n2 o2 p2 K H X O L) as (_ & _ & T & _).
    apply Forall_app in F as [F Fw]. inversion Fw as [|? ? (W1 & W2 & _) _]; subst.
    rewrite map_app, concat_app. cbn [map fst concat]. rewrite app_nil_r.
    unfold readings in X. rewrite map_app in X. apply stays_prefix in X.
    eapply uses_snoc; [eapply IH; eauto|]. cbn [do_use]. rewrite !u32_id by lia. exact T.
Qed.

(** ** Set-up *)

Lemma startup_clears fl d buf b fs : PlayStartupAnimation fl d buf = Ok (b, fs) -> b = repeat black (length b).
Proof.
  unfold PlayStartupAnimation. intros E.
  destruct (udiv _ _); cbn [obind] in E; try discriminate.
  destruct (sweeps _ _ _ _) as [[b1 f1]| |]; cbn [obind] in E; try discriminate.
  destruct (hues _ _ _ _ _) as [[b2 f2]| |]; cbn [obind] in E; try discriminate.
  destruct (sweeps _ _ _ _) as [[b3 f3]| |]; cbn [obind] in E; try discriminate.
  injection E as <- _. unfold clear. rewrite map_length. clear. induction b3; cbn; f_equal; auto.
Qed.

Lemma startup_from fl d buf : drawable d -> Z.of_nat (length buf) = buffer_size FastLed d ->
  exists b fs, PlayStartupAnimation fl d buf = Ok (b, fs) /\ length b = length buf.
Proof.
  intros D B0. assert (C : 1 <= GetLedCount d <= 255) by (rewrite count_is by exact D; destruct D as (_ & L & _); lia).
  assert (U : forall i, In i (upto (GetLedCount d)) -> 0 <= i < GetLedCount d).
  { unfold upto. intros i I. apply in_map_iff in I as (q & <- & I). apply in_seq in I. lia. }
  unfold PlayStartupAnimation. rewrite (u16_id (GetLedCount d)) by lia. unfold udiv. destruct (GetLedCount d =? 0) eqn:E; [lia|]. cbn [obind].
  destruct (sweeps_ok d (Z.max (u16 (500 / GetLedCount d)) (u16 (GetLedCount d / 30 + 1))) D _ _ U B0) as (b1 & f1 & -> & L1). cbn [obind].
  destruct (hues_ok fl d (u16 (GetLedCount d / 30 + 1)) D (upto 256) (clear b1)) as (b2 & f2 & -> & L2); [rewrite clear_len; lia|]. rewrite clear_len in L2. cbn [obind].
  destruct (sweeps_ok d (Z.max (u16 (500 / GetLedCount d)) (u16 (GetLedCount d / 30 + 1))) D (rev (upto (GetLedCount d))) b2) as (b3 & f3 & -> & L3);
    [intros i I; apply U, in_rev, I|lia|]. cbn [obind].
  eexists _, _. split; [reflexivity|]. rewrite clear_len. lia.
Qed.

Lemma fancy_setup_ok e fl d b o t0 n : plat e = Arduino -> drawable d -> hist e t0 [] n ->
  exists n' k, fancy_setup e fl d b o n = Ok (built (builtin o), n', mkFancy false (repeat black k)) /\
    ready n' /\ tick_run n' = false /\ Z.of_nat k = leds_in (strips d) + 1 /\
    do_uses e [USetNumEffects t0 27; USetNumPalettes t0 22] n = Ok (tt, n', []).
Proof.
  intros A D H. destruct (setup_ok e fl d o t0 n A D H) as (n1 & b1 & E1 & R1 & (_ & _ & T1) & L1).
  unfold setup in E1. rewrite LedManager_eval in E1. cbn [obind] in E1.
  unfold fancy_setup. rewrite LedManager_eval. cbn [obind].
  assert (N1 : Z.of_nat (length (new_leds d)) = buffer_size FastLed d).
  { unfold new_leds. rewrite repeat_length. unfold buffer_size. pose proof (count_is d D). destruct D as (_ & L & _). lia. }
  assert (B1 : exists buf, match b with Some _ => aset (new_leds d) 0 (fl_hsv2rgb fl (mkHSV 0 0 32)) | None => Ok (new_leds d) end = Ok buf /\ length buf = length (new_leds d)).
  { destruct b as [r|]; [|eauto]. exists (list_set (new_leds d) 0 (fl_hsv2rgb fl (mkHSV 0 0 32))). split; [|apply list_set_length].
    unfold aset. cbn [Z.ltb Z.compare Z.to_nat]. destruct (Nat.ltb_spec 0 (length (new_leds d))); [reflexivity|].
    unfold buffer_size in N1. pose proof (count_is d D). destruct D as (_ & L & _). lia. }
  destruct B1 as (buf & B1 & BL). unfold SetNumEffects, SetNumPalettes, mupd in *. cbn [obind] in *. rewrite B1. cbn [obind].
  destruct (startup_from fl d buf D) as (b2 & fs & E2 & L2); [congruence|]. rewrite E2. cbn [obind].
  pose proof (startup_clears _ _ _ _ _ E2) as CL.
  destruct (PlayStartupAnimation fl d (new_leds d)) as [[b3 f3]| |]; cbn [obind] in E1; try discriminate. injection E1 as E1 _.
  eexists _, (length b2). rewrite CL at 1. split; [reflexivity|]. rewrite E1. split; [exact R1|]. split; [exact T1|]. split.
  - rewrite L2, BL, N1. unfold buffer_size. rewrite count_is by exact D. lia.
  - cbn. unfold mbind. cbn. rewrite <- E1. reflexivity.
Qed.

(** ** It never stops *)

Lemma hue_ok r : exists h, battery_hue r = Ok h.
Proof. unfold battery_hue. rewrite empty_raw, full_raw. cbn [obind]. eexists. reflexivity. Qed.

Lemma aset_ok {A} (l : list A) i v : 0 <= i < Z.of_nat (length l) -> exists l', aset l i v = Ok l' /\ length l' = length l.
Proof.
  intros I. exists (list_set l (Z.to_nat i) v). split; [|apply list_set_length].
  unfold aset. destruct (i <? 0) eqn:E; [lia|]. destruct (Nat.ltb_spec (Z.to_nat i) (length l)); [reflexivity|lia].
Qed.

Lemma fancy_step_ok e fl d b o w f n : plat e = Arduino -> fl_ok fl -> drawable d -> ready n -> plausible w ->
  Z.of_nat (length (f_leds f)) = leds_in (strips d) + 1 ->
  exists f' n' out pics, fancy_loop e fl (built (builtin o)) d b w f n = Ok (f', n', out, pics) /\ ready n' /\
    length (f_leds f') = length (f_leds f) /\
    (f_low f' = false -> exists old, Show Arduino fl FastLed d o (GetSetEffect n') (fun k => GetNetworkMillis (fw_clock w k) n') old = Ok (f_leds f')).
Proof.
  intros A OK D R (P1 & P2 & P3 & P4) L.
  assert (CI : GetLedCount d = leds_in (strips d)) by (apply count_is; exact D).
  assert (K : (2 <= length (f_leds f))%nat) by (destruct D as (_ & D & _); lia).
  rewrite fancy_pass by exact K. cbv zeta. set (dec := judge 830 888 (f_low f) (fw_battery w)).
  set (leds := if entered dec then off_picture (length (f_leds f)) else f_leds f).
  assert (LL : length leds = length (f_leds f)).
  { subst leds. destruct (entered dec); [|reflexivity]. cbn [off_picture length]. rewrite repeat_length. lia. }
  destruct (goes_on dec) eqn:GO.
  - assert (OB : exists l1, onboard fl b (fw_millis w) leds = Ok l1 /\ length l1 = length leds).
    { unfold onboard. destruct (hue_ok b) as [h ->]. cbn [obind]. destruct (_ && _); apply aset_ok; lia. }
    destruct OB as (l1 & -> & L1). cbn [obind].
    destruct (tick_twice_ready e (mkPass (fw_now1 w) (fw_inc1 w) (fw_now2 w) (fw_inc2 w) (fw_clock w)) n A R (conj P3 P4)) as (n' & out & T & R').
    cbn [now1 now2 inc1 inc2] in T. rewrite !u32_id in T by lia. rewrite T. cbn [obind].
    pose proof R' as [G _ _ V].
    destruct (valid_effect_drawn fl d o (GetSetEffect n') (fun k => GetNetworkMillis (fw_clock w k) n') l1 OK D (g_se _ G) V) as (b' & E & L').
    { unfold buffer_size. rewrite CI. lia. }
    rewrite A. rewrite Show_eval in E. rewrite E. cbn [obind]. eexists _, _, _, _. split; [reflexivity|].
    split; [exact R'|]. cbn [f_leds f_low]. split; [congruence|]. intros _. exists l1. rewrite Show_eval. exact E.
  - eexists _, _, _, _. split; [reflexivity|]. split; [exact R|]. cbn [f_leds f_low]. split; [exact LL|].
    intros X. exfalso. subst dec. unfold judge in *. destruct (expired (fw_battery w)); cbn [now_low goes_on] in *; [|discriminate].
    rewrite X in GO. discriminate.
Qed.

Lemma fancy_run_ok e fl d b o n0 k : plat e = Arduino -> fl_ok fl -> drawable d -> ready n0 ->
  Z.of_nat k = leds_in (strips d) + 1 -> forall ws, Forall plausible ws ->
  exists f n log, fancy_passes e fl d b (built (builtin o)) ws (mkFancy false (repeat black k)) n0 = Ok (f, n, log) /\
    ready n /\ length (f_leds f) = k /\ length log = length ws.
Proof.
  intros A OK D R K. induction ws as [|w ws IH] using rev_ind; intros F.
  - eexists _, _, _. split; [reflexivity|]. split; [exact R|]. split; [apply repeat_length|reflexivity].
  - apply Forall_app in F as [F Fw]. inversion Fw as [|? ? Pw _]; subst.
    destruct (IH F) as (f & n & log & E & R1 & L1 & L2).
    destruct (fancy_step_ok e fl d (battery_at_boot b) o w f n A OK D R1 Pw) as (f' & n' & out & pics & E' & R' & L' & _); [congruence|].
    rewrite passes_snoc, E. cbn [obind]. rewrite E'. cbn [obind]. eexists _, _, _. split; [reflexivity|]. split; [exact R'|].
    split; [congruence|]. rewrite !app_length. cbn [length]. lia.
Qed.

(** However many passes the program makes, whatever the battery does and whatever
    the radio delivers (except palettes that do not exist), it never traps.  After
    every pass the LEDs show one of two things: while the battery is exhausted two
    dim red LEDs, and otherwise the complete picture of the current effect. *)
Theorem C97_fancy_node_never_stops : forall e fl d b o t0 n ws w,
  plat e = Arduino -> fl_ok fl -> drawable d -> hist e t0 [] n ->
  stays_expired (readings (ws ++ [w])) -> Forall plausible (ws ++ [w]) ->
  exists f n' log out pics,
    fancy_program e fl d b o (ws ++ [w]) n = Ok (f, n', log ++ [(out, pics)]) /\ length log = length ws /\
    Z.of_nat (length (f_leds f)) = leds_in (strips d) + 1 /\
    (off_after 830 888 (readings (ws ++ [w])) -> out = [] /\ f_leds f = off_picture (length (f_leds f))) /\
    (~ off_after 830 888 (readings (ws ++ [w])) -> pics = [f_leds f] /\
       exists old, Show Arduino fl FastLed d o (GetSetEffect n') (fun k => GetNetworkMillis (fw_clock w k) n') old = Ok (f_leds f)).
Proof.
  intros e fl d b o t0 n ws w A OK D H X F. unfold fancy_program.
  destruct (fancy_setup_ok e fl d b o t0 n A D H) as (n1 & k & -> & R1 & _ & K & _). cbn [obind].
  apply Forall_app in F as [F Fw]. inversion Fw as [|? ? Pw _]; subst.
  destruct (fancy_run_ok e fl d b o n1 k A OK D R1 K ws F) as (f2 & n2 & log & E & R2 & L2 & Ll).
  destruct (fancy_step_ok e fl d (battery_at_boot b) o w f2 n2 A OK D R2 Pw) as (f3 & n3 & out & pics & E3 & R3 & L3 & S3); [congruence|].
  rewrite passes_snoc, E. cbn [obind]. rewrite E3. cbn [obind]. exists f3, n3, log, out, pics. split; [reflexivity|].
  split; [exact Ll|]. split; [congruence|]. pose proof (passes_hist _ _ _ _ _ _ _ _ _ _ _ E) as FH.
  assert (K2 : (2 <= k)%nat) by (destruct D as (_ & D & _); lia). split.
  - intros O. destruct (C67_off e fl (built (builtin o)) d (battery_at_boot b) k n1 ws f2 n2 w K2 FH X O) as (pics' & E4 & _).
    rewrite E4 in E3. injection E3 as <- <- <- <-. cbn [f_leds]. split; [reflexivity|].
    f_equal. unfold off_picture. cbn [length]. rewrite repeat_length. lia.
  - intros O. destruct (C67_on e fl (built (builtin o)) d (battery_at_boot b) k n1 ws f2 n2 w f3 n3 out pics K2 FH X O E3) as (LO & P & _).
    split; [exact P|]. apply S3. exact LO.
Qed.
Print Assumptions C97_fancy_node_never_stops.

(** The LED on the board of a device with more than one LED: with no button held at
    start-up it is dark after every pass in order; with one held it shows the colour
    of the charge for the first 20 seconds (unless the reading was 0). *)
Theorem C97_board_led : forall e fl d b o t0 n ws w f n' log,
  plat e = Arduino -> drawable d -> hist e t0 [] n ->
  stays_expired (readings (ws ++ [w])) -> ~ off_after 830 888 (readings (ws ++ [w])) ->
  fancy_program e fl d b o (ws ++ [w]) n = Ok (f, n', log) -> leds_in (strips d) <> 1 ->
  aget (f_leds f) 0 = Ok
    match b with
    | Some r => if (r =? 0) || (20000 <=? fw_millis w) then mkRGB 0 0 0
                else match battery_hue r with Ok h => fl_hsv2rgb fl (mkHSV h 255 255) | _ => mkRGB 0 0 0 end
    | None => mkRGB 0 0 0
    end.
Proof.
  intros e fl d b o t0 n ws w f n' log A D H X Off E N1. unfold fancy_program in E.
  destruct (fancy_setup_ok e fl d b o t0 n A D H) as (n1 & k & E1 & R1 & _ & K & _). rewrite E1 in E. cbn [obind] in E.
  assert (K2 : (2 <= k)%nat) by (destruct D as (_ & D & _); lia).
  rewrite passes_snoc in E. destruct (fancy_passes _ _ _ _ _ ws _ _) as [[[f2 n2] log2]| |] eqn:E2; cbn [obind] in E; try discriminate.
  destruct (fancy_loop _ _ _ _ _ w f2 n2) as [[[[f3 n3] out] pics]| |] eqn:E3; cbn [obind] in E; try discriminate. injection E as <- <- <-.
  pose proof (passes_hist _ _ _ _ _ _ _ _ _ _ _ E2) as FH.
  destruct (C81_board_led e fl (built (builtin o)) d (battery_at_boot b) k n1 ws f2 n2 w f3 n3 out pics K2 FH X Off E3) as (h & Bh & ->).
  { rewrite count_is by exact D. exact N1. }
  f_equal. unfold battery_at_boot in *. destruct b as [r|]; [|reflexivity]. rewrite Bh.
  destruct (Z.eqb_spec r 0); [reflexivity|]. cbn [negb andb orb]. destruct (Z.ltb_spec (fw_millis w) 20000), (Z.leb_spec 20000 (fw_millis w)); try lia; reflexivity.
Qed.
Print Assumptions C97_board_led.

(** ** Its radio stands still while the battery is exhausted *)

(** All that the radio does is what a history says whose calls are: the two of
    set-up, then one Tick for every pass that found the battery in order.  So every
    theorem about histories applies to a fancy node; an exhausted battery is to it
    a main loop that stands still. *)
Theorem C97_radio_stands_still : forall e fl d b o t0 ts n ws us f n' log,
  plat e = Arduino -> drawable d -> hist e t0 [] n ->
  stays_expired (readings ws) -> Forall plausible ws -> served ws us ->
  sorted_from t0 (radio_calls false (USetNumEffects ts 27 :: USetNumPalettes ts 22 :: us)) ->
  fancy_program e fl d b o ws n = Ok (f, n', log) ->
  exists h m, hist e t0 h m /\
    map (fun ev => (at_ ev, call ev)) h = radio_calls false (USetNumEffects ts 27 :: USetNumPalettes ts 22 :: us) /\
    concat (map sent h) = concat (map fst log) /\ same_but_flag m n'.
Proof.
  intros e fl d b o t0 ts n ws us f n' log A D H X F S SO E. unfold fancy_program in E.
  destruct (fancy_setup_ok e fl d b o t0 n A D H) as (n1 & k & E1 & R1 & T1 & K & U). rewrite E1 in E. cbn [obind] in E.
  assert (K2 : (2 <= k)%nat) by (destruct D as (_ & D & _); lia).
  pose proof (served_uses e fl d b (built (builtin o)) k n1 K2 ws us S f n' log X F E) as DU.
  assert (T0 : tick_run n = false).
  { inversion H as [ty1 ty2 d1 d2 n0 T0 W1 W2 C|]; [|destruct h; discriminate]. rewrite construct_eq in C. inversion C; subst. reflexivity. }
  destruct (uses_hist e t0 (USetNumEffects ts 27 :: USetNumPalettes ts 22 :: us) [] n n t0 n' (concat (map fst log)) H) as (h & m & J1 & J2 & J3 & J4).
  - unfold same_but_flag. destruct n; reflexivity.
  - lia.
  - intros ? [].
  - rewrite T0. exact SO.
  - change (do_uses e (USetNumEffects ts 27 :: USetNumPalettes ts 22 :: us) n)
      with (mbind (SetNumEffects 27) (fun _ => mbind (SetNumPalettes 22) (fun _ => do_uses e us)) n).
    cbn [do_uses do_use] in U. unfold SetNumEffects, SetNumPalettes, mupd, mbind, mret in U |- *. cbn in U |- *.
    injection U as U. rewrite U. rewrite DU. reflexivity.
  - rewrite T0 in J2. exists h, m. auto.
Qed.
Print Assumptions C97_radio_stands_still.

(** ** Its return *)

Lemma harmless_inc inc : harmless inc -> op_ok (OTick inc).
Proof. destruct inc; [intros [W _]; exact W|intros _; exact Logic.I]. Qed.

Lemma flag_role m n : same_but_flag m n -> GetCurrentState n = GetCurrentState m.
Proof. unfold same_but_flag. intros ->. reflexivity. Qed.

Lemma hist_same e t0 h a c : hist e t0 h a -> hist e t0 h c -> h <> [] -> a = c.
Proof.
  destruct h as [|x h _] using rev_ind; [congruence|]. intros H1 H2 _.
  apply hist_last in H1 as (_ & -> & _). apply hist_last in H2 as (_ & -> & _). reflexivity.
Qed.

(** Only calls of Tick. *)
Definition ticks (us : list use) : Prop := forall u, In u us -> exists a b c d, u = UTick a b c d.

Lemma served_ticks ws us : served ws us -> ticks us.
Proof.
  intros S. induction S; [intros ? []|assumption|]. intros u I. apply in_app_or in I as [I|[<-|[]]]; [auto|]. eauto.
Qed.

Lemma ticks_only us : ticks us -> forall s c, In c (radio_calls s us) -> forall p, snd c <> OSetEffect p.
Proof.
  induction us as [|u us IH]; intros T s c I p; [destruct I|].
  destruct (T u (or_introl eq_refl)) as (x1 & x2 & x3 & x4 & ->). cbn [radio_calls] in I.
  destruct I as [<-|I]; [discriminate|]. apply in_app_or in I as [I|I].
  - destruct s; [destruct I as [<-|[]]; discriminate|destruct I].
  - apply (IH (fun u J => T u (or_intror J)) true c I p).
Qed.

Lemma tick_sets_flag e a b c d n n' o : Tick e a b c d n = Ok (tt, n', o) -> tick_run n' = true.
Proof.
  unfold Tick. unfold mbind at 1. destruct (RadioTick e a b n) as [[[[] n1] o1]| |]; try discriminate.
  unfold mget, mbind. destruct (tick_run n1).
  - destruct (RadioTick e c d n1) as [[[[] n2] o2]| |]; try discriminate. cbn. intros E. injection E as <- _. reflexivity.
  - cbn. intros E. injection E as <- _. reflexivity.
Qed.

Lemma ticks_flag e us : forall n n' o, do_uses e us n = Ok (tt, n', o) -> ticks us -> us <> [] -> tick_run n' = true.
Proof.
  induction us as [|u us IH]; intros n n' o E T N; [congruence|]. cbn [do_uses] in E. unfold mbind at 1 in E.
  destruct (do_use e u n) as [[[[] n1] o1]| |] eqn:U; try discriminate.
  destruct (do_uses e us n1) as [[[[] n2] o2]| |] eqn:V; try discriminate. injection E as <- _.
  destruct us as [|v us].
  - cbn in V. injection V as <- _. destruct (T u (or_introl eq_refl)) as (a & b & c & d & ->). eapply tick_sets_flag; exact U.
  - eapply IH; [exact V| |discriminate]. intros x I. apply T. right. exact I.
Qed.

(** [quiet_until ts us T]: the last call of the state machine was before [T]. *)
Definition quiet_until (t0 ts : Z) (us : list use) (T : Z) : Prop :=
  t0 < T /\ ts < T /\ forall c, In c (radio_calls false us) -> fst c < T.

Section Return.
Variables (e : env) (fl : fastled) (d : device) (b : option Z) (o : offsets) (t0 ts : Z) (n : node).
Variables (ws : list fworld) (us : list use) (w : fworld) (f : fancy) (n1 : node) (log : list (list rtx * list (list rgb))).
Variables (f2 : fancy) (n2 : node) (out : list rtx) (pics : list (list rgb)).
Hypothesis A : plat e = Arduino.
Hypothesis D : drawable d.
Hypothesis H : hist e t0 [] n.
Hypothesis X : stays_expired (readings (ws ++ [w])).
Hypothesis F : Forall plausible (ws ++ [w]).
Hypothesis S : served ws us.
Hypothesis SO : sorted_from t0 (radio_calls false (USetNumEffects ts 27 :: USetNumPalettes ts 22 :: us)).
Hypothesis E1 : fancy_program e fl d b o ws n = Ok (f, n1, log).
Hypothesis E2 : fancy_program e fl d b o (ws ++ [w]) n = Ok (f2, n2, log ++ [(out, pics)]).
Hypothesis ON : ~ off_after 830 888 (readings (ws ++ [w])).
Hypothesis Q : quiet_until t0 ts us (fw_now1 w).
Hypothesis ORD : fw_now1 w <= fw_now2 w.

Lemma return_history : exists h ev h2 m2,
  hist e t0 (h ++ ev :: h2) m2 /\ same_but_flag m2 n2 /\ role_before ev = GetCurrentState n1 /\
  (forall x, In x h -> t0 = at_ x \/ ts = at_ x \/ exists c, In c (radio_calls false us) /\ fst c = at_ x) /\
  (forall x p, In x h -> call x <> OSetEffect p) /\
  at_ ev = fw_now1 w /\ call ev = OTick (fw_inc1 w) /\
  out = sent ev ++ concat (map sent h2) /\
  (h2 = [] \/ exists ev2, h2 = [ev2] /\ at_ ev2 = fw_now2 w /\ call ev2 = OTick (fw_inc2 w)) /\
  (us <> [] -> h2 <> []).
Proof.
  assert (FH : exists k, (2 <= k)%nat /\ exists n0, fancy_hist e fl (built (builtin o)) d (battery_at_boot b) k n0 ws f n1 /\ tick_run n0 = false /\
    do_uses e us n0 = Ok (tt, n1, concat (map fst log)) /\
    fancy_loop e fl (built (builtin o)) d (battery_at_boot b) w f n1 = Ok (f2, n2, out, pics)).
  { unfold fancy_program in E1, E2. destruct (fancy_setup_ok e fl d b o t0 n A D H) as (n0 & k & E0 & _ & T & K & _).
    rewrite E0 in E1, E2. cbn [obind] in E1, E2. exists k. assert (K2 : (2 <= k)%nat) by (destruct D as (_ & DL & _); lia). split; [exact K2|]. exists n0.
    rewrite passes_snoc, E1 in E2. cbn [obind] in E2.
    pose proof X as X1. unfold readings in X1. rewrite map_app in X1. apply stays_prefix in X1.
    pose proof F as F1. apply Forall_app in F1 as [F1 _].
    pose proof (passes_hist _ _ _ _ _ _ _ _ _ _ _ E1) as P. split; [exact P|]. split; [exact T|].
    split; [eapply served_uses; eauto|].
    destruct (fancy_loop _ _ _ _ _ _ _ _) as [[[[f3 n3] o3] p3]| |]; cbn [obind] in E2; try discriminate.
    injection E2 as -> -> E3. apply app_inv_head in E3. injection E3 as -> ->. reflexivity. }
  destruct FH as (k & K & n0 & FH & T0 & DU & L).
  destruct (C67_on e fl (built (builtin o)) d (battery_at_boot b) k n0 ws f n1 w f2 n2 out pics K FH X ON L) as (_ & _ & T & _).
  pose proof F as Fw. apply Forall_app in Fw as [F1 Fw]. inversion Fw as [|? ? (W1 & W2 & W3 & W4) _]; subst.
  pose proof X as X1. unfold readings in X1. rewrite map_app in X1. apply stays_prefix in X1.
  destruct (C97_radio_stands_still e fl d b o t0 ts n ws us f n1 log A D H X1 F1 S SO E1) as (h & m & Hh & Hc & _ & Sf).
  destruct Q as (Q0 & Q1 & Q2).
  assert (AT : forall x, In x h -> (ts = at_ x /\ (forall p, call x <> OSetEffect p)) \/ In (at_ x, call x) (radio_calls false us)).
  { intros x I. apply (in_map (fun ev => (at_ ev, call ev))) in I. rewrite Hc in I. cbn [radio_calls] in I.
    destruct I as [I|[I|I]]; [injection I as I1 I2..|right; exact I]; left; (split; [exact I1|]); intros p; rewrite <- I2; discriminate. }
  destruct (uses_hist e t0 [UTick (fw_now1 w) (fw_inc1 w) (fw_now2 w) (fw_inc2 w)] h m n1 (fw_now1 w) n2 out Hh Sf) as (h2 & m2 & J1 & J2 & J3 & J4).
  - lia.
  - intros x I. destruct (AT x I) as [[I1 _]|I1]; [lia|]. apply Q2 in I1. cbn in I1. lia.
  - cbn [radio_calls sorted_from]. split; [lia|]. split; [apply harmless_inc; exact W3|].
    destruct (tick_run n1); cbn [app sorted_from]; [|exact Logic.I]. split; [lia|]. split; [apply harmless_inc; exact W4|exact Logic.I].
  - cbn [do_uses do_use]. rewrite !u32_id by lia. unfold mbind. rewrite T. cbn. rewrite app_nil_r. reflexivity.
  - cbn [radio_calls] in J2. destruct h2 as [|ev h2]; [discriminate|]. cbn [map] in J2.
    injection J2 as J5 J6 J7. exists h, ev, h2, m2. split; [exact J1|]. split; [exact J4|]. split; [|split; [|split; [|split; [|split; [|split; [|split]]]]]].
    + rewrite (flag_role _ _ Sf). unfold role_before.
      assert (HP : hist e t0 (h ++ [ev]) (after ev)).
      { replace (h ++ ev :: h2) with ((h ++ [ev]) ++ h2) in J1 by (rewrite <- app_assoc; reflexivity).
        destruct (hist_prefix _ _ _ _ _ J1) as [q Hq]. pose proof (hist_last _ _ _ _ _ Hq) as (_ & -> & _). exact Hq. }
      apply hist_last in HP as (HP & _). rewrite (hist_same _ _ _ _ _ Hh HP); [reflexivity|]. intros ->. discriminate Hc.
    + intros x I. destruct (AT x I) as [[I1 _]|I1]; [auto|]. right. right. eexists. split; [exact I1|reflexivity].
    + intros x p I. destruct (AT x I) as [[_ I1]|I1]; [auto|]. apply (ticks_only _ (served_ticks _ _ S) _ _ I1).
    + exact J5.
    + exact J6.
    + rewrite <- J3. reflexivity.
    + rewrite app_nil_r in J7. destruct (tick_run n1); [right|left; destruct h2; [reflexivity|discriminate]].
      destruct h2 as [|ev2 [|]]; try discriminate. injection J7 as J7 J8. exists ev2. auto.
    + intros NE. assert (TR : tick_run n1 = true) by (apply (ticks_flag _ _ _ _ _ DU (served_ticks _ _ S) NE)).
      rewrite TR in J7. intros ->. discriminate.
Qed.
End Return.

(** A fancy node has made the passes [ws], among them calls of Tick [us] (after the
    set-up at time [ts]), and now makes the pass [w], which finds the battery in
    order: before this pass the state machine is [n1], afterwards [n2]; the pass
    transmits [out].  Below the clock wrap. *)
Record resumes (e : env) (fl : fastled) (d : device) (b : option Z) (o : offsets) (t0 ts : Z)
  (ws : list fworld) (us : list use) (w : fworld) (n1 n2 : node) (out : list rtx) : Prop := mkResumes {
  rs_plat : plat e = Arduino;
  rs_device : drawable d;
  rs_expired : stays_expired (readings (ws ++ [w]));
  rs_plausible : Forall plausible (ws ++ [w]);
  rs_served : served ws us;
  rs_sorted : sorted_from t0 (radio_calls false (USetNumEffects ts 27 :: USetNumPalettes ts 22 :: us));
  rs_on : ~ off_after 830 888 (readings (ws ++ [w]));
  rs_order : fw_now1 w <= fw_now2 w < wrap - 7000;
  rs_runs : exists n f log f2 pics, hist e t0 [] n /\
    fancy_program e fl d b o ws n = Ok (f, n1, log) /\
    fancy_program e fl d b o (ws ++ [w]) n = Ok (f2, n2, log ++ [(out, pics)])
}.

(** It returns from an outage of at least seven seconds (nothing is received in the
    first instant, for the radio was asleep): it is master at once and sends a
    heartbeat, whatever it was before and whoever else is master. *)
Theorem C97_return_takes_over : forall e fl d b o t0 ts ws us w n1 n2 out,
  resumes e fl d b o t0 ts ws us w n1 n2 out ->
  quiet_until t0 ts us (fw_now1 w - 6999) -> fw_inc1 w = None ->
  (exists s p, In (Own s p) out /\ ptype p = 0) /\
    (fw_inc2 w = None -> GetCurrentState n2 = Master).
Proof.
  intros e fl d b o t0 ts ws us w n1 n2 out [A D X F S SO ON ORD (n & f & log & f2 & pics & H & E1 & E2)] Q I1.
  destruct Q as (Q0 & Q1 & Q2).
  destruct (return_history e fl d b o t0 ts n ws us w f n1 log f2 n2 out pics A D H X F S SO E1 E2 ON) as
    (h & ev & h2 & m2 & Hh & Sf & Rb & AT & NS & T1 & C1 & Ho & T2 & _).
  { split; [lia|]. split; [lia|]. intros c I. apply Q2 in I. lia. } { lia. }
  assert (HP : history e t0 (h ++ [ev])).
  { replace (h ++ ev :: h2) with ((h ++ [ev]) ++ h2) in Hh by (rewrite <- app_assoc; reflexivity). exact (hist_prefix _ _ _ _ _ Hh). }
  assert (OLD : forall x, In x h -> at_ x + 6999 < fw_now1 w).
  { intros x I. destruct (AT x I) as [<-|[<-|(c & J & <-)]]; [lia|lia|]. apply Q2 in J. lia. }
  assert (B : all_before (wrap - 7000) t0 (h ++ [ev])).
  { split; [lia|]. intros x I. apply in_app_or in I as [I|[<-|[]]]; [apply OLD in I; lia|lia]. }
  assert (PF : packet_free ev).
  { destruct HP as [q HP]. apply hist_last in HP as (_ & _ & _ & _ & _ & _ & St).
    apply (step_packet_free e ev St). exists (fw_inc1 w). split; [exact C1|]. rewrite I1. reflexivity. }
  assert (AP : api_ok (h ++ [ev])).
  { intros x q I C. exfalso. apply in_app_or in I as [I|[<-|[]]]; [exact (NS x q I C)|congruence]. }
  assert (MB : role_after ev = Master /\ own_heartbeat ev).
  { destruct (role_before ev) eqn:R.
    - destruct (C18_silent_network_gets_a_master e t0 h ev HP B R PF ltac:(lia)) as (RA & p & Sp & P0 & _).
      + intros x I _. apply OLD in I. lia.
      + split; [exact RA|]. exists p. split; [|exact P0]. exists ByHeartbeat. rewrite Sp. left. reflexivity.
    - destruct (C20_heartbeat_due_is_sent e t0 h ev HP AP B R PF); [|auto].
      intros x I _. apply OLD in I. lia. }
  destruct MB as (MA & OH). split.
  { destruct OH as (p & (s & Ip) & P0). exists s, p. split; [|exact P0]. rewrite Ho. apply in_or_app. left. exact Ip. }
  intros I2. rewrite (flag_role _ _ Sf). destruct T2 as [->|(ev2 & -> & T2 & C2)].
  - apply hist_last in Hh as (_ & -> & _). exact MA.
  - replace (h ++ [ev; ev2]) with ((h ++ [ev]) ++ [ev2]) in Hh by (rewrite <- app_assoc; reflexivity).
    assert (R2 : role_before ev2 = Master).
    { pose proof (hist_last _ _ _ _ _ Hh) as (Hp & _). apply hist_last in Hp as (_ & Eq & _). unfold role_before. rewrite Eq. exact MA. }
    pose proof (no_contact_keeps_master _ _ _ _ (ex_intro _ _ Hh) R2) as K.
    apply hist_last in Hh as (_ & -> & _). apply K. intros q [C' _]. congruence.
Qed.
Print Assumptions C97_return_takes_over.

Lemma last_seen_exists e t0 h n : hist e t0 h n -> exists s, last_seen h s /\ (s = 0 \/ exists x, In x h /\ s = at_ x).
Proof.
  intros H. pattern h, n. revert h n H. apply (hist_ind2 e t0).
  - intros. exists 0. split; [|auto]. left. split; [reflexivity|]. intros ? [].
  - intros h ev H IH G O L1 L2 S. destruct (seen_dec e ev G O S) as [Y|N].
    + exists (at_ ev). split; [|right; exists ev; split; [apply in_or_app; right; left; reflexivity|reflexivity]].
      right. exists h, ev, []. split; [reflexivity|]. split; [exact Y|]. split; [reflexivity|]. intros ? [].
    + destruct IH as (s & LS & AT). exists s. split.
      * destruct LS as [[-> LS]|(h1 & x & h2 & -> & Y & -> & LS)]; [left; split; [reflexivity|]|right].
        -- intros y I. apply in_app_or in I as [I|[<-|[]]]; auto.
        -- exists h1, x, (h2 ++ [ev]). split; [rewrite <- app_assoc; reflexivity|]. split; [exact Y|]. split; [reflexivity|].
           intros y I. apply in_app_or in I as [I|[<-|[]]]; auto.
      * destruct AT as [->|(x & I & ->)]; [auto|]. right. exists x. split; [apply in_or_app; auto|reflexivity].
Qed.

(** If the outage is longer than a minute, the returning slave moreover changes the
    effect of the whole network as soon as it gets round to it, here in the second
    half of the same pass. *)
Theorem C97_return_changes_effect : forall e fl d b o t0 ts ws us w n1 n2 out,
  resumes e fl d b o t0 ts ws us w n1 n2 out -> us <> [] ->
  quiet_until t0 ts us (fw_now1 w - 60000) -> fw_now2 w + 60000 < wrap ->
  GetCurrentState n1 = Slave -> fw_inc1 w = None -> fw_inc2 w = None -> fw_now1 w + 1 < fw_now2 w < fw_now1 w + 1000 ->
  exists q, In (Own ByChange q) out.
Proof.
  intros e fl d b o t0 ts ws us w n1 n2 out [A D X F S SO ON ORD (n & f & log & f2 & pics & H & E1 & E2)] NE Q W SL I1 I2 TT.
  destruct Q as (Q0 & Q1 & Q2).
  destruct (return_history e fl d b o t0 ts n ws us w f n1 log f2 n2 out pics A D H X F S SO E1 E2 ON) as
    (h & ev & h2 & m2 & Hh & Sf & Rb & AT & NS & T1 & C1 & Ho & T2 & N2).
  { split; [lia|]. split; [lia|]. intros c I. apply Q2 in I. lia. } { lia. }
  destruct T2 as [T2|(ev2 & -> & T2 & C2)]; [destruct (N2 NE T2)|].
  rewrite SL in Rb.
  replace (h ++ [ev; ev2]) with ((h ++ [ev]) ++ [ev2]) in Hh by (rewrite <- app_assoc; reflexivity).
  assert (HP : history e t0 (h ++ [ev])) by exact (hist_prefix _ _ _ _ _ Hh).
  assert (OLD : forall x, In x h -> at_ x + 60000 < fw_now1 w).
  { intros x I. destruct (AT x I) as [<-|[<-|(c & J & <-)]]; [lia|lia|]. apply Q2 in J. lia. }
  assert (AP : api_ok ((h ++ [ev]) ++ [ev2])).
  { intros x q I C. exfalso. apply in_app_or in I as [I|[<-|[]]]; [|congruence].
    apply in_app_or in I as [I|[<-|[]]]; [exact (NS x q I C)|congruence]. }
  assert (BW : all_before (wrap - 7000) t0 ((h ++ [ev]) ++ [ev2])).
  { split; [lia|]. intros x I. apply in_app_or in I as [I|[<-|[]]]; [|lia].
    apply in_app_or in I as [I|[<-|[]]]; [apply OLD in I; lia|lia]. }
  assert (B : all_before (wrap - 7000) t0 (h ++ [ev])).
  { destruct BW as [B1 B2]. split; [exact B1|]. intros x I. apply B2. apply in_or_app. auto. }
  assert (PF : forall hh x i, history e t0 (hh ++ [x]) -> call x = OTick i -> i = None -> packet_free x).
  { intros hh x i [q HQ] C ->. apply hist_last in HQ as (_ & _ & _ & _ & _ & _ & St).
    apply (step_packet_free e x St). exists None. split; [exact C|reflexivity]. }
  destruct (C18_silent_network_gets_a_master e t0 h ev HP B Rb (PF _ _ _ HP C1 I1) ltac:(lia)) as (RA & p & Sp & P0 & _).
  { intros x I _. apply OLD in I. lia. }
  pose proof HP as [q0 HP0]. pose proof (hist_last _ _ _ _ _ HP0) as (HH & _).
  destruct (last_seen_exists _ _ _ _ HH) as (s & LS & AS).
  pose proof (hist_t0 _ _ _ _ HH) as P0t.
  assert (SOLD : s + 60000 < at_ ev).
  { destruct AS as [->|(x & I & ->)]; [lia|]. apply OLD in I. lia. }
  destruct (C33_cadence_survives_change_of_master e t0 h ev s HP (conj Rb RA) LS ltac:(lia)) as [_ K]. specialize (K SOLD).
  assert (R2 : role_before ev2 = Master).
  { pose proof (hist_last _ _ _ _ _ Hh) as (Hp & _). apply hist_last in Hp as (_ & Eq & _). unfold role_before. rewrite Eq. exact RA. }
  assert (R3 : role_after ev2 = Master).
  { apply (no_contact_keeps_master _ _ _ _ (ex_intro _ _ Hh) R2). intros q [C' _]. congruence. }
  destruct (K [] ev2) as [_ K2].
  - cbn [app]. exists m2. exact Hh.
  - cbn [app]. destruct BW as [B1 B2]. split; [unfold wrap in *; lia|]. intros x I. apply B2 in I. lia.
  - intros x [<-|[]]. split; [exact R2|]. split; [exact R3|]. split.
    + intros q [C' _]. congruence.
    + intros q. congruence.
  - intros x [].
  - destruct K2 as [q K2].
    + lia.
    + exact (PF _ _ _ (ex_intro _ _ Hh) C2 I2).
    + intros OH. assert (OH1 : own_heartbeat ev) by (exists p; split; [exists ByHeartbeat; rewrite Sp; left; reflexivity|exact P0]).
      pose proof (C20_heartbeats_apart e t0 h ev [] ev2) as AP2. cbn [app] in AP2.
      replace (h ++ [ev; ev2]) with ((h ++ [ev]) ++ [ev2]) in AP2 by (rewrite <- app_assoc; reflexivity).
      specialize (AP2 (ex_intro _ _ Hh) AP BW OH1 OH). lia.
    + exists q. rewrite Ho. apply in_or_app. right. cbn [map concat]. rewrite app_nil_r. exact K2.
Qed.
Print Assumptions C97_return_changes_effect.


(** ** A node that hears a master, runs out of battery, and comes back 90 s later *)

Definition pass_at (t : Z) (r : reading) (inc : option packet) : fworld := mkFWorld r t t inc (t + 2) None (fun _ => t + 2).
Definition C97_device : device := DeviceDescription 500 [StripDescription 3 []].
Definition C97_offsets : offsets := mkOffsets 0 0 0.
Definition C97_before : list fworld :=
  [pass_at 2000 (mkReading false 0) (Some (effect_pkt 7 14 5 3)); pass_at 4000 (mkReading true 900) (Some (heartbeat_pkt 8 5000));
   pass_at 5000 (mkReading true 820) None; pass_at 6000 (mkReading true 850) None].
Definition C97_back : fworld := pass_at 95000 (mkReading true 889) None.
Definition C97_uses : list use :=
  [UTick 2000 (Some (effect_pkt 7 14 5 3)) 2002 None; UTick 4000 (Some (heartbeat_pkt 8 5000)) 4002 None].

Fixpoint expired_check (xs : list reading) : bool :=
  match xs with [] => true | x :: xs => (if expired x then forallb expired xs else true) && expired_check xs end.
Lemma expired_check_ok xs : expired_check xs = true -> stays_expired xs.
Proof.
  induction xs as [|z xs IH]; intros C a x m y c E Ex; [destruct a; discriminate|].
  cbn [expired_check] in C. apply andb_true_iff in C as [C1 C2]. destruct a as [|z' a]; injection E as -> ->.
  - rewrite Ex in C1. rewrite forallb_forall in C1. apply C1. apply in_or_app. right. left. reflexivity.
  - exact (IH C2 a x m y c eq_refl Ex).
Qed.

Lemma C97_off : off_after 830 888 (readings C97_before) /\ ~ off_after 830 888 (readings (C97_before ++ [C97_back])) /\
  stays_expired (readings (C97_before ++ [C97_back])) /\ served C97_before C97_uses.
Proof.
  assert (NIL : ~ off_after 830 888 []) by apply off_nil.
  set (r1 := mkReading false 0). set (r2 := mkReading true 900). set (r3 := mkReading true 820). set (r4 := mkReading true 850). set (r5 := mkReading true 889).
  assert (O1 : ~ off_after 830 888 [r1]) by (rewrite (off_snoc 830 888 [] r1) by lia; exact NIL).
  assert (O2 : ~ off_after 830 888 [r1; r2]) by (rewrite (off_snoc 830 888 [r1] r2) by lia; cbn; lia).
  assert (O3 : off_after 830 888 [r1; r2; r3]) by (rewrite (off_snoc 830 888 [r1; r2] r3) by lia; cbn; lia).
  assert (O4 : off_after 830 888 [r1; r2; r3; r4]) by (rewrite (off_snoc 830 888 [r1; r2; r3] r4) by lia; cbn; right; split; [exact O3|lia]).
  assert (O5 : ~ off_after 830 888 [r1; r2; r3; r4; r5]) by (rewrite (off_snoc 830 888 [r1; r2; r3; r4] r5) by lia; cbn; lia).
  split; [exact O4|]. split; [exact O5|]. split.
  - apply expired_check_ok. reflexivity.
  - change C97_before with (((([] ++ [nth 0 C97_before C97_back]) ++ [nth 1 C97_before C97_back]) ++ [nth 2 C97_before C97_back]) ++ [nth 3 C97_before C97_back]).
    change C97_uses with (([] ++ [nth 0 C97_uses (USetNumEffects 0 0)]) ++ [nth 1 C97_uses (USetNumEffects 0 0)]).
    apply served_off; [apply served_off; [apply served_on; [apply served_on; [apply served_start|]|]|]|]; assumption.
Qed.

Lemma C97_drawable : drawable C97_device.
Proof. split; [repeat constructor; vm_compute; congruence|]. split; [vm_compute; split; congruence|]. repeat constructor. Qed.

Lemma two_logs (a1 a2 : outcome (fancy * node * list (list rtx * list (list rgb)))) :
  match a1, a2 with
  | Ok (_, m1, l1), Ok (_, _, l2) => GetCurrentState m1 = Slave /\ firstn 4 l2 = l1 /\ length l2 = 5%nat
  | _, _ => False end ->
  exists n1 n2 out f log f2 pics, a1 = Ok (f, n1, log) /\ a2 = Ok (f2, n2, log ++ [(out, pics)]) /\ GetCurrentState n1 = Slave.
Proof.
  destruct a1 as [[[f n1] log]| |]; [|intros []..]. destruct a2 as [[[f2 n2] log2]| |]; [|intros []..].
  intros (K1 & K2 & K3). destruct log2 as [|x1 [|x2 [|x3 [|x4 [|[out pics] [|]]]]]]; try discriminate K3. subst log.
  exists n1, n2, out, f, [x1; x2; x3; x4], f2, pics. auto.
Qed.

Example C97_example : exists n1 n2 out,
  resumes (env0 Arduino) fl_ref C97_device None C97_offsets 0 10 C97_before C97_uses C97_back n1 n2 out /\
  quiet_until 0 10 C97_uses (fw_now1 C97_back - 60000) /\ C97_uses <> [] /\ GetCurrentState n1 = Slave /\
  off_after 830 888 (readings C97_before) /\
  fw_inc1 C97_back = None /\ fw_inc2 C97_back = None /\ fw_now1 C97_back + 1 < fw_now2 C97_back < fw_now1 C97_back + 1000.
Proof.
  destruct C97_off as (O1 & O2 & O3 & O4).
  assert (G : exists n1 n2 out f log f2 pics,
    fancy_program (env0 Arduino) fl_ref C97_device None C97_offsets C97_before (start (env0 Arduino) 0) = Ok (f, n1, log) /\
    fancy_program (env0 Arduino) fl_ref C97_device None C97_offsets (C97_before ++ [C97_back]) (start (env0 Arduino) 0) = Ok (f2, n2, log ++ [(out, pics)]) /\
    GetCurrentState n1 = Slave).
  { refine (two_logs _ _ _). vm_compute. auto. }
  destruct G as (n1 & n2 & out & f & log & f2 & pics & E1 & E2 & SL). exists n1, n2, out.
  split; [|split; [|split; [|split; [|split; [|split; [|split]]]]]].
  - constructor.
    + reflexivity.
    + apply C97_drawable.
    + exact O3.
    + repeat constructor; cbn; try lia; try exact Logic.I; try (apply wf_packetb_ok; vm_compute; reflexivity); vm_compute; congruence.
    + exact O4.
    + cbn. repeat split; try lia; try exact Logic.I; apply wf_packetb_ok; vm_compute; reflexivity.
    + exact O2.
    + cbn. unfold wrap. lia.
    + exists (start (env0 Arduino) 0), f, log, f2, pics. split; [apply (execute_hist (env0 Arduino) 0 []); [lia|reflexivity]|].
      split; [exact E1|exact E2].
  - split; [cbn; lia|]. split; [cbn; lia|]. intros c I. cbn in I. repeat (destruct I as [<-|I]; [cbn; lia|]). destruct I.
  - discriminate.
  - exact SL.
  - exact O1.
  - reflexivity.
  - reflexivity.
  - cbn. lia.
Qed.
