(** Start-up animation and watchdog: C87, C88. *)
From Coq Require Import ZArith Lia List Bool.
From Coq Require Import ZifyBool.
From Verif Require Import CInt CIntFacts Packet HwFacts Fastled Device LedMgr Boot.
Import ListNotations.
Open Scope Z_scope.
Ltac Zify.zify_post_hook ::= Z.div_mod_to_equations.

(** ** C87: start-up animation *)

(** A picture of k LEDs in which only LED i is lit. *)
Definition only (k i : nat) (c : rgb) : list rgb :=
  repeat (mkRGB 0 0 0) i ++ c :: repeat (mkRGB 0 0 0) (k - i - 1).
Definition dark (k : nat) : list rgb := repeat (mkRGB 0 0 0) k.

Lemma clear_dark buf : clear buf = dark (length buf).
Proof. unfold clear, dark. induction buf; cbn; congruence. Qed.

Lemma repeat_split {A} (x : A) i k : (i < k)%nat -> repeat x k = repeat x i ++ x :: repeat x (k - i - 1).
Proof.
  intros H. replace k with (i + S (k - i - 1))%nat at 1 by lia. rewrite repeat_app. reflexivity.
Qed.

Lemma set_only k i c x : (i < k)%nat -> list_set (only k i x) i c = only k i c.
Proof.
  intros H. unfold only. pose proof (list_set_app (repeat (mkRGB 0 0 0) i) (repeat (mkRGB 0 0 0) (k - i - 1)) c x) as E.
  rewrite repeat_length in E. exact E.
Qed.
Lemma set_dark k i c : (i < k)%nat -> list_set (dark k) i c = only k i c.
Proof. intros H. unfold dark. rewrite (repeat_split _ i k H). apply (set_only k i c (mkRGB 0 0 0) H). Qed.
Lemma only_length k i c : (i < k)%nat -> length (only k i c) = k.
Proof. intros H. unfold only. rewrite app_length. cbn [length]. rewrite !repeat_length. lia. Qed.
Lemma dark_length k : length (dark k) = k.
Proof. apply repeat_length. Qed.

Section Startup.
Variable fl : fastled.
Variable d : device.
Let n : Z := GetLedCount d.
Let k : nat := Z.to_nat (n + 1).

Lemma n_range : 0 <= n < 256.
Proof. unfold n, GetLedCount, u8. change (2 ^ 8) with 256. lia. Qed.

Lemma setled_eq i c buf : n <> 1 -> 0 <= i < n -> length buf = k ->
  SetLed Arduino FastLed d (u8 i) c buf = Ok (list_set buf (Z.to_nat (i + 1)) c).
Proof.
  intros N I L. pose proof n_range as R. unfold SetLed. fold n. destruct (n =? 1) eqn:E; [lia|]. cbn [andb obind].
  rewrite u8_id by (unfold is_byte; lia). apply aset_ok. rewrite L. unfold k. lia.
Qed.

Lemma sweeps_eq pause is : n <> 1 -> (forall i, In i is -> 0 <= i < n) -> forall buf, length buf = k ->
  exists b, length b = k /\ sweeps d pause is buf =
    Ok (b, map (fun i => (only k (Z.to_nat (i + 1)) (mkRGB 128 128 128), pause)) is).
Proof.
  intros N. pose proof n_range as R. induction is as [|i is IH]; intros I buf L; [exists buf; auto|].
  cbn [sweeps map]. unfold sweep. rewrite setled_eq, clear_dark, L; [|exact N|apply I; now left|rewrite clear_dark, dark_length; exact L].
  pose proof (I i (or_introl eq_refl)) as Ii. rewrite set_dark by (unfold k; lia). cbn [obind].
  destruct (IH ltac:(intros j J; apply I; now right) (only k (Z.to_nat (i + 1)) (mkRGB 128 128 128))) as (b & Lb & E);
    [apply only_length; unfold k; lia|].
  exists b. split; [exact Lb|]. rewrite E. reflexivity.
Qed.

Lemma hues_eq pause is : n <> 1 -> 0 < n -> forall buf, length buf = k ->
  (buf = dark k \/ exists x, buf = only k (Z.to_nat n) x) ->
  exists b, length b = k /\ hues fl d pause is buf =
    Ok (b, map (fun i => (only k (Z.to_nat n) (fl_hsv2rgb fl (mkHSV (u8 i) 255 128)), pause)) is).
Proof.
  intros N P. pose proof n_range as R. induction is as [|i is IH]; intros buf L F; [exists buf; auto|].
  cbn [hues map]. fold n. rewrite setled_eq by (try assumption; lia).
  replace (n - 1 + 1) with n by lia.
  assert (E : list_set buf (Z.to_nat n) (fl_hsv2rgb fl (mkHSV (u8 i) 255 128)) = only k (Z.to_nat n) (fl_hsv2rgb fl (mkHSV (u8 i) 255 128))).
  { destruct F as [->|[x ->]]; [apply set_dark|apply set_only]; unfold k; lia. }
  rewrite E. cbn [obind].
  destruct (IH (only k (Z.to_nat n) (fl_hsv2rgb fl (mkHSV (u8 i) 255 128)))) as (b & Lb & Eb); [apply only_length; unfold k; lia|eauto|].
  exists b. split; [exact Lb|]. rewrite Eb. reflexivity.
Qed.

Lemma upto_in m i : In i (upto m) -> 0 <= i < m.
Proof. unfold upto. rewrite in_map_iff. intros (j & <- & J). apply in_seq in J. lia. Qed.

(** C87: with 2 to 255 LEDs, the LEDs light up white one at a time in order, then
    the last one shows every hue once, then the LEDs light up in reverse order,
    and finally everything is dark; the board's own LED stays dark. *)
Theorem C87_startup_tests_every_led : 2 <= n ->
  let pause := Z.max (500 / n) (n / 30 + 1) in
  let up := map (fun i => (only k (Z.to_nat (i + 1)) (mkRGB 128 128 128), pause)) (upto n) in
  PlayStartupAnimation fl d (new_leds d) =
    Ok (dark k, up ++ map (fun i => (only k (Z.to_nat n) (fl_hsv2rgb fl (mkHSV i 255 128)), n / 30 + 1)) (upto 256)
             ++ rev up ++ [(dark k, 0)]).
Proof.
  intros N pause up. pose proof n_range as R. unfold PlayStartupAnimation. fold n. cbv zeta.
  assert (U : u16 n = n) by (apply u16_id; lia). rewrite U. unfold udiv. destruct (n =? 0) eqn:E0; [lia|]. cbn [obind].
  assert (U1 : u16 (500 / n) = 500 / n) by (apply u16_id; lia).
  assert (U2 : u16 (n / 30 + 1) = n / 30 + 1) by (apply u16_id; lia). rewrite U1, U2. fold pause.
  assert (L0 : length (new_leds d) = k) by (unfold new_leds; rewrite repeat_length; unfold buffer_size; fold n; reflexivity).
  destruct (sweeps_eq pause (upto n) ltac:(lia) (upto_in n) (new_leds d) L0) as (b1 & L1 & E1). rewrite E1. cbn [obind].
  destruct (hues_eq (n / 30 + 1) (upto 256) ltac:(lia) ltac:(lia) (clear b1)) as (b2 & L2 & E2);
    [rewrite clear_dark, dark_length; exact L1|left; rewrite clear_dark, L1; reflexivity|]. rewrite E2. cbn [obind].
  destruct (sweeps_eq pause (rev (upto n)) ltac:(lia) ltac:(intros i I; apply upto_in, in_rev, I) b2 L2) as (b3 & L3 & E3).
  rewrite E3. cbn [obind]. rewrite clear_dark, L3, map_rev. fold up.
  rewrite (map_ext_in _ (fun i => (only k (Z.to_nat n) (fl_hsv2rgb fl (mkHSV i 255 128)), n / 30 + 1)) (upto 256)); [reflexivity|].
  intros i I. apply upto_in in I. rewrite u8_id by (unfold is_byte; lia). reflexivity.
Qed.

(** It always ends, between 1.2 s and 7 s after it began. *)
Theorem C87_startup_takes_a_few_seconds : forall b fs, 2 <= n ->
  PlayStartupAnimation fl d (new_leds d) = Ok (b, fs) ->
  1200 <= fold_right Z.add 0 (map snd fs) <= 7000.
Proof.
  intros b fs N E. pose proof n_range as R. rewrite (C87_startup_tests_every_led N) in E. cbv zeta in E.
  match type of E with Ok (_, ?l) = _ => assert (EF : fs = l) by congruence end. rewrite EF. clear E EF.
  rewrite !map_app, map_rev, !map_map. cbn [snd map fst].
  assert (S : forall (l : list Z) c, fold_right Z.add 0 (map (fun _ => c) l) = Z.of_nat (length l) * c).
  { intros l c. induction l; [reflexivity|]. cbn [map fold_right length]. lia. }
  assert (A : forall l m, fold_right Z.add 0 (l ++ m) = fold_right Z.add 0 l + fold_right Z.add 0 m).
  { intros l m. induction l; cbn [app fold_right]; lia. }
  assert (RV : forall l, fold_right Z.add 0 (rev l) = fold_right Z.add 0 l).
  { intros l. induction l; [reflexivity|]. cbn [rev]. rewrite A, IHl. cbn [fold_right]. lia. }
  rewrite !A, RV, !S. cbn [fold_right]. unfold upto. rewrite !map_length, !seq_length, !Z2Nat.id by lia.
  set (q := n / 30). assert (Q : 30 * q <= n < 30 * q + 30 /\ 0 <= q <= 8) by (unfold q; lia).
  set (h := 500 / n). assert (H : n * h <= 500 < n * h + n).
  { unfold h. pose proof (Z.div_mod 500 n ltac:(lia)). pose proof (Z.mod_pos_bound 500 n ltac:(lia)). lia. }
  clearbody q h. clear - Q H N R. destruct (Z.max_spec h (q + 1)) as [[X ->]|[X ->]]; nia.
Qed.
End Startup.
Print Assumptions C87_startup_tests_every_led.
Print Assumptions C87_startup_takes_a_few_seconds.

(** With a single LED, the board's own LED shows the same; it takes 1256 ms. *)
Theorem C87_startup_with_one_led : forall fl d, GetLedCount d = 1 ->
  let both c := [c; c] in
  let fs := (both (mkRGB 128 128 128), 500) ::
    map (fun i => (both (fl_hsv2rgb fl (mkHSV i 255 128)), 1)) (upto 256) ++
    [(both (mkRGB 128 128 128), 500); (both (mkRGB 0 0 0), 0)] in
  PlayStartupAnimation fl d (new_leds d) = Ok (both (mkRGB 0 0 0), fs) /\ fold_right Z.add 0 (map snd fs) = 1256.
Proof.
  intros fl d N both fs. split; [|reflexivity].
  assert (S : forall c x y, SetLed Arduino FastLed d 0 c [x; y] = Ok (both c)).
  { intros c x y. unfold SetLed. rewrite N. reflexivity. }
  assert (W : forall p x y, sweeps d p [0] [x; y] = Ok (both (mkRGB 128 128 128), [(both (mkRGB 128 128 128), p)])).
  { intros p x y. cbn [sweeps]. unfold sweep. change (u8 0) with 0. cbn [clear map]. rewrite S. reflexivity. }
  assert (H : forall p is x y, (forall i, In i is -> 0 <= i < 256) -> exists x' y', hues fl d p is [x; y] =
    Ok ([x'; y'], map (fun i => (both (fl_hsv2rgb fl (mkHSV i 255 128)), p)) is)).
  { intros p is. induction is as [|i is IH]; intros x y I; [exists x, y; reflexivity|].
    cbn [hues map]. rewrite N. change (u8 (1 - 1)) with 0. rewrite S. cbn [obind]. unfold both at 1.
    pose proof (I i (or_introl eq_refl)) as Ii. rewrite (u8_id i) by (unfold is_byte; lia).
    destruct (IH (fl_hsv2rgb fl (mkHSV i 255 128)) (fl_hsv2rgb fl (mkHSV i 255 128)) ltac:(intros j J; apply I; right; exact J))
      as (x' & y' & E). exists x', y'. rewrite E. reflexivity. }
  unfold PlayStartupAnimation, new_leds, buffer_size. rewrite N.
  change (u16 1) with 1. cbv zeta. unfold udiv. cbn [Z.eqb obind]. change (Z.max (u16 (500 / 1)) (u16 (1 / 30 + 1))) with 500.
  change (u16 (1 / 30 + 1)) with 1. change (upto 1) with [0]. change (rev [0]) with [0].
  change (repeat (mkRGB 0 0 0) (Z.to_nat (1 + 1))) with [mkRGB 0 0 0; mkRGB 0 0 0]. rewrite W. cbn [obind].
  unfold both at 1. cbn [clear map].
  destruct (H 1 (upto 256) (mkRGB 0 0 0) (mkRGB 0 0 0) (upto_in d 256)) as (x' & y' & E). rewrite E. cbn [obind].
  rewrite W. cbn [obind]. reflexivity.
Qed.
Print Assumptions C87_startup_with_one_led.

(** Finding: a device described with no LED, or with exactly 256, divides by zero
    while it starts. *)
Theorem C87_no_leds_divides_by_zero : forall fl d, GetLedCount d = 0 -> PlayStartupAnimation fl d (new_leds d) = Undef.
Proof. intros fl d H. unfold PlayStartupAnimation. rewrite H. reflexivity. Qed.
Print Assumptions C87_no_leds_divides_by_zero.

Example C87_one_led_example : GetLedCount (DeviceDescription 1000 [mkStrip 1 0]) = 1.
Proof. reflexivity. Qed.

Example C87_example : exists d d', GetLedCount d = 3 /\ GetLedCount d' = 0 /\
  fold_left Z.add (map led_count (strips d')) 0 = 256.
Proof.
  exists (DeviceDescription 1000 [mkStrip 3 0]), (DeviceDescription 1000 [mkStrip 200 0; mkStrip 56 0]).
  vm_compute. auto.
Qed.

(** ** C88: watchdog *)

Definition total (ds : list Z) : Z := fold_right Z.add 0 ds.

Lemma total_nonneg ds : Forall (fun x => 0 <= x) ds -> 0 <= total ds.
Proof. induction 1; unfold total in *; cbn [fold_right]; lia. Qed.
Lemma Forall_firstn {A} (P : A -> Prop) m l : Forall P l -> Forall P (firstn m l).
Proof. intros H. rewrite <- (firstn_skipn m l) in H. apply Forall_app in H. tauto. Qed.
Lemma Forall_skipn {A} (P : A -> Prop) m l : Forall P l -> Forall P (skipn m l).
Proof. intros H. rewrite <- (firstn_skipn m l) in H. apply Forall_app in H. tauto. Qed.

Lemma watch_block P m : forall c s ds, Z.of_nat m = 7 - c -> 0 <= c <= 6 -> s < P -> Forall (fun x => 0 <= x) ds ->
  watch P c s ds = (s + total (firstn m ds) <? P) && watch P 1 0 (skipn m ds).
Proof.
  induction m as [|m IH]; intros c s ds M C S F; [lia|].
  destruct ds as [|d ds]; [cbn; lia|]. inversion F as [|? ? D F']; subst. cbn [watch firstn skipn]. cbv zeta.
  change (total (d :: firstn m ds)) with (d + total (firstn m ds)).
  pose proof (total_nonneg _ (Forall_firstn _ m _ F')) as T.
  destruct (Z.leb_spec P (s + d)) as [L|L].
  - destruct (Z.ltb_spec (s + (d + total (firstn m ds))) P); [lia|reflexivity].
  - destruct (Z.ltb_spec 5 c).
    + assert (m = 0%nat) by lia. subst m. cbn [firstn skipn]. change (total []) with 0.
      destruct (Z.ltb_spec (s + (d + 0)) P); [|lia]. reflexivity.
    + assert (U : u8 (c + 1) = c + 1) by (apply u8_id; unfold is_byte; lia). rewrite U, (IH (c + 1) (s + d) ds) by (try assumption; lia).
      f_equal. f_equal. lia.
Qed.

Lemma watch_fed P ds : 0 < P -> Forall (fun x => 0 <= x) ds ->
  watch P 1 0 ds = true <-> forall j, total (firstn 6 (skipn (6 * j) ds)) < P.
Proof.
  intros HP. remember (length ds) as len eqn:L. revert ds L. induction len as [len IH] using lt_wf_ind. intros ds -> F.
  rewrite (watch_block P 6 1 0 ds) by (auto; lia). rewrite andb_true_iff, Z.ltb_lt.
  destruct ds as [|d ds].
  - cbn. split; [|auto]. intros _ j. rewrite skipn_nil. cbn. lia.
  - assert (LT : (length (skipn 6 (d :: ds)) < length (d :: ds))%nat) by (rewrite skipn_length; cbn [length]; lia).
    rewrite (IH _ LT (skipn 6 (d :: ds)) eq_refl (Forall_skipn _ _ _ F)).
    split.
    + intros [A B] j. destruct j as [|j]; [exact A|]. replace (6 * S j)%nat with (6 + 6 * j)%nat by lia.
      specialize (B j). assert (SK : forall (a b : nat) (l : list Z), skipn (a + b) l = skipn b (skipn a l)).
      { clear. induction a; intros b l; [reflexivity|]. destruct l; [now rewrite !skipn_nil|]. apply IHa. }
      rewrite SK. exact B.
    + intros A. split; [exact (A 0%nat)|]. intros j. specialize (A (S j)). replace (6 * S j)%nat with (6 + 6 * j)%nat in A by lia.
      assert (SK : forall (a b : nat) (l : list Z), skipn (a + b) l = skipn b (skipn a l)).
      { clear. induction a; intros b l; [reflexivity|]. destruct l; [now rewrite !skipn_nil|]. apply IHa. }
      rewrite SK in A. exact A.
Qed.

(** C88: the watchdog is fed at the end of the 7th pass and then of every 6th.
    So the node keeps running exactly when the first 7 passes together, and then
    each further 6, take less than the watchdog's period. *)
Theorem C88_runs_iff : forall P ds, 0 < P -> Forall (fun x => 0 <= x) ds ->
  runs P ds = true <->
  total (firstn 7 ds) < P /\ forall j, total (firstn 6 (skipn (7 + 6 * j) ds)) < P.
Proof.
  intros P ds HP F. unfold runs. rewrite (watch_block P 7 0 0 ds) by (auto; lia).
  rewrite andb_true_iff, Z.ltb_lt, watch_fed by (auto using Forall_skipn). rewrite Z.add_0_l.
  assert (SK : forall (a b : nat) (l : list Z), skipn (a + b) l = skipn b (skipn a l)).
  { clear. induction a; intros b l; [reflexivity|]. destruct l; [now rewrite !skipn_nil|]. apply IHa. }
  split; intros [A B]; (split; [exact A|]); intros j; specialize (B j); rewrite SK in *; exact B.
Qed.
Print Assumptions C88_runs_iff.

(** With a period of 128 ms: passes of at most 18 ms never trip it, however many
    there are. *)
Theorem C88_fast_passes_never_reset : forall ds, Forall (fun x => 0 <= x <= 18) ds -> runs 128 ds = true.
Proof.
  intros ds F. assert (F0 : Forall (fun x => 0 <= x) ds) by (eapply Forall_impl; [|exact F]; cbn; lia).
  apply C88_runs_iff; [lia|exact F0|].
  assert (T : forall m l, Forall (fun x => 0 <= x <= 18) l -> total (firstn m l) <= 18 * Z.of_nat m).
  { intros m. induction m as [|m IH]; intros l Fl; [cbn; lia|]. destruct l as [|x l]; [cbn; lia|]. inversion Fl; subst.
    cbn [firstn]. change (total (x :: firstn m l)) with (x + total (firstn m l)). specialize (IH l ltac:(assumption)). lia. }
  split; [specialize (T 7%nat ds F); lia|]. intros j. specialize (T 6%nat (skipn (7 + 6 * j) ds) (Forall_skipn _ _ _ F)). lia.
Qed.
Print Assumptions C88_fast_passes_never_reset.

(** Passes of 19 ms reset the node in its 7th pass; one slow pass always does. *)
Theorem C88_slow_pass_resets : forall ds1 d ds2, Forall (fun x => 0 <= x) (ds1 ++ d :: ds2) -> 128 <= d -> runs 128 (ds1 ++ d :: ds2) = false.
Proof.
  intros ds1 d ds2 F D. unfold runs.
  assert (G : forall ds1 c s, Forall (fun x => 0 <= x) (ds1 ++ d :: ds2) -> 0 <= s -> watch 128 c s (ds1 ++ d :: ds2) = false).
  { clear ds1 F. induction ds1 as [|x l IH]; intros c s F S; cbn [app watch]; cbv zeta.
    - destruct (Z.leb_spec 128 (s + d)); [reflexivity|lia].
    - inversion F; subst. destruct (128 <=? s + x); [reflexivity|]. destruct (5 <? c); apply IH; auto; lia. }
  apply G; auto; lia.
Qed.
Print Assumptions C88_slow_pass_resets.

Example C88_example : runs 128 (repeat 18 100) = true /\ runs 128 (repeat 19 7) = false /\ runs 128 (repeat 18 7 ++ repeat 21 60) = true.
Proof. vm_compute. auto. Qed.
