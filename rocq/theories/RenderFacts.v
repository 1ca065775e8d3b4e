(** Facts about rendering. *)
From Coq Require Import ZArith Lia List Bool.
From Coq Require Import ZifyBool.
From Verif Require Import CInt CIntFacts Packet Fastled Device LedMgr SpecLed LedFacts.
Import ListNotations.
Open Scope Z_scope.
Ltac Zify.zify_post_hook ::= Z.div_mod_to_equations.

Lemma nth_error_list_set {A} (l : list A) : forall i v j,
  nth_error (list_set l i v) j = if Nat.eqb i j then option_map (fun _ => v) (nth_error l j) else nth_error l j.
Proof.
  induction l as [|a l IH]; intros [|i] v [|j]; cbn [list_set nth_error Nat.eqb option_map]; try reflexivity.
  - destruct (Nat.eqb i j); reflexivity.
  - apply IH.
Qed.
Lemma aset_ok {A} (l : list A) i v : 0 <= i < vsize l ->
  aset l i v = Ok (list_set l (Z.to_nat i) v) /\
  vsize (list_set l (Z.to_nat i) v) = vsize l /\
  aget (list_set l (Z.to_nat i) v) i = Ok v /\
  (forall j, j <> i -> aget (list_set l (Z.to_nat i) v) j = aget l j).
Proof.
  intros H. unfold vsize in *. split; [|split; [|split]].
  - unfold aset. destruct (i <? 0) eqn:E; [lia|].
    destruct (Nat.ltb_spec (Z.to_nat i) (length l)); [reflexivity|lia].
  - rewrite list_set_length. reflexivity.
  - unfold aget. destruct (i <? 0) eqn:E; [lia|]. rewrite nth_error_list_set, Nat.eqb_refl.
    destruct (nth_error l (Z.to_nat i)) eqn:N; [reflexivity|]. apply nth_error_None in N. lia.
  - intros j J. unfold aget. destruct (j <? 0) eqn:E; [reflexivity|].
    rewrite nth_error_list_set. destruct (Nat.eqb_spec (Z.to_nat i) (Z.to_nat j)); [lia|reflexivity].
Qed.
Lemma aset_out {A} (l : list A) i v : vsize l <= i -> aset l i v = Undef.
Proof.
  intros H. unfold vsize in H. unfold aset. destruct (i <? 0) eqn:E; [reflexivity|].
  destruct (Nat.ltb_spec (Z.to_nat i) (length l)); [lia|reflexivity].
Qed.

Lemma StripDescription_wf n l : wf_strip (StripDescription n l).
Proof. split; apply u8_range. Qed.
Ltac wf_strips := repeat (apply Forall_cons; [apply StripDescription_wf|]); apply Forall_nil.

Lemma leds_in_pos l : Forall wf_strip l -> 0 <= leds_in l.
Proof. induction 1 as [|s l [C _] _ IH]; cbn [leds_in]; lia. Qed.
Lemma leds_in_app l r : leds_in (l ++ r) = leds_in l + leds_in r.
Proof. induction l; cbn [leds_in app]; lia. Qed.

Lemma count_fold l : forall acc, Forall wf_strip l -> 0 <= acc ->
  u8 (fold_left (fun acc s => u16 (acc + led_count s)) l acc) = (acc + leds_in l) mod 256.
Proof.
  induction l as [|s l IH]; intros acc W A; cbn [fold_left leds_in].
  - rewrite Z.add_0_r. reflexivity.
  - inversion W as [|? ? [C F] W']; subst. rewrite IH; [|assumption|apply u16_range].
    unfold u16. lia.
Qed.
Lemma GetLedCount_eval d : Forall wf_strip (strips d) -> GetLedCount d = leds_in (strips d) mod 256.
Proof. intros W. unfold GetLedCount. rewrite count_fold by (auto; lia). reflexivity. Qed.

Section Loop.
Variables (pl : platform) (m : manager) (d : device) (pixel : strip -> Z -> Z -> outcome rgb)
  (picture : strip -> Z -> Z -> rgb) (clock : Z -> Z).
Hypothesis PX : forall s j t, In s (strips d) -> 0 <= j < led_count s -> pixel s j t = Ok (picture s j t).

Definition first_led : Z := match m with FastLed => 1 | Fake => 0 end.

Lemma led_colour_eval s j t : wf_strip s -> In s (strips d) -> 0 <= j < led_count s ->
  led_colour pixel s j t = Ok (shown picture s j t).
Proof.
  intros [C F] I J. unfold led_colour, shown.
  assert (V : (if FlagEnabled s Reversed then u8 (led_count s - j - 1) else j) =
              (if FlagEnabled s Reversed then led_count s - 1 - j else j)).
  { destruct (FlagEnabled s Reversed); [|reflexivity]. rewrite u8_id by lia. lia. }
  rewrite V. destruct (FlagEnabled s Off); [reflexivity|].
  rewrite PX by (auto; destruct (FlagEnabled s Reversed); lia). cbn [obind].
  destruct (FlagEnabled s Dim); reflexivity.
Qed.

Lemma SetLed_ok k c buf : vsize buf = buffer_size m d -> 0 <= k < GetLedCount d ->
  exists buf', SetLed pl m d k c buf = Ok buf' /\ vsize buf' = vsize buf /\
    aget buf' (first_led + k) = Ok c /\
    (m = FastLed -> GetLedCount d = 1 -> aget buf' 0 = Ok c) /\
    (forall x, x <> first_led + k -> (m = FastLed -> GetLedCount d = 1 -> x <> 0) -> aget buf' x = aget buf x).
Proof.
  intros B K. unfold SetLed, first_led. destruct m; unfold buffer_size in B.
  - destruct ((GetLedCount d =? 1) && (k =? 0)) eqn:E.
    + destruct (aset_ok buf 0 c) as (S1 & V1 & G1 & O1); [lia|]. rewrite S1. cbn [obind].
      destruct (aset_ok (list_set buf (Z.to_nat 0) c) (k + 1) c) as (S2 & V2 & G2 & O2); [lia|].
      eexists. split; [exact S2|]. split; [lia|].
      split; [replace (1 + k) with (k + 1) by lia; exact G2|].
      split; [intros _ _; rewrite O2 by lia; exact G1|].
      intros x X X0. rewrite O2 by lia. apply O1. apply X0; [reflexivity|lia].
    + cbn [obind]. destruct (aset_ok buf (k + 1) c) as (S2 & V2 & G2 & O2); [lia|].
      eexists. split; [exact S2|]. split; [lia|].
      split; [replace (1 + k) with (k + 1) by lia; exact G2|].
      split; [intros _ Q; lia|]. intros x X _. apply O2. lia.
  - assert (A : oassert pl (k <? GetLedCount d) = Ok tt).
    { unfold oassert. destruct (k <? GetLedCount d) eqn:E; [|lia]. destruct pl; reflexivity. }
    rewrite A. cbn [obind]. destruct (aset_ok buf k c) as (S2 & V2 & G2 & O2); [lia|].
    eexists. split; [exact S2|]. split; [lia|]. split; [exact G2|].
    split; [intros Q; discriminate|]. intros x X _. apply O2. lia.
Qed.

Definition out_of_buffer : outcome (list rgb) :=
  match m, pl with Fake, Host => Abort | _, _ => Undef end.

Lemma SetLed_out k c buf : vsize buf = buffer_size m d -> k = GetLedCount d -> SetLed pl m d k c buf = out_of_buffer.
Proof.
  intros B ->. unfold SetLed, out_of_buffer. destruct m; unfold buffer_size in B.
  - destruct (_ && _) eqn:E; [lia|]. cbn [obind]. apply aset_out. lia.
  - unfold oassert. destruct (_ <? _) eqn:E; [lia|]. destruct pl; [reflexivity|].
    cbn [obind]. apply aset_out. lia.
Qed.

Lemma strip_loop_ok : forall todo s i k buf, wf_strip s -> In s (strips d) ->
  vsize buf = buffer_size m d -> 0 <= i -> i + Z.of_nat todo = led_count s ->
  0 <= k -> k + Z.of_nat todo <= GetLedCount d ->
  exists buf', strip_loop pl m d pixel clock todo s i k buf = Ok (k + Z.of_nat todo, buf') /\ vsize buf' = vsize buf /\
    (forall j, 0 <= j < Z.of_nat todo ->
       aget buf' (first_led + k + j) = Ok (shown picture s (i + j) (clock (k + j)))) /\
    (m = FastLed -> GetLedCount d = 1 -> (0 < todo)%nat -> aget buf' 0 = Ok (shown picture s i (clock k))) /\
    (forall x, ~ first_led + k <= x < first_led + k + Z.of_nat todo ->
       (m = FastLed -> GetLedCount d = 1 -> (0 < todo)%nat -> x <> 0) -> aget buf' x = aget buf x).
Proof.
  induction todo as [|n IH]; intros s i k buf W I B I0 C K L; cbn [strip_loop].
  - exists buf. split; [f_equal; f_equal; lia|]. split; [reflexivity|].
    split; [intros; lia|]. split; [intros; lia|]. reflexivity.
  - assert (GL : GetLedCount d < 256) by (unfold GetLedCount; pose proof (u8_range (fold_left (fun acc s => u16 (acc + led_count s)) (strips d) 0)); lia).
    rewrite led_colour_eval by (auto; lia). cbn [obind]. rewrite u8_id by lia.
    destruct (SetLed_ok k (shown picture s i (clock k)) buf B) as (b1 & S1 & V1 & G1 & Z1 & O1); [lia|].
    rewrite S1. cbn [obind].
    destruct (IH s (i + 1) (k + 1) b1) as (b2 & S2 & V2 & G2 & Z2 & O2); auto; try lia.
    exists b2. rewrite S2. split; [f_equal; f_equal; lia|]. split; [lia|].
    assert (F : first_led = 0 \/ first_led = 1) by (unfold first_led; destruct m; auto).
    split; [|split].
    + intros j J. destruct (Z.eq_dec j 0) as [->|N].
      * rewrite !Z.add_0_r, O2, G1; [reflexivity|lia|].
        intros Q1 Q2 Q3. lia.
      * replace (first_led + k + j) with (first_led + (k + 1) + (j - 1)) by lia. rewrite G2 by lia.
        f_equal. f_equal; [lia|]. f_equal. lia.
    + intros Q1 Q2 _. rewrite O2, Z1; auto; [|intros; lia].
      unfold first_led. rewrite Q1. lia.
    + intros x X X0. rewrite O2, O1; [reflexivity|lia| |lia|].
      * intros. apply X0; auto; lia.
      * intros. apply X0; auto; lia.
Qed.

Lemma strip_loop_out : forall todo s i k buf, wf_strip s -> In s (strips d) ->
  vsize buf = buffer_size m d -> 0 <= i -> i + Z.of_nat todo = led_count s ->
  0 <= k -> k <= GetLedCount d < k + Z.of_nat todo ->
  strip_loop pl m d pixel clock todo s i k buf = match out_of_buffer with Abort => Abort | _ => Undef end.
Proof.
  induction todo as [|n IH]; intros s i k buf W I B I0 C K L; [lia|]. cbn [strip_loop].
  assert (GL : GetLedCount d < 256) by (unfold GetLedCount; pose proof (u8_range (fold_left (fun acc s => u16 (acc + led_count s)) (strips d) 0)); lia).
  rewrite led_colour_eval by (auto; lia). cbn [obind]. rewrite u8_id by lia.
  destruct (Z.eq_dec k (GetLedCount d)) as [Q|Q].
  - rewrite SetLed_out by auto. unfold out_of_buffer. destruct m, pl; reflexivity.
  - destruct (SetLed_ok k (shown picture s i (clock k)) buf B) as (b1 & S1 & V1 & _); [lia|].
    rewrite S1. cbn [obind]. apply IH; auto; lia.
Qed.

Lemma strips_loop_ok : forall ss k buf, Forall wf_strip ss -> (forall s, In s ss -> In s (strips d)) ->
  vsize buf = buffer_size m d -> 0 <= k -> k + leds_in ss <= GetLedCount d ->
  exists buf', strips_loop pl m d pixel clock ss k buf = Ok buf' /\ vsize buf' = vsize buf /\
    (forall pre s post j, ss = pre ++ s :: post -> 0 <= j < led_count s ->
       aget buf' (first_led + k + leds_in pre + j) = Ok (shown picture s j (clock (k + leds_in pre + j)))) /\
    (m = FastLed -> GetLedCount d = 1 -> 0 < leds_in ss ->
       aget buf' 0 = aget buf' 1) /\
    (forall x, ~ first_led + k <= x < first_led + k + leds_in ss ->
       (m = FastLed -> GetLedCount d = 1 -> 0 < leds_in ss -> x <> 0) -> aget buf' x = aget buf x).
Proof.
  induction ss as [|s ss IH]; intros k buf W I B K L; cbn [strips_loop leds_in] in *.
  - exists buf. split; [reflexivity|]. split; [reflexivity|]. split.
    + intros [|? ?] ? ? ? D; discriminate.
    + split; [intros; lia|]. reflexivity.
  - inversion W as [|? ? WS W']; subst. pose proof (leds_in_pos ss W') as LP. pose proof WS as [CS _].
    destruct (strip_loop_ok (Z.to_nat (led_count s)) s 0 k buf WS) as (b1 & S1 & V1 & G1 & Z1 & O1);
      auto; try lia; [apply I; left; reflexivity|].
    rewrite S1. cbn [obind]. rewrite Z2Nat.id in * by lia.
    destruct (IH (k + led_count s) b1) as (b2 & S2 & V2 & G2 & Z2 & O2); auto; try lia;
      [intros; apply I; right; assumption|].
    exists b2. split; [exact S2|]. split; [lia|].
    assert (F : first_led = 0 \/ first_led = 1) by (unfold first_led; destruct m; auto).
    split; [|split].
    + intros pre s' post j D J. destruct pre as [|p pre]; cbn [app] in D; injection D as <- D'.
      * cbn [leds_in]. rewrite !Z.add_0_r. rewrite O2, G1 by lia. f_equal.
      * cbn [leds_in]. rewrite D' in G2.
        replace (first_led + k + (led_count s + leds_in pre) + j) with (first_led + (k + led_count s) + leds_in pre + j) by lia.
        rewrite (G2 pre s' post j eq_refl J). f_equal. f_equal. f_equal. lia.
    + intros Q1 Q2 Q3. assert (FL : first_led = 1) by (unfold first_led; rewrite Q1; reflexivity).
      destruct (Z.eq_dec (led_count s) 0) as [Q|Q]; [apply Z2; auto; lia|].
      rewrite !O2 by (auto; lia).
      rewrite Z1 by (auto; lia).
      specialize (G1 0 ltac:(lia)). rewrite FL, !Z.add_0_r in G1.
      assert (k = 0) by lia. subst k. change (1 + 0) with 1 in G1. rewrite G1. reflexivity.
    + intros x X X0. rewrite O2, O1; [reflexivity|lia| |lia|]; intros; apply X0; auto; lia.
Qed.

Lemma strips_loop_out : forall ss k buf, Forall wf_strip ss -> (forall s, In s ss -> In s (strips d)) ->
  vsize buf = buffer_size m d -> 0 <= k <= GetLedCount d -> GetLedCount d < k + leds_in ss ->
  strips_loop pl m d pixel clock ss k buf = out_of_buffer.
Proof.
  induction ss as [|s ss IH]; intros k buf W I B K L; cbn [strips_loop leds_in] in *; [lia|].
  inversion W as [|? ? WS W']; subst. pose proof WS as [CS _].
  destruct (Z.le_gt_cases (k + led_count s) (GetLedCount d)) as [Q|Q].
  - destruct (strip_loop_ok (Z.to_nat (led_count s)) s 0 k buf WS) as (b1 & S1 & V1 & _);
      auto; try lia; [apply I; left; reflexivity|].
    rewrite S1. cbn [obind]. rewrite Z2Nat.id in * by lia.
    apply IH; auto; try lia. intros; apply I; right; assumption.
  - rewrite strip_loop_out; auto; try lia; [|apply I; left; reflexivity].
    unfold out_of_buffer. destruct m, pl; reflexivity.
Qed.
End Loop.
