(** Facts about the built-in table and the current effect. *)
From Coq Require Import ZArith Lia List Bool.
From Coq Require Import ZifyBool.
From Verif Require Import CInt CIntFacts Packet Fastled Maths Palette SpecColor PaletteFacts Device LedMgr SpecLed LedFacts RenderFacts
  Effects SpecEffect RgbFacts Show.
Import ListNotations.
Open Scope Z_scope.
Ltac Zify.zify_post_hook ::= Z.div_mod_to_equations.

(** The built-in table, index by index. *)
Definition effect_number (o : offsets) (i : Z) : effect :=
  nth (Z.to_nat i)
   ([ColorCycleEffect; ColorCycleEffect; ContrastBumpsEffect; ContrastBumpsEffect; FireEffect (fire_offset o);
     FireflyEffect (firefly_offset o); FireflyEffect (firefly_offset o); LightningEffect; PrideEffect;
     RainbowBumpsEffect; RainbowBumpsEffect; RainbowBumpsEffect; RainbowBumpsEffect;
     RainbowEffect; RainbowEffect; RainbowEffect; RainbowEffect;
     RorschachEffect (rorschach_offset o); RorschachEffect (rorschach_offset o);
     SparkEffect; SparkEffect; SparkEffect; SparkEffect;
     SwingingLights; SwingingLights; SwingingLights; SwingingLights] ++
    [SwingingLights; StopLightEffect; SimpleBlinkEffect 60; SimpleBlinkEffect 30; SimpleBlinkEffect 12;
     SimpleBlinkEffect 300; DisplayColorPaletteEffect; DarkEffect]) DarkEffect.

Lemma builtin_valid o : valid_regs (builtin o).
Proof. unfold builtin, valid_regs. repeat (apply Forall_cons; [cbn [snd]; lia|]). apply Forall_nil. Qed.
Lemma builtin_slots o : slots (builtin o) = 35 /\ entries (builtin o) = 27 /\ specials (builtin o) = 8.
Proof. repeat split; reflexivity. Qed.
Lemma LedManager_eval pl o : LedManager pl o = Ok (built (builtin o)).
Proof. apply built_eval; [apply builtin_valid|]. left. destruct (builtin_slots o) as (-> & _). lia. Qed.

Lemma get_builtin pl o i : 0 <= i < 35 -> GetEffect pl (built (builtin o)) i = Ok (effect_number o i).
Proof.
  intros I. destruct (builtin_slots o) as (S1 & S2 & S3).
  rewrite get_effect_eval by (try apply builtin_valid; lia). rewrite S2.
  assert (C : i = 0 \/ i = 1 \/ i = 2 \/ i = 3 \/ i = 4 \/ i = 5 \/ i = 6 \/ i = 7 \/ i = 8 \/ i = 9 \/ i = 10 \/
    i = 11 \/ i = 12 \/ i = 13 \/ i = 14 \/ i = 15 \/ i = 16 \/ i = 17 \/ i = 18 \/ i = 19 \/ i = 20 \/ i = 21 \/
    i = 22 \/ i = 23 \/ i = 24 \/ i = 25 \/ i = 26 \/ i = 27 \/ i = 28 \/ i = 29 \/ i = 30 \/ i = 31 \/ i = 32 \/
    i = 33 \/ i = 34) by lia.
  repeat (destruct C as [->|C]; [reflexivity|]). subst. reflexivity.
Qed.

(** Which effect a packet selects. *)
Lemma current_effect pl o p i k : asks_for pl p i k ->
  GetCurrentEffect pl (built (builtin o)) p =
  match pl with
  | Host => if i <? 35 then Ok (effect_number o i) else Abort
  | Arduino => Ok (effect_number o (i mod 35))
  end.
Proof.
  intros A. destruct (asked_bytes pl p i k A) as [[I1 I2] _].
  unfold GetCurrentEffect. rewrite (proj1 (proj2 A)).
  change (SET_EFFECT =? SET_CONTROL) with false. cbv iota.
  rewrite (effect_read pl p i k A). cbn [obind].
  destruct (builtin_slots o) as (S1 & S2 & S3).
  destruct pl.
  - destruct (i <? 35) eqn:E; [apply get_builtin; lia|].
    unfold GetEffect. cbn [built effects non_random_effects].
    rewrite ord_size, spc_size, S2, S3 by apply builtin_valid. change (u8 (27 + 8)) with 35.
    cbn [oassert]. rewrite E. reflexivity.
  - rewrite <- (get_builtin Arduino o (i mod 35)) by (apply Z.mod_pos_bound; lia).
    unfold GetEffect. cbn [built effects non_random_effects].
    rewrite ord_size, spc_size, S2, S3 by apply builtin_valid. change (u8 (27 + 8)) with 35.
    unfold umod. change (35 =? 0) with false. cbn [obind]. rewrite Z.mod_mod by lia. reflexivity.
Qed.
Lemma current_selected pl o p i k n : asks_for pl p i k -> selects pl i n ->
  GetCurrentEffect pl (built (builtin o)) p = Ok (effect_number o n) /\ 0 <= n < 35.
Proof.
  intros A [-> H]. rewrite (current_effect pl o p i k A). destruct (asked_bytes pl p i k A) as [[I1 I2] _].
  split; [|lia]. destruct pl; [|reflexivity]. specialize (H eq_refl).
  destruct (i <? 35) eqn:E; [|lia]. rewrite Z.mod_small by lia. reflexivity.
Qed.
Lemma not_selected o p i k n : asks_for Host p i k -> n = i mod 35 -> ~ selects Host i n ->
  GetCurrentEffect Host (built (builtin o)) p = Abort.
Proof.
  intros A -> H. rewrite (current_effect Host o p i k A). destruct (i <? 35) eqn:E; [|reflexivity].
  exfalso. apply H. split; [reflexivity|]. lia.
Qed.

(** Case analysis on an effect number. *)
Lemma below35 (P : Z -> Prop) : Forall P (map Z.of_nat (seq 0 35)) -> forall n, 0 <= n < 35 -> P n.
Proof.
  intros F n N. rewrite Forall_forall in F. apply F. apply in_map_iff. exists (Z.to_nat n).
  split; [lia|]. apply in_seq. lia.
Qed.

(** A colour depends on the packet through its palette only. *)
Lemma GetRGB_ext_effect pl fl e j t s p q : e <> ControlEffect -> packet_palette pl p = packet_palette pl q ->
  GetRGB pl fl e j t s p = GetRGB pl fl e j t s q.
Proof.
  intros N P. destruct e; cbn [GetRGB]; try reflexivity; try congruence;
  unfold ColorCycle_GetRGB, ContrastBumps_GetRGB, Firefly_GetRGB, Lightning_GetRGB, RainbowBumps_GetRGB,
    Rainbow_GetRGB, Rorschach_GetRGB, Spark_GetRGB, Swinging_GetRGB, SimpleBlink_GetRGB, DisplayColorPalette_GetRGB;
  rewrite P; reflexivity.
Qed.
Lemma current_control pl o p c : asks_for_colour pl p c -> GetCurrentEffect pl (built (builtin o)) p = Ok ControlEffect.
Proof. intros (W & T & _). unfold GetCurrentEffect. rewrite T. reflexivity. Qed.

Lemma Show_eval pl fl m d o p clock buf :
  Show pl fl m d o p clock buf = RunEffect pl m d (current_pixel pl fl (built (builtin o)) p) clock buf.
Proof. unfold Show. rewrite LedManager_eval. reflexivity. Qed.

(** RunEffect depends on the pixels and clock values only. *)
Lemma strip_loop_ext pl m d px px' clk clk' s : forall todo i k buf,
  (forall j q, px s j (clk q) = px' s j (clk' q)) ->
  strip_loop pl m d px clk todo s i k buf = strip_loop pl m d px' clk' todo s i k buf.
Proof.
  induction todo as [|n IH]; intros i k buf H; [reflexivity|]. cbn [strip_loop].
  unfold led_colour. rewrite H. destruct (if FlagEnabled s Off then _ else _); cbn [obind]; try reflexivity.
  destruct (SetLed _ _ _ _ _ _); cbn [obind]; try reflexivity. apply IH. exact H.
Qed.
Lemma RunEffect_ext pl m d px px' clk clk' buf :
  (forall s j q, In s (strips d) -> px s j (clk q) = px' s j (clk' q)) ->
  RunEffect pl m d px clk buf = RunEffect pl m d px' clk' buf.
Proof.
  intros H. unfold RunEffect. generalize 0. revert buf H. generalize (strips d) as ss.
  induction ss as [|s ss IH]; intros buf H k; [reflexivity|]. cbn [strips_loop].
  rewrite (strip_loop_ext pl m d px px' clk clk' s) by (intros; apply H; left; reflexivity).
  destruct (strip_loop _ _ _ _ _ _ _ _ _ _) as [[k' b]| |]; cbn [obind]; try reflexivity.
  apply IH. intros. apply H. right. assumption.
Qed.
