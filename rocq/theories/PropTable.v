(** C51-C54: effect table, unique numbering, destruction, strip flags. *)
From Coq Require Import ZArith Lia List Bool Permutation.
From Coq Require Import ZifyBool.
From Verif Require Import CInt CIntFacts Packet Fastled Device LedMgr SpecLed LedFacts.
Import ListNotations.
Open Scope Z_scope.
Ltac Zify.zify_post_hook ::= Z.div_mod_to_equations.

(** ** C51: layout *)
Theorem C51_layout : forall E pl (regs : list (E * Z)), valid_regs regs -> slots regs < 256 ->
  exists t, add_all pl empty_table regs = Ok t /\
    GetNumEffects t = entries regs /\ GetNumNonRandomEffects t = specials regs /\
    (* an ordinary effect occupies its proportion of consecutive entries *)
    (forall pre e p post i, regs = pre ++ (e, p) :: post ->
       entries pre <= i < entries pre + p -> GetEffect pl t i = Ok e) /\
    (* the special ones follow, one entry each *)
    (forall pre e post, regs = pre ++ (e, 0) :: post ->
       GetEffect pl t (entries regs + specials pre) = Ok e).
Proof.
  intros E pl regs V L. exists (built regs).
  pose proof (entries_pos regs V) as EP. pose proof (specials_pos regs) as SP.
  split; [apply built_eval; auto|].
  split.
  { unfold GetNumEffects. cbn [built effects]. rewrite ord_size by assumption. apply u8_id. unfold slots in L. lia. }
  split.
  { unfold GetNumNonRandomEffects. cbn [built non_random_effects]. rewrite spc_size. apply u8_id. unfold slots in L. lia. }
  split.
  - intros pre e p post i D I.
    assert (B : entries pre + p <= entries regs).
    { rewrite D, entries_app. cbn [entries snd]. rewrite D in V. apply valid_app in V as [_ V].
      inversion V as [|? ? ? V']. pose proof (entries_pos post V'). lia. }
    assert (0 <= entries pre) by (rewrite D in V; apply valid_app in V as [V _]; apply entries_pos; assumption).
    rewrite get_effect_eval by (unfold slots in *; auto; lia).
    destruct (i <? entries regs) eqn:C; [|lia].
    rewrite D, ord_app. rewrite D in V. apply valid_app in V as [V1 V2].
    rewrite aget_app_r by (rewrite ord_size by assumption; lia).
    rewrite ord_size by assumption. unfold ord. cbn [flat_map fst snd].
    rewrite aget_app_l by (rewrite vsize_repeat; lia). apply aget_repeat. lia.
  - intros pre e post D.
    assert (SL : specials pre < specials regs).
    { rewrite D, specials_app. unfold specials at 3. cbn [filter]. unfold is_ordinary at 1. cbn [snd].
      change (0 <? 0) with false. cbn [negb length]. lia. }
    pose proof (specials_pos pre).
    rewrite get_effect_eval by (unfold slots in *; auto; lia).
    destruct (_ <? entries regs) eqn:C; [lia|].
    replace (entries regs + specials pre - entries regs) with (vsize (spc pre)) by (rewrite spc_size; lia).
    rewrite D, spc_app. unfold spc at 2. cbn [filter]. unfold is_ordinary. cbn [snd].
    change (0 <? 0) with false. cbn [negb map fst]. apply aget_app_hd.
Qed.
Print Assumptions C51_layout.

(** Lookup never fails below the total; above it the host aborts and the device
    wraps around. *)
Theorem C51_lookup_total : forall E pl (regs : list (E * Z)) i, valid_regs regs -> slots regs < 256 -> 0 <= i < 256 ->
  exists t, add_all pl empty_table regs = Ok t /\
    (i < slots regs -> exists e, GetEffect pl t i = Ok e /\ In e (map fst regs)) /\
    (slots regs <= i -> pl = Host -> GetEffect pl t i = Abort) /\
    (0 < slots regs -> pl = Arduino -> GetEffect pl t i = GetEffect pl t (i mod slots regs)).
Proof.
  intros E pl regs i V L I. exists (built regs). pose proof (slots_pos regs V).
  split; [apply built_eval; auto|]. split; [|split].
  - intros B. rewrite get_effect_eval by (auto; lia).
    destruct (i <? entries regs) eqn:C.
    + destruct (aget_in (ord regs) i) as (e & G & J); [rewrite ord_size by assumption; lia|].
      exists e. split; [assumption|]. unfold ord in J. apply in_flat_map in J as (r & R1 & R2).
      apply repeat_spec in R2. subst. apply in_map. assumption.
    + destruct (aget_in (spc regs) (i - entries regs)) as (e & G & J); [rewrite spc_size; unfold slots in *; lia|].
      exists e. split; [assumption|]. unfold spc in J. apply in_map_iff in J as (r & <- & R).
      apply filter_In in R as [R _]. apply in_map. assumption.
  - intros B ->. unfold GetEffect. cbn [built effects non_random_effects].
    rewrite ord_size, spc_size by assumption. fold (slots regs). rewrite u8_id by lia.
    cbn [oassert]. destruct (i <? slots regs) eqn:C; [lia|]. reflexivity.
  - intros B ->. unfold GetEffect. cbn [built effects non_random_effects].
    rewrite ord_size, spc_size by assumption. fold (slots regs). rewrite u8_id by lia.
    unfold umod. destruct (slots regs =? 0) eqn:Z0; [lia|]. cbn [obind].
    rewrite Z.mod_mod by lia. reflexivity.
Qed.
Print Assumptions C51_lookup_total.

(** Too many registrations: the host aborts while registering; on the device a
    table of exactly 256 entries makes every lookup a division by zero. *)
Theorem C51_too_many : forall E (regs : list (E * Z)), valid_regs regs -> 256 <= slots regs ->
  add_all Host empty_table regs = Abort /\
  (slots regs = 256 -> exists t, add_all Arduino empty_table regs = Ok t /\ forall i, GetEffect Arduino t i = Undef).
Proof.
  intros E regs V L. split.
  - apply add_all_abort; [assumption| |]; cbn [empty_table effects non_random_effects]; unfold vsize; cbn [length]; lia.
  - intros S. exists (built regs). split; [apply built_eval; auto|]. intros i.
    unfold GetEffect. cbn [built effects non_random_effects]. rewrite ord_size, spc_size by assumption.
    fold (slots regs). rewrite S. reflexivity.
Qed.
Print Assumptions C51_too_many.

Definition demo_regs : list (nat * Z) := [(10%nat, 2); (11%nat, 0); (12%nat, 3); (13%nat, 0); (14%nat, 1)].
Example C51_example : valid_regs demo_regs /\ slots demo_regs = 8 /\
  match add_all Host empty_table demo_regs with
  | Ok t => map (GetEffect Host t) [0; 1; 2; 3; 4; 5; 6; 7; 8] =
            [Ok 10; Ok 10; Ok 12; Ok 12; Ok 12; Ok 14; Ok 11; Ok 13; Abort]%nat
  | _ => False
  end.
Proof. split; [repeat constructor; cbn; lia|]. vm_compute. auto. Qed.
Example C51_example_too_many : valid_regs [(1%nat, 200); (2%nat, 56)] /\ slots [(1%nat, 200); (2%nat, 56)] = 256.
Proof. split; [repeat constructor; cbn; lia | reflexivity]. Qed.

(** ** C52: unique numbering *)
Lemma starts_increasing E (regs : list (E * Z)) : forall k i j a b, valid_regs regs -> 0 <= k -> k + entries regs < 256 ->
  aget (starts k regs) i = Ok a -> aget (starts k regs) j = Ok b -> i < j -> k <= a /\ a < b < k + entries regs.
Proof.
  induction regs as [|[e p] regs IH]; intros k i j a b V K L A B I.
  - unfold aget in A. cbn [starts] in A. destruct (i <? 0); [discriminate|]. destruct (Z.to_nat i); discriminate.
  - inversion V as [|? ? P V']; subst. cbn [snd] in P. cbn [starts snd entries] in *.
    pose proof (entries_pos regs V').
    assert (LOW : forall x y, aget (starts (k + p) regs) x = Ok y -> k + p <= y < k + p + entries regs).
    { intros x y G. clear -V' G K P L H. revert x y G. revert k K L.
      induction V' as [|r regs P' V'' IH']; intros k K L x y G.
      - unfold aget in G. cbn [starts] in G. destruct (x <? 0); [discriminate|]. destruct (Z.to_nat x); discriminate.
      - pose proof (entries_pos regs V''). cbn [starts entries] in *.
        assert (REC : forall x, aget (starts (k + p + snd r) regs) x = Ok y -> k + p <= y < k + p + (snd r + entries regs)).
        { intros x' G'. replace (k + p + snd r) with (k + snd r + p) in G' by lia.
          apply IH' in G'; lia. }
        destruct (is_ordinary r) eqn:O; cbn [app] in G; [|apply REC in G; lia].
        unfold is_ordinary in O.
        destruct (Z.eq_dec x 0) as [->|N].
        + injection G as <-. rewrite u8_id by lia. lia.
        + change (u8 (k + p) :: starts (k + p + snd r) regs) with ([u8 (k + p)] ++ starts (k + p + snd r) regs) in G.
          destruct (Z.lt_ge_cases x 0); [unfold aget in G; destruct (x <? 0) eqn:X; [discriminate|lia]|].
          rewrite aget_app_r in G by (unfold vsize; cbn [length]; lia). apply REC in G. lia. }
    destruct (is_ordinary (e, p)) eqn:O; unfold is_ordinary in O; cbn [snd] in O; cbn [app] in A, B.
    + change (u8 k :: starts (k + p) regs) with ([u8 k] ++ starts (k + p) regs) in A, B.
      assert (0 <= i) by (unfold aget in A; destruct (i <? 0) eqn:X; [discriminate|lia]).
      rewrite aget_app_r in B by (unfold vsize; cbn [length]; lia).
      destruct (Z.eq_dec i 0) as [->|N].
      * injection A as <-. rewrite u8_id by lia. apply LOW in B. lia.
      * rewrite aget_app_r in A by (unfold vsize; cbn [length]; lia).
        destruct (IH (k + p) _ _ a b V' ltac:(lia) ltac:(lia) A B) as (Q1 & Q2);
          [unfold vsize; cbn [length]; lia | lia].
    + destruct (IH (k + p) _ _ a b V' ltac:(lia) ltac:(lia) A B I) as (Q1 & Q2). lia.
Qed.

Theorem C52_unique_numbers : forall E pl (regs : list (E * Z)), valid_regs regs -> slots regs < 256 ->
  exists t, add_all pl empty_table regs = Ok t /\
    GetNumUniqueEffects t = Z.of_nat (length regs) /\
    (* ordinary effects first, in order *)
    (forall pre e p post, regs = pre ++ (e, p) :: post -> 0 < p ->
       UniqueEffectNumberToIndex t (ordinaries pre) = Ok (entries pre) /\
       GetEffect pl t (entries pre) = Ok e) /\
    (* then the special ones, in order *)
    (forall pre e post, regs = pre ++ (e, 0) :: post ->
       UniqueEffectNumberToIndex t (ordinaries regs + specials pre) = Ok (entries regs + specials pre) /\
       GetEffect pl t (entries regs + specials pre) = Ok e) /\
    (* different numbers have different indices *)
    (forall k k', 0 <= k < k' -> k' < Z.of_nat (length regs) ->
       exists i i', UniqueEffectNumberToIndex t k = Ok i /\ UniqueEffectNumberToIndex t k' = Ok i' /\
                    0 <= i < i' /\ i' < slots regs).
Proof.
  intros E pl regs V L.
  destruct (C51_layout E pl regs V L) as (t & T & _ & _ & LO & SPC).
  assert (T' := T). rewrite built_eval in T' by auto. injection T' as <-.
  pose proof (entries_pos regs V) as EP. pose proof (specials_pos regs) as SP. pose proof (ordinaries_le regs V) as OL.
  assert (CNT : forall l : list (E * Z), Z.of_nat (length l) = ordinaries l + specials l).
  { induction l as [|r l IHl]; [reflexivity|]. unfold ordinaries, specials in *. cbn [filter length].
    destruct (is_ordinary r); cbn [negb length]; lia. }
  exists (built regs). split; [assumption|]. split.
  { unfold GetNumUniqueEffects. cbn [built uniqueEffectIndices non_random_effects].
    rewrite starts_size, spc_size, CNT. apply u8_id. unfold slots in L. pose proof (ordinaries_pos regs). lia. }
  split; [|split].
  - intros pre e p post D P. split.
    + unfold UniqueEffectNumberToIndex. cbn [built uniqueEffectIndices effects]. rewrite starts_size.
      assert (O : ordinaries pre < ordinaries regs).
      { rewrite D, ordinaries_app. unfold ordinaries at 3. cbn [filter]. unfold is_ordinary at 1. cbn [snd].
        destruct (0 <? p) eqn:X; [cbn [length]; lia | lia]. }
      destruct (_ <? _) eqn:C; [|lia]. rewrite D, starts_app. cbn [starts].
      unfold is_ordinary. cbn [snd]. destruct (0 <? p) eqn:X; [|lia]. cbn [app].
      rewrite <- (starts_size pre 0). rewrite aget_app_hd.
      assert (entries pre <= entries regs).
      { rewrite D, entries_app. cbn [entries snd]. rewrite D in V. apply valid_app in V as [_ V].
        inversion V as [|? ? ? V']. pose proof (entries_pos post V'). lia. }
      assert (0 <= entries pre) by (rewrite D in V; apply valid_app in V as [V _]; apply entries_pos; assumption).
      rewrite u8_id by (unfold slots in L; lia). f_equal.
    + apply (LO pre e p post); [assumption | lia].
  - intros pre e post D. split; [|eapply SPC; eassumption].
    unfold UniqueEffectNumberToIndex. cbn [built uniqueEffectIndices effects]. rewrite starts_size.
    pose proof (specials_pos pre). destruct (_ <? _) eqn:C; [lia|].
    rewrite ord_size by assumption.
    assert (specials pre < specials regs).
    { rewrite D, specials_app. unfold specials at 3. cbn [filter]. unfold is_ordinary at 1. cbn [snd].
      change (0 <? 0) with false. cbn [negb length]. lia. }
    f_equal. rewrite u8_id; [lia|]. unfold slots in L. lia.
  - intros k k' K K'. rewrite CNT in K'. unfold UniqueEffectNumberToIndex. cbn [built uniqueEffectIndices effects].
    rewrite starts_size, ord_size by assumption. unfold slots in *.
    destruct (k <? ordinaries regs) eqn:C.
    + destruct (aget_in (starts 0 regs) k) as (i & A & _); [rewrite starts_size; lia|].
      destruct (k' <? ordinaries regs) eqn:C'.
      * destruct (aget_in (starts 0 regs) k') as (i' & A' & _); [rewrite starts_size; lia|].
        exists i, i'. split; [assumption|]. split; [assumption|].
        pose proof (starts_increasing E regs 0 k k' i i' V ltac:(lia) ltac:(lia) A A' ltac:(lia)). lia.
      * exists i; eexists. split; [assumption|]. split; [reflexivity|].
        rewrite u8_id by lia.
        assert (0 <= i < entries regs); [|lia].
        clear -V A L EP SP. unfold aget in A. destruct (k <? 0); [discriminate|].
        destruct (nth_error (starts 0 regs) (Z.to_nat k)) as [x|] eqn:N; [|discriminate].
        injection A as ->. apply nth_error_In in N.
        assert (G : forall l k, valid_regs l -> 0 <= k -> k + entries l < 256 -> In i (starts (E := E) k l) -> k <= i < k + entries l).
        { clear. induction l as [|r l IH]; intros k V K L I; [destruct I|].
          inversion V as [|? ? P V']; subst. pose proof (entries_pos l V').
          cbn [starts entries] in *. apply in_app_or in I as [I|I].
          - destruct (is_ordinary r) eqn:O; [|destruct I]. unfold is_ordinary in O.
            destruct I as [<-|[]]. rewrite u8_id by lia. lia.
          - apply IH in I; auto; lia. }
        apply G in N; auto; lia.
    + destruct (k' <? ordinaries regs) eqn:C'; [lia|].
      do 2 eexists. split; [reflexivity|]. split; [reflexivity|]. pose proof (ordinaries_pos regs).
      rewrite !u8_id by lia. lia.
Qed.
Print Assumptions C52_unique_numbers.
Example C52_example :
  match add_all Host empty_table demo_regs with
  | Ok t => GetNumUniqueEffects t = 5 /\ map (UniqueEffectNumberToIndex t) [0; 1; 2; 3; 4] = [Ok 0; Ok 2; Ok 5; Ok 6; Ok 7]
  | _ => False
  end.
Proof. vm_compute. auto. Qed.

(** ** C53: every effect is freed exactly once *)
Theorem C53_freed_exactly_once : forall E pl (regs : list (E * Z)) control, valid_regs regs -> slots regs < 256 ->
  exists t freed, add_all pl empty_table regs = Ok t /\ destroy t control = Ok freed /\
    Permutation freed (map fst regs ++ [control]).
Proof.
  intros E pl regs control V L. exists (built regs). unfold destroy. cbn [built effects uniqueEffectIndices non_random_effects].
  change (starts 0 regs) with (starts (vsize (@nil E)) regs).
  rewrite (delete_indexed_eval (ord regs) [] regs V eq_refl)
    by (rewrite ord_size by assumption; unfold slots in L; pose proof (specials_pos regs); lia).
  cbn [obind]. eexists. split; [apply built_eval; auto|]. split; [reflexivity|].
  rewrite app_assoc. apply Permutation_app_tail. unfold spc. rewrite <- map_app. apply Permutation_map.
  clear. induction regs as [|r regs IH]; [constructor|]. cbn [filter].
  destruct (is_ordinary r); cbn [negb app].
  - constructor. assumption.
  - etransitivity; [apply Permutation_sym, Permutation_middle|]. constructor. assumption.
Qed.
Print Assumptions C53_freed_exactly_once.

(** In particular, when the registered objects are distinct, nothing is freed
    twice and nothing is leaked. *)
Corollary C53_no_double_free_no_leak : forall E pl (regs : list (E * Z)) control,
  valid_regs regs -> slots regs < 256 -> NoDup (map fst regs ++ [control]) ->
  exists t freed, add_all pl empty_table regs = Ok t /\ destroy t control = Ok freed /\
    NoDup freed /\ forall e, In e freed <-> In e (map fst regs) \/ e = control.
Proof.
  intros E pl regs control V L N. destruct (C53_freed_exactly_once E pl regs control V L) as (t & fr & A & B & P).
  exists t, fr. split; [assumption|]. split; [assumption|]. split.
  - eapply Permutation_NoDup; [apply Permutation_sym; eassumption | assumption].
  - intros e. split; intros I.
    + eapply Permutation_in in I; [|eassumption]. apply in_app_or in I as [I|[I|[]]]; auto.
    + eapply Permutation_in; [apply Permutation_sym; eassumption|]. apply in_or_app. destruct I; [auto|right; left; auto].
Qed.
Print Assumptions C53_no_double_free_no_leak.

(** The test helper ClearEffects frees the same objects and leaves an empty
    table, so a later destruction frees none of them again. *)
Theorem C53_clear_effects : forall E pl (regs : list (E * Z)), valid_regs regs -> slots regs < 256 ->
  exists t freed, add_all pl empty_table regs = Ok t /\ ClearEffects t = Ok (freed, empty_table) /\
    Permutation freed (map fst regs).
Proof.
  intros E pl regs V L. exists (built regs). unfold ClearEffects. cbn [built effects uniqueEffectIndices non_random_effects].
  change (starts 0 regs) with (starts (vsize (@nil E)) regs).
  rewrite (delete_indexed_eval (ord regs) [] regs V eq_refl)
    by (rewrite ord_size by assumption; unfold slots in L; pose proof (specials_pos regs); lia).
  cbn [obind]. eexists. split; [apply built_eval; auto|]. split; [reflexivity|].
  unfold spc. rewrite <- map_app. apply Permutation_map.
  clear. induction regs as [|r regs IH]; [constructor|]. cbn [filter].
  destruct (is_ordinary r); cbn [negb app].
  - constructor. assumption.
  - etransitivity; [apply Permutation_sym, Permutation_middle|]. constructor. assumption.
Qed.
Print Assumptions C53_clear_effects.
Example C53_example : NoDup (map fst demo_regs ++ [99%nat]) /\
  match add_all Host empty_table demo_regs with
  | Ok t => destroy t 99%nat = Ok [10; 12; 14; 11; 13; 99]%nat
  | _ => False
  end.
Proof.
  split; [|vm_compute; reflexivity]. cbn.
  repeat (constructor; [cbn; intros H; repeat (destruct H as [H|H]; [discriminate|]); exact H|]). constructor.
Qed.

(** ** C54: strip flags *)
Definition flag_bit (f : flag) : Z :=
  match f with Tiny => 0 | Bright => 1 | Circular => 2 | Mirrored => 3 | Reversed => 4 | Controller => 5 | Dim => 6 | Off => 7 end.

Lemma flag_value_bit f : flag_value f = 2 ^ flag_bit f.
Proof. destruct f; reflexivity. Qed.
Lemma flag_bit_range f : 0 <= flag_bit f < 8.
Proof. destruct f; cbn [flag_bit]; lia. Qed.
Lemma flag_bit_inj f g : flag_bit f = flag_bit g -> f = g.
Proof. destruct f, g; cbn [flag_bit]; congruence. Qed.

Lemma land_pow2 a k : 0 <= k -> Z.land a (2 ^ k) = if Z.testbit a k then 2 ^ k else 0.
Proof.
  intros K. apply Z.bits_inj'. intros n Hn. rewrite Z.land_spec, Z.pow2_bits_eqb by lia.
  destruct (Z.eqb_spec k n) as [->|N].
  - destruct (Z.testbit a n); rewrite ?Z.pow2_bits_eqb by lia; rewrite ?Z.eqb_refl, ?Z.bits_0; reflexivity.
  - rewrite andb_false_r. destruct (Z.testbit a k); rewrite ?Z.bits_0; [|reflexivity].
    rewrite Z.pow2_bits_eqb by lia. destruct (Z.eqb_spec k n); [contradiction|reflexivity].
Qed.

Lemma FlagEnabled_testbit s f : FlagEnabled s f = Z.testbit (flags s) (flag_bit f).
Proof.
  unfold FlagEnabled. rewrite flag_value_bit, land_pow2 by apply flag_bit_range.
  destruct (Z.testbit _ _); [apply Z.eqb_refl|].
  apply Z.eqb_neq. pose proof (flag_bit_range f). pose proof (Z.pow_pos_nonneg 2 (flag_bit f)). lia.
Qed.

Lemma fold_lor_testbit l : forall acc k, 0 <= k ->
  Z.testbit (fold_left (fun a f => Z.lor a (flag_value f)) l acc) k =
  Z.testbit acc k || existsb (fun f => flag_bit f =? k) l.
Proof.
  induction l as [|f l IH]; intros acc k K; cbn [fold_left existsb]; [rewrite orb_false_r; reflexivity|].
  rewrite IH by assumption. rewrite Z.lor_spec, flag_value_bit, Z.pow2_bits_eqb by apply flag_bit_range.
  rewrite orb_assoc. reflexivity.
Qed.

Theorem C54_flag_set_iff_given : forall n l f,
  FlagEnabled (StripDescription n l) f = true <-> In f l.
Proof.
  intros n l f. rewrite FlagEnabled_testbit. cbn [StripDescription flags].
  unfold u8. change 256 with (2 ^ 8). pose proof (flag_bit_range f).
  rewrite Z.mod_pow2_bits_low by lia. rewrite fold_lor_testbit by lia. rewrite Z.bits_0. cbn [orb].
  rewrite existsb_exists. split.
  - intros (g & I & E). apply Z.eqb_eq, flag_bit_inj in E. subst. assumption.
  - intros I. exists f. split; [assumption|apply Z.eqb_refl].
Qed.
Print Assumptions C54_flag_set_iff_given.

(** The LED count is kept for every count a strip can have. *)
Theorem C54_led_count : forall n l, 0 <= n < 256 -> led_count (StripDescription n l) = n /\ wf_strip (StripDescription n l).
Proof.
  intros n l N. cbn [StripDescription led_count]. rewrite u8_id by assumption. split; [reflexivity|].
  unfold wf_strip. cbn [led_count flags StripDescription]. rewrite u8_id by assumption.
  split; [assumption|apply u8_range].
Qed.
Print Assumptions C54_led_count.
Example C54_example :
  map (FlagEnabled (StripDescription 24 [Mirrored; Tiny; Circular; Tiny]))
      [Tiny; Bright; Circular; Mirrored; Reversed; Controller; Dim; Off] =
  [true; false; true; true; false; false; false; false].
Proof. reflexivity. Qed.
