(** A network left to itself never breaks its pictures: C91. *)
From Coq Require Import ZArith Lia List Bool.
From Coq Require Import ZifyBool.
From Verif Require Import CInt CIntFacts Packet SpecPacket PacketFacts NetMgr NetHist SpecNet NetFacts Fastled Palette Device LedMgr SpecLed Effects SpecEffect Show ShowFacts PropShow Rsm RsmStep RsmEval RsmHist SpecRsm RsmFacts RsmTime RoleFacts RsmRun EffectFacts PropHeartbeat PropEffect PropNetTime PropNetwork Boot PropBoot Node PropNode.
Import ListNotations.
Open Scope Z_scope.
Ltac Zify.zify_post_hook ::= Z.div_mod_to_equations.

(** The applications are sane: they announce 1 to 22 palettes and at least one
    effect (as LedManager and node.cpp do), and only ask for palettes that exist. *)
Definition sane_calls (tr : run) : Prop :=
  forall j ev, In (j, ev) tr ->
    match call ev with
    | OSetEffect q => ptype q = 2 -> nth 2 (pdata q) 0 < number_of_palettes
    | OSetNumPalettes v => 1 <= v mod 256 <= number_of_palettes
    | OSetNumEffects v => v mod 256 <> 0
    | OTick _ => True
    end.

Lemma configured_bounds h :
  (forall ev, In ev h -> match call ev with OSetNumPalettes v => 1 <= v mod 256 <= number_of_palettes
                                          | OSetNumEffects v => v mod 256 <> 0 | _ => True end) ->
  0 < configured_effects h /\ 0 < configured_palettes h <= number_of_palettes.
Proof.
  unfold configured_effects, configured_palettes. induction h as [|ev h IH] using rev_ind; intros Q.
  - cbn. unfold number_of_palettes. lia.
  - rewrite !fold_left_app. cbn [fold_left].
    destruct IH as [I1 I2]; [intros x I; apply Q; apply in_or_app; left; exact I|].
    specialize (Q ev ltac:(apply in_or_app; right; left; reflexivity)).
    destruct (call ev) as [inc|q|v|v]; try lia; split; try lia.
Qed.

Lemma nth2_payload p : nth 2 (pdata p) 0 = nth 2 (payload 3 p) 0.
Proof. unfold payload. destruct (pdata p) as [|a [|b [|c l]]]; reflexivity. Qed.

Lemma calls_at_in i ev tr : In ev (calls_at i tr) -> In (i, ev) tr.
Proof.
  unfold calls_at. intros I. apply in_map_iff in I as ([j x] & E & I). cbn in E. subst x.
  apply filter_In in I as [I E]. cbn in E. apply PeanoNat.Nat.eqb_eq in E. subst. exact I.
Qed.

Theorem C91_only_existing_palettes w tr : fresh_network w -> is_run w tr -> genuine tr -> sane_calls tr ->
  forall i n, hist (n_env w i) (n_start w i) (calls_at i tr) n ->
    ptype (GetSetEffect n) = 3 \/
    (ptype (GetSetEffect n) = 2 /\ nth 2 (pdata (GetSetEffect n)) 0 < number_of_palettes).
Proof.
  intros Fr R L Sa i n H.
  destruct (proj1 (C90_effects_have_an_origin w tr Fr R L) i n H) as [[P Y]|(j & ev & q & I & [S1 S2] & K)].
  - right. split; [exact P|]. rewrite nth2_payload, Y. cbn. unfold number_of_palettes. lia.
  - assert (Q : ptype q = 3 \/ (ptype q = 2 /\ nth 2 (pdata q) 0 < number_of_palettes)).
    { destruct K as [C|C].
      - assert (ptype q = 2 \/ ptype q = 3).
        { destruct (R j) as [_ Ap]. apply (Ap ev q); [|exact C]. rewrite Fr. cbn. unfold calls_at.
          apply in_map_iff. exists (j, ev). split; [reflexivity|]. apply filter_In. split; [exact I|]. cbn. apply PeanoNat.Nat.eqb_refl. }
        specialize (Sa j ev I). rewrite C in Sa. destruct H0; auto.
      - right. apply in_split in I as (a & b & ->).
        destruct (run_split _ _ _ _ _ R) as (m & Hm & _). rewrite Fr in Hm. cbn [app] in Hm.
        destruct (configured_bounds (calls_at j a)) as [B1 B2].
        { intros x Ix. apply calls_at_in in Ix. specialize (Sa j x ltac:(apply in_or_app; left; exact Ix)).
          destruct (call x); auto. }
        destruct (C29_own_changes_in_range _ _ _ _ _ (ex_intro _ _ Hm) C B1 (proj1 B2)) as (T & _ & _ & _ & B & _).
        split; [exact T|lia]. }
    rewrite S1. destruct Q as [Q|[Q1 Q2]]; [left; exact Q|right]. split; [exact Q1|].
    rewrite Q1 in S2. change (2 =? 2) with true in S2. cbv iota in S2. rewrite nth2_payload, S2, <- nth2_payload. exact Q2.
Qed.
Print Assumptions C91_only_existing_palettes.

(** So every device in the network can draw what it is to show, completely. *)
Theorem C91_every_picture_is_drawn w tr : fresh_network w -> is_run w tr -> genuine tr -> sane_calls tr ->
  forall i n fl d o clock buf, hist (n_env w i) (n_start w i) (calls_at i tr) n ->
    fl_ok fl -> drawable d -> Z.of_nat (length buf) = buffer_size FastLed d ->
    exists leds, Show Arduino fl FastLed d o (GetSetEffect n) clock buf = Ok leds /\ length leds = length buf.
Proof.
  intros Fr R L Sa i n fl d o clock buf H OK D B.
  apply valid_effect_drawn; auto.
  - apply (g_se _ (hist_good _ _ _ _ H)).
  - destruct (C91_only_existing_palettes w tr Fr R L Sa i n H) as [Q|Q]; [left|right]; exact Q.
Qed.
Print Assumptions C91_every_picture_is_drawn.

(** Node 0 is asked for effect 9 with palette 2, and node 1 hears about it. *)
Example C91_example : exists w tr, fresh_network w /\ is_run w tr /\ genuine tr /\ sane_calls tr /\
  exists n, hist (n_env w 1%nat) (n_start w 1%nat) (calls_at 1 tr) n /\
    GetEffectIndex n = 9 /\ decided tr (GetSetEffect n) /\ ~ powerup_order (GetSetEffect n).
Proof.
  run_as H0 (env0 Arduino) 0 [(10, OSetNumPalettes 22); (11, OSetEffect (effect_pkt 0 9 3 2))].
  run_as H1 (env0 Arduino) 0 [(40, OTick (Some (effect_pkt 99 9 3 2)))].
  run_as H2 (env0 Arduino) 0 (@nil (Z * op)).
  match type of H0 with hist _ _ [?a; ?b] _ =>
  match type of H1 with hist _ _ [?c] _ =>
    exists (mkNetwork (fun _ => env0 Arduino) (fun _ => 0) (fun i => 0) (fun i => [])), [(0%nat, a); (0%nat, b); (1%nat, c)]
  end end.
  split; [intros i; reflexivity|].
  split.
  { intros [|[|i]]; cbn.
    - split; [eexists; exact H0|]. intros x p I C. destruct I as [<-|[<-|[]]]; [discriminate C|]. injection C as <-. left. reflexivity.
    - split; [eexists; exact H1|]. intros x p I C. destruct I as [<-|[]]. discriminate C.
    - split; [eexists; exact H2|]. intros x p []. }
  split.
  { intros a i ev b p E Ac A.
    destruct a as [|x [|y [|z a]]]; inversion E; subst; try (destruct Ac as [C _]; discriminate C).
    - eexists 0%nat, _, _. split; [right; left; reflexivity|]. split; [left; reflexivity|].
      destruct Ac as [C _]. injection C as <-. split; reflexivity.
    - destruct a; discriminate. }
  split.
  { intros j ev I. repeat (destruct I as [I|I]; [injection I as <- <-; vm_compute; intuition congruence|]). destruct I. }
  eexists. split; [exact H1|]. split; [reflexivity|]. split.
  - eexists 0%nat, _, _. split; [right; left; reflexivity|]. split; [|left; reflexivity]. split; reflexivity.
  - intros [_ P]. discriminate P.
Qed.
