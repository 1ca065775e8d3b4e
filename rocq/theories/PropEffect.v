(** Which effect a node shows: C27, C28, C29. *)
From Coq Require Import ZArith Lia List Bool.
From Coq Require Import ZifyBool.
From Verif Require Import CInt CIntFacts Packet SpecPacket PacketFacts NetMgr NetHist SpecNet NetFacts Rsm RsmStep RsmEval RsmHist SpecRsm RsmFacts RsmTime RoleFacts EffectFacts RsmRun.
Import ListNotations.
Open Scope Z_scope.
Ltac Zify.zify_post_hook ::= Z.div_mod_to_equations.

Ltac accepted_tick S Ac :=
  let inc := fresh "inc" in let C := fresh "C" in let Hh := fresh "Hh" in let T := fresh "T" in
  pose proof (proj1 (step_accepted _ _ _ S) Ac) as (inc & C & Hh);
  pose proof (tick_step _ _ _ C S) as T.

(** Destruct a tick that heard packet p. *)
Ltac cases_heard T p :=
  destruct T; proj; try congruence;
  match goal with X : heard _ _ = Some ?q, Y : heard _ _ = Some p |- _ =>
    assert (q = p) by congruence; subst q end;
  try (types; congruence).

(** C27. *)
Theorem C27_set_effect_adopted e t0 h ev p : history e t0 (h ++ [ev]) ->
  accepted ev p -> ptype p = 2 ->
  GetSetEffect (after ev) = p /\ GetEffectIndex (after ev) = nth 0 (pdata p) 0.
Proof.
  intros HH Ac P. destruct HH as [n H]; apply hist_last in H as (H & -> & G & O & L1 & L2 & S). accepted_tick S Ac.
  assert (W : wf_packet p) by (destruct Ac as [Ca _]; rewrite Ca in O; exact O).
  assert (I8 : u8 (i8 (byte_at (pdata p) 0)) = nth 0 (pdata p) 0).
  { rewrite u8_i8. apply u8_id. apply wf_byte; auto. }
  destruct ev as [t o m m' out]; proj. unfold GetSetEffect, GetEffectIndex.
  cases_heard T p; auto.
Qed.
Print Assumptions C27_set_effect_adopted.

Theorem C27_control_adopted e t0 h ev p : history e t0 (h ++ [ev]) ->
  accepted ev p -> ptype p = 3 ->
  GetSetEffect (after ev) = p /\ GetEffectIndex (after ev) = GetEffectIndex (before ev).
Proof.
  intros HH Ac P. destruct HH as [n H]; apply hist_last in H as (H & -> & G & O & L1 & L2 & S). accepted_tick S Ac.
  destruct ev as [t o m m' out]; proj. unfold GetSetEffect, GetEffectIndex.
  cases_heard T p; auto.
Qed.
Print Assumptions C27_control_adopted.

(** Nothing else changes the effect: every call that accepts no effect or control
    packet, is not SetEffect and is not an own effect change of a master leaves
    the effect index and the content of the current packet alone. *)
Theorem C27_nothing_else_changes_the_effect e t0 h ev : history e t0 (h ++ [ev]) ->
  (forall p, accepted ev p -> ptype p <> 2 /\ ptype p <> 3) ->
  (forall p, call ev <> OSetEffect p) -> ~ own_change ev ->
  same_content (GetSetEffect (after ev)) (GetSetEffect (before ev)) /\
  GetEffectIndex (after ev) = GetEffectIndex (before ev).
Proof.
  intros HH Q N NC. destruct HH as [n H]; apply hist_last in H as (H & -> & G & O & L1 & L2 & S). pose proof S as S0.
  assert (Q' : forall inc p, call ev = OTick inc -> heard (before ev) inc = Some p -> ptype p <> 2 /\ ptype p <> 3).
  { intros inc p C Hp. apply Q. apply (step_accepted _ _ _ S0). eauto. }
  destruct ev as [t o m m' out]; proj. unfold GetSetEffect, GetEffectIndex, same_content.
  destruct S as [inc out m' T|p R|v|v]; proj; try (repeat split; reflexivity); [|exfalso; eapply N; reflexivity].
  destruct T; proj; try (repeat split; reflexivity);
    try (exfalso; destruct (Q' inc p eq_refl ltac:(assumption)); types; congruence).
  exfalso. apply NC. eexists; left; reflexivity.
Qed.
Print Assumptions C27_nothing_else_changes_the_effect.

(** Effect index 200 (stored in a signed byte), accepted by a slave and by a
    master. *)
Example C27_example : exists h ev1 ev2 ev3, history (env0 Host) 0 (h ++ [ev1; ev2; ev3]) /\
  accepted ev1 (effect_pkt 50 200 1 2) /\ role_before ev1 = Slave /\ GetEffectIndex (after ev1) = 200 /\
  accepted ev3 (effect_pkt 51 201 1 2) /\ role_before ev3 = Master /\ GetEffectIndex (after ev3) = 201.
Proof.
  run_as H (env0 Host) 0 [(7, OTick (Some (effect_pkt 50 200 1 2))); (7000, OTick None);
    (7500, OTick (Some (effect_pkt 51 201 1 2)))].
  match type of H with hist _ _ [?a; ?b; ?c] _ => exists [], a, b, c end.
  split; [eexists; exact H|]. repeat split; try (left; reflexivity).
Qed.

(** C28. *)
Lemma pick_packet_bytes e n : good n ->
  nth 0 (pdata (pick_packet e n)) 0 = u8 (pick_effect e n) /\
  nth 1 (pdata (pick_packet e n)) 0 = 0 /\
  nth 2 (pdata (pick_packet e n)) 0 = u8 (pick_palette e n).
Proof.
  intros G. pose proof (proj1 (proj2 (proj2 (proj2 (g_pk _ G))))) as L.
  unfold pick_packet, writeSetEffect. proj.
  destruct (pdata (packet_ n)) as [|a [|b [|c l]]]; try discriminate.
  cbn [list_set nth]. rewrite u8_i8. rewrite !(u8_id (u8 _)) by apply u8_range. repeat split.
Qed.

Definition effect_announced (ev : event) : Prop :=
  (exists p, accepted ev p /\ ptype p = 2) \/ own_change ev \/
  (exists p, call ev = OSetEffect p /\ ptype p = 2).

Theorem C28_index_agrees_with_packet e t0 h n : hist e t0 h n ->
  (exists ev, In ev h /\ effect_announced ev) ->
  ptype (GetSetEffect n) = 2 -> nth 0 (pdata (GetSetEffect n)) 0 = GetEffectIndex n.
Proof.
  intros H. pattern h, n. revert h n H. apply (hist_ind2 e t0).
  - intros ? ? ? ? _ _ _ (ev & [] & _).
  - intros h ev H IH G O L1 L2 S (x & Ix & X) P.
    assert (K : effect_announced ev \/ exists y, In y h /\ effect_announced y).
    { apply in_app_or in Ix as [Ix|[<-|[]]]; eauto. }
    unfold GetSetEffect, GetEffectIndex in *. pose proof S as S0.
    assert (Hw : forall p inc, call ev = OTick inc -> heard (before ev) inc = Some p -> wf_packet p).
    { intros p inc C Hp. apply heard_some in Hp. subst inc. rewrite C in O. exact O. }
    assert (Old : same_content (set_effect_packet (after ev)) (set_effect_packet (before ev)) ->
                  effect_index (after ev) = effect_index (before ev) -> ~ effect_announced ev ->
                  nth 0 (pdata (set_effect_packet (after ev))) 0 = u8 (effect_index (after ev))).
    { intros (S1 & S2 & S3) E NA. destruct K as [K|K]; [contradiction|]. rewrite S3, E. apply IH; auto. congruence. }
    assert (NN : forall inc, call ev = OTick inc -> ~ own_change ev ->
       (heard (before ev) inc = None \/ exists p, heard (before ev) inc = Some p /\ ptype p <> 2) -> ~ effect_announced ev).
    { intros inc C NC Hh [(p & A & Pp)|[A|(p & A & _)]]; [|contradiction|congruence].
      apply (step_accepted _ _ _ S0) in A as (inc' & C' & A). rewrite C in C'; inversion C'; subst inc'.
      destruct Hh as [Hh|(q & Hh & N2)]; congruence. }
    destruct ev as [t o m m' out]; proj.
    assert (NC : forall l, (forall q, ~ In (Own ByChange q) l) -> l = out -> ~ own_change (mkEv t o m m' out)).
    { intros l Q <- (q & I). exact (Q q I). }
    destruct S as [inc out m' T|p R|v|v]; proj.
    + specialize (fun x => Hw x inc eq_refl). specialize (NN inc eq_refl).
      destruct T; proj;
      try (apply Old; [repeat split|reflexivity|apply NN; [eapply NC; [|reflexivity]; intros q I; own_in I|
              first [left; assumption | right; exists p; split; [assumption|types; congruence || lia]]]]);
      try (rewrite u8_i8; symmetry; apply u8_id, wf_byte; auto; fail);
      try (types; congruence).
      rewrite u8_i8. apply pick_packet_bytes. exact G.
    + rewrite u8_i8. symmetry. apply u8_id, wf_byte. exact O.
    + apply Old; [repeat split|reflexivity|]. intros [(p & (C & _) & _)|[(q & I)|(p & C & _)]]; try discriminate. own_in I.
    + apply Old; [repeat split|reflexivity|]. intros [(p & (C & _) & _)|[(q & I)|(p & C & _)]]; try discriminate. own_in I.
Qed.
Print Assumptions C28_index_agrees_with_packet.

Theorem C28_powerup e t0 n : hist e t0 [] n ->
  GetEffectIndex n = 0 /\ ptype (GetSetEffect n) = 2 /\ nth 0 (pdata (GetSetEffect n)) 0 = 1.
Proof.
  intros H. inversion H as [? ? ? ? ? P W1 W2 C|]; [|destruct h; discriminate].
  rewrite construct_eq in C. inversion C; subst. unfold GetEffectIndex, GetSetEffect, writeSetEffect. proj.
  destruct W2 as (_ & _ & _ & L & _). cbn in L.
  destruct d2; [discriminate|]. repeat split.
Qed.
Print Assumptions C28_powerup.

(** The mismatch is visible: a master that never heard of an effect announces
    effect 1 while it shows effect 0. *)
Theorem C28_fresh_master_announces_what_it_does_not_show_refuted :
  exists e t0 h ev p, history e t0 (h ++ [ev]) /\ In (Own ByRebroadcast p) (sent ev) /\
    ptype p = 2 /\ nth 0 (pdata p) 0 = 1 /\ GetEffectIndex (after ev) = 0.
Proof.
  exists (env0 Arduino), 0.
  run_as H (env0 Arduino) 0 [(7000, OTick None); (9001, OTick None); (9002, OTick None)].
  match type of H with hist _ _ [?a; ?b; ?c] _ => exists [a; b], c end.
  eexists. split; [eexists; exact H|]. split; [left; reflexivity|]. repeat split.
Qed.
Print Assumptions C28_fresh_master_announces_what_it_does_not_show_refuted.

Example C28_example : exists h n, hist (env0 Arduino) 0 h n /\
  (exists ev, In ev h /\ effect_announced ev) /\ ptype (GetSetEffect n) = 2 /\ GetEffectIndex n = 200.
Proof.
  run_as H (env0 Arduino) 0 [(7, OTick (Some (effect_pkt 50 200 1 2))); (7000, OTick None)].
  match type of H with hist _ _ ?h ?n => exists h, n end.
  split; [exact H|]. split; [|split; reflexivity].
  eexists. split; [left; reflexivity|]. left. exists (effect_pkt 50 200 1 2).
  repeat split. left; reflexivity.
Qed.

(** C29.  The configured numbers: what was last set, as a byte; 1 by default. *)
Definition configured_effects (h : list event) : Z :=
  fold_left (fun v ev => match call ev with OSetNumEffects x => x mod 256 | _ => v end) h 1.
Definition configured_palettes (h : list event) : Z :=
  fold_left (fun v ev => match call ev with OSetNumPalettes x => x mod 256 | _ => v end) h 1.

Lemma configured_eq e t0 h n : hist e t0 h n ->
  num_effects n = configured_effects h /\ num_palettes n = configured_palettes h.
Proof.
  intros H. pattern h, n. revert h n H. apply (hist_ind2 e t0).
  - intros; split; reflexivity.
  - intros h ev H [I1 I2] G O L1 L2 S. unfold configured_effects, configured_palettes in *.
    rewrite !fold_left_app. cbn [fold_left]. rewrite <- I1, <- I2.
    destruct ev as [t o m m' out]; proj. destruct S as [inc out m' T|p R|v|v]; proj; auto.
    destruct T; proj; auto.
Qed.

Lemma picked_range pl hi raw : 0 < hi < 256 -> 0 <= picked pl hi raw < hi.
Proof.
  intros R. unfold picked, random2. destruct pl.
  - destruct (Z.eqb_spec hi 0); [lia|]. pose proof (Z.mod_pos_bound (Z.of_N raw) hi ltac:(lia)).
    rewrite u16_id; lia.
  - destruct (Z.leb_spec hi 0); [lia|]. pose proof (Z.mod_pos_bound (Z.of_N raw) (hi - 0) ltac:(lia)). lia.
Qed.

Theorem C29_own_changes_in_range e t0 h ev p : history e t0 (h ++ [ev]) ->
  In (Own ByChange p) (sent ev) ->
  0 < configured_effects h -> 0 < configured_palettes h ->
  ptype p = 2 /\ dlen p = 3 /\
  0 <= nth 0 (pdata p) 0 < configured_effects h /\
  nth 1 (pdata p) 0 = 0 /\
  0 <= nth 2 (pdata p) 0 < configured_palettes h /\
  GetEffectIndex (after ev) = nth 0 (pdata p) 0 /\
  same_content (GetSetEffect (after ev)) p /\
  role_before ev = Master /\ packet_free ev.
Proof.
  intros HH I P1 P2. destruct HH as [n H]; apply hist_last in H as (H & -> & G & O & L1 & L2 & S). destruct (configured_eq _ _ _ _ H) as [E1 E2].
  rewrite <- E1, <- E2 in *.
  assert (F : role_before ev = Master /\ packet_free ev).
  { pose proof S as S0. rewrite (step_packet_free e ev S0). destruct ev as [t o m m' out]; proj.
    destruct S as [inc out m' T|q R|v|v]; proj; own_in I. destruct T; own_in I. eauto. }
  destruct ev as [t o m m' out]; proj. unfold GetEffectIndex, GetSetEffect.
  destruct S as [inc out m' T|q R|v|v]; proj; own_in I. destruct T; own_in I. proj.
  destruct (pick_packet_bytes e m G) as (Y0 & Y1 & Y2).
  pose proof (g_ne _ G) as R1. pose proof (g_np _ G) as R2.
  pose proof (picked_range (plat e) (num_effects m) (draw e (rng m)) ltac:(lia)) as B1.
  pose proof (picked_range (plat e) (num_palettes m) (draw e (Datatypes.S (rng m))) ltac:(lia)) as B2.
  fold (pick_effect e m) in B1. fold (pick_palette e m) in B2.
  rewrite (u8_id (pick_effect e m)) in Y0 by lia. rewrite (u8_id (pick_palette e m)) in Y2 by lia.
  unfold set_id; proj. rewrite Y0, Y1, Y2, u8_i8, (u8_id (pick_effect e m)) by lia.
  unfold same_content; proj. destruct F. repeat match goal with |- _ /\ _ => split end; first [lia|reflexivity|assumption].
Qed.
Print Assumptions C29_own_changes_in_range.

Example C29_example : exists h ev p, history (env0 Host) 0 (h ++ [ev]) /\
  In (Own ByChange p) (sent ev) /\ configured_effects h = 200 /\ configured_palettes h = 7.
Proof.
  run_as H (env0 Host) 0 [(1, OSetNumEffects 200); (2, OSetNumPalettes 7); (61000, OTick None); (61003, OTick None)].
  match type of H with hist _ _ [?a; ?b; ?c; ?d] _ => exists [a; b; c], d end.
  eexists. split; [eexists; exact H|]. split; [left; reflexivity|]. split; reflexivity.
Qed.
