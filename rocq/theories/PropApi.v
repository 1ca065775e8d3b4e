(** SetEffect and crash freedom: C36, C37, C38. *)
From Coq Require Import ZArith Lia List Bool.
From Coq Require Import ZifyBool.
From Verif Require Import CInt CIntFacts Packet SpecPacket PacketFacts NetMgr NetHist SpecNet NetFacts Rsm RsmStep RsmEval RsmHist SpecRsm RsmFacts RsmTime RoleFacts EffectFacts RsmRun.
Import ListNotations.
Open Scope Z_scope.
Ltac Zify.zify_post_hook ::= Z.div_mod_to_equations.

(** C36: what SetEffect does at once. *)
Theorem C36_set_effect_adopts_and_sends e t0 h ev p :
  history e t0 (h ++ [ev]) -> call ev = OSetEffect p -> ptype p = 2 ->
  exists q, sent ev = [Own ByApi q] /\ same_content q p /\
    (plat e = Arduino -> 2 <= pid q <= 65534) /\
    GetSetEffect (after ev) = q /\ GetEffectIndex (after ev) = nth 0 (pdata p) 0 /\
    role_after ev = role_before ev.
Proof.
  intros HH C P. destruct HH as [n H]; apply hist_last in H as (H & -> & G & O & L1 & L2 & S).
  destruct ev as [t o m m' out]; proj. unfold GetSetEffect, GetEffectIndex.
  destruct S as [inc out m' T|q R|v|v]; try discriminate. inversion C; subst q.
  unfold api_after; proj. eexists. split; [reflexivity|]. split; [repeat split|].
  split; [|split; [reflexivity|split; [|reflexivity]]].
  - intros A. unfold set_id, fresh, id_of. proj.
    destruct (random2_id_ok (plat e) (draw e (rng m))) as (id & E & R'). rewrite E. rewrite A in R'. lia.
  - rewrite u8_i8. apply u8_id. apply wf_byte. exact O.
Qed.
Print Assumptions C36_set_effect_adopts_and_sends.

(** C36: how long a master holds the effect. *)
Theorem C36_set_effect_holds e t0 h ev p :
  history e t0 (h ++ [ev]) -> call ev = OSetEffect p -> ptype p = 2 ->
  let hold := if nth 1 (pdata p) 0 =? 0 then 60000 else 1000 * nth 1 (pdata p) 0 in
  at_ ev + hold < wrap -> change_scheduled e t0 (h ++ [ev]) (at_ ev + hold).
Proof.
  intros HH C P hold W. destruct HH as [n H]; apply hist_last in H as (H & -> & G & O & L1 & L2 & S).
  pose proof (hist_t0 _ _ _ _ H) as P0.
  assert (W1 : wf_packet p) by (rewrite C in O; exact O).
  pose proof (wf_byte p 1 W1) as B1. unfold byte_at in B1.
  assert (B : 0 < hold /\ t_ce (after ev) = u32 (u32 (at_ ev) + hold)).
  { unfold hold. destruct ev as [t o m m' out]; proj.
    destruct S as [inc out m' T|q R|v|v]; try discriminate. inversion C; subst q.
    unfold api_after, api_delay, byte_at; proj.
    destruct (Z.eqb_spec (nth 1 (pdata p) 0) 0); split; try lia. f_equal; f_equal; lia. }
  destruct B as [B1' B2]. apply scheduled_intro; [|lia..]. rewrite B2. unfold wrap in *.
  apply (u32_small (at_ ev) hold (4294967296 - hold)); lia.
Qed.
Print Assumptions C36_set_effect_holds.

(** A slave that calls SetEffect and then becomes master does not honour the
    hold time: 200 s asked for, own change within 63 s. *)
Theorem C36_slave_hold_refuted : exists e t0 ev0 h2 ev p,
  history e t0 (ev0 :: h2 ++ [ev]) /\ call ev0 = OSetEffect p /\ ptype p = 2 /\ nth 1 (pdata p) 0 = 200 /\
  (forall x q, In x (h2 ++ [ev]) -> call x <> OSetEffect q) /\
  (forall x q, In x (h2 ++ [ev]) -> ~ accepted x q) /\
  own_change ev /\ at_ ev < at_ ev0 + 63000.
Proof.
  exists (env0 Arduino), 0.
  run_as H (env0 Arduino) 0 [(10, OSetEffect (effect_pkt 0 9 200 2)); (7000, OTick None); (60001, OTick None); (60002, OTick None)].
  match type of H with hist _ _ [?a; ?b; ?c; ?d] _ => exists a, [b; c], d end. eexists.
  split; [eexists; exact H|]. split; [reflexivity|]. split; [reflexivity|]. split; [reflexivity|].
  split; [|split; [|split; [eexists; left; reflexivity|reflexivity]]].
  - intros x q I. repeat (destruct I as [<-|I]; [discriminate|]). destruct I.
  - intros x q I [C _]. repeat (destruct I as [<-|I]; [discriminate C|]). destruct I.
Qed.
Print Assumptions C36_slave_hold_refuted.

Example C36_example : exists h ev, history (env0 Host) 0 (h ++ [ev]) /\
  call ev = OSetEffect (effect_pkt 0 201 0 2) /\ ptype (effect_pkt 0 201 0 2) = 2 /\ role_before ev = Master /\
  at_ ev + 60000 < wrap /\ GetEffectIndex (after ev) = 201.
Proof.
  run_as H (env0 Host) 0 [(7000, OTick None); (7100, OSetEffect (effect_pkt 0 201 0 2))].
  match type of H with hist _ _ [?a; ?b] _ => exists [a], b end.
  split; [eexists; exact H|]. repeat split.
Qed.

(** C37: SetEffect with a control packet. *)
Theorem C37_control_packet_aborts_on_host e t0 h n p t :
  hist e t0 h n -> plat e = Host -> wf_packet p -> ptype p = 3 -> step e (u32 t) (OSetEffect p) n = Abort.
Proof.
  intros H A W P. cbn [step]. rewrite SetEffect_eq by (eauto using hist_good).
  unfold readableb, kind_ok. rewrite A, P. reflexivity.
Qed.
Print Assumptions C37_control_packet_aborts_on_host.

Theorem C37_control_packet_misread_on_device e t0 h ev p :
  history e t0 (h ++ [ev]) -> plat e = Arduino -> call ev = OSetEffect p -> ptype p = 3 ->
  let delay := nth 0 (pdata p) 0 in let red := nth 1 (pdata p) 0 in
  let hold := if red =? 0 then 60000 else 1000 * red in
  same_content (GetSetEffect (after ev)) p /\ GetEffectIndex (after ev) = delay /\
  (at_ ev + hold < wrap -> change_scheduled e t0 (h ++ [ev]) (at_ ev + hold)).
Proof.
  intros HH A C P delay red hold. destruct HH as [n H]; apply hist_last in H as (H & -> & G & O & L1 & L2 & S).
  pose proof (hist_t0 _ _ _ _ H) as P0.
  assert (W1 : wf_packet p) by (rewrite C in O; exact O).
  pose proof (wf_byte p 1 W1) as B1. unfold byte_at in B1.
  assert (B : 0 < hold /\ t_ce (after ev) = u32 (u32 (at_ ev) + hold) /\
    same_content (GetSetEffect (after ev)) p /\ GetEffectIndex (after ev) = delay).
  { unfold hold, red, delay, GetSetEffect, GetEffectIndex. destruct ev as [t o m m' out]; proj.
    destruct S as [inc out m' T|q R|v|v]; try discriminate. inversion C; subst q.
    unfold api_after, api_delay, byte_at; proj.
    split; [destruct (Z.eqb_spec (nth 1 (pdata p) 0) 0); lia|].
    split; [destruct (Z.eqb_spec (nth 1 (pdata p) 0) 0); f_equal; f_equal; lia|].
    split; [repeat split|]. rewrite u8_i8. apply u8_id. apply (wf_byte p 0). exact W1. }
  destruct B as (B1' & B2 & B3 & B4). split; [exact B3|]. split; [exact B4|]. intros W.
  apply scheduled_intro; [|lia..]. rewrite B2. unfold wrap in *.
  apply (u32_small (at_ ev) hold (4294967296 - hold)); lia.
Qed.
Print Assumptions C37_control_packet_misread_on_device.

(** The stock call: hold 10 s, colour (5, 6, 7): becomes effect 10, hold 5 s. *)
Example C37_example : exists h ev, history (env0 Arduino) 0 (h ++ [ev]) /\
  call ev = OSetEffect (control_pkt 0 10 5 6 7) /\ GetEffectIndex (after ev) = 10 /\ role_after ev = Master /\
  at_ ev + 1000 * nth 1 (pdata (control_pkt 0 10 5 6 7)) 0 = at_ ev + 5000.
Proof.
  run_as H (env0 Arduino) 0 [(7000, OTick None); (7100, OSetEffect (control_pkt 0 10 5 6 7))].
  match type of H with hist _ _ [?a; ?b] _ => exists [a], b end.
  split; [eexists; exact H|]. repeat split.
Qed.

(** C38: on the device every call in every reachable state returns. *)
Theorem C38_device_never_fails e t0 h n o t :
  hist e t0 h n -> plat e = Arduino -> op_ok o ->
  exists n' out, step e (u32 t) o n = Ok (tt, n', out).
Proof.
  intros H A O. pose proof (hist_good _ _ _ _ H) as G. destruct o as [inc|p|v|v]; cbn [step].
  - destruct (tick_total e (u32 t) n inc G) as [X|[[_ X]|[_ X]]].
    + destruct inc; exact O.
    + destruct X as (out & n' & E & _). eauto.
    + destruct X as (p & _ & Hp & _). congruence.
    + destruct X as (_ & _ & _ & _ & X). exfalso. apply X. left; exact A.
  - rewrite SetEffect_eq by auto. unfold readableb. rewrite A. eauto.
  - eexists _, _. reflexivity.
  - eexists _, _. reflexivity.
Qed.
Print Assumptions C38_device_never_fails.

(** The packets that abort the host build. *)
Definition kills (n : node) (p : packet) : Prop :=
  (ptype p = 0 /\ GetCurrentState n = Slave /\ dlen p <> 4) \/
  (ptype p = 2 /\ dlen p <> 3) \/
  (ptype p = 3 /\ GetCurrentState n = Master /\ dlen p <> 4) \/
  (ptype p = 2 /\ GetCurrentState n = Slave /\
   nth 0 (pdata p) 0 = GetEffectIndex n /\ nth 0 (pdata p) 0 < 128 /\
   ~ (ptype (GetSetEffect n) = 2 /\ dlen (GetSetEffect n) = 3)).

Lemma aborts_kills e n inc : good n -> op_ok (OTick inc) -> plat e = Host ->
  tick_aborts e n inc <-> exists p, heard n inc = Some p /\ kills n p.
Proof.
  intros G O A. unfold tick_aborts, kills, GetCurrentState, GetEffectIndex, GetSetEffect, byte_at.
  pose proof (g_ei _ G) as R. unfold HEARTBEAT, SET_EFFECT, SET_CONTROL.
  assert (K : forall p, heard n inc = Some p ->
     (nth 0 (pdata p) 0 = effect_index n <-> nth 0 (pdata p) 0 = u8 (effect_index n) /\ nth 0 (pdata p) 0 < 128)).
  { intros p Hp. apply heard_some in Hp. subst inc. pose proof (wf_byte p 0 O) as B. unfold byte_at in B.
    unfold u8. split; [intros E; rewrite <- E; lia|]. intros [E1 E2].
    destruct (Z.ltb_spec (effect_index n) 0); lia. }
  split.
  - intros (p & Hp & _ & X). exists p. specialize (K p Hp). split; [exact Hp|]. tauto.
  - intros (p & Hp & X). exists p. specialize (K p Hp). split; [exact Hp|]. split; [exact A|].
    destruct X as [X|[X|[X|X]]]; try tauto.
    destruct (Z.eq_dec (dlen p) 3); tauto.
Qed.

(** On the host build a radio tick aborts exactly when the radio delivers such
    a packet with an id not among the last five transmitted. *)
Theorem C38_host_abort_iff e t0 h n inc t :
  hist e t0 h n -> plat e = Host -> op_ok (OTick inc) ->
  step e (u32 t) (OTick inc) n = Abort <->
  exists p, inc = Some p /\ ~ In (pid p) (last5 (all_ids h)) /\ kills n p.
Proof.
  intros H A O. pose proof (hist_good _ _ _ _ H) as G. cbn [step].
  assert (X : tick_aborts e n inc <-> exists p, inc = Some p /\ ~ In (pid p) (last5 (all_ids h)) /\ kills n p).
  { rewrite aborts_kills by auto. split; intros (p & Hp).
    - destruct Hp as [Hp K]. exists p. pose proof (heard_some _ _ _ Hp) as ->.
      split; [reflexivity|]. split; [|exact K]. apply (heard_iff _ _ _ _ _ H). exact Hp.
    - destruct Hp as (-> & I & K). exists p. split; [|exact K]. apply (heard_iff _ _ _ _ _ H). exact I. }
  rewrite <- X. destruct (tick_total e (u32 t) n inc G) as [Y|[[E Y]|[E Y]]].
  - destruct inc; exact O.
  - destruct Y as (out & n' & E & Y). split; [congruence|]. intros Z. exfalso.
    destruct Z as (p & Hp & _ & Z). destruct Y; try congruence;
      match goal with U : heard n ?i = Some ?q, V : heard n ?i = Some p |- _ => assert (q = p) by congruence; subst q end;
      repeat match goal with R : readable _ _ _ _ |- _ => destruct R as [R|[? ?]]; [congruence|] end;
      unfold HEARTBEAT, SET_EFFECT, SET_CONTROL, CLAIM_MASTER in *; try (intuition congruence).
    match goal with R : _ -> readable _ _ _ _ |- _ => destruct Z as [Z|[Z|[Z|Z]]]; try (intuition congruence);
      destruct (R (proj1 (proj2 (proj2 (proj2 Z))))) as [?|?]; [congruence|tauto] end.
  - tauto.
  - split; [congruence|]. intros (p & Hp & _). destruct Y as (N & _). congruence.
Qed.
Print Assumptions C38_host_abort_iff.

(** Undefined behaviour on the host build needs a number of effects or palettes
    set to zero (modulo 256). *)
Theorem C38_host_undefined_only_with_zero_counts e t0 h n o t :
  hist e t0 h n -> op_ok o -> step e (u32 t) o n = Undef ->
  exists x v, In x h /\ (call x = OSetNumEffects v \/ call x = OSetNumPalettes v) /\ v mod 256 = 0.
Proof.
  intros H O E. pose proof (hist_good _ _ _ _ H) as G.
  assert (Z0 : num_effects n = 0 \/ num_palettes n = 0).
  { destruct o as [inc|p|v|v]; cbn [step] in E.
    - destruct (tick_total e (u32 t) n inc G) as [Y|[[E' Y]|[E' Y]]].
      + destruct inc; exact O.
      + destruct Y as (? & ? & Y & _). congruence.
      + congruence.
      + destruct Y as (_ & _ & _ & _ & Y). unfold can_pick in Y.
        destruct (Z.eq_dec (num_effects n) 0), (Z.eq_dec (num_palettes n) 0); tauto.
    - rewrite SetEffect_eq in E by auto. destruct (readableb e SET_EFFECT 3 p); discriminate.
    - discriminate.
    - discriminate. }
  clear E O G o t. revert Z0. pattern h, n. revert h n H. apply (hist_ind2 e t0).
  - intros. cbn in Z0. lia.
  - intros h ev H IH G O L1 L2 S Z0.
    assert (Keep : num_effects (after ev) = num_effects (before ev) /\ num_palettes (after ev) = num_palettes (before ev) ->
      exists x v, In x (h ++ [ev]) /\ (call x = OSetNumEffects v \/ call x = OSetNumPalettes v) /\ v mod 256 = 0).
    { intros [E1 E2]. rewrite E1, E2 in Z0. destruct (IH Z0) as (x & v & I & X). exists x, v.
      split; [apply in_or_app; auto|exact X]. }
    assert (Iev : In ev (h ++ [ev])) by (apply in_or_app; right; left; reflexivity).
    destruct ev as [t o m m' out]; proj. destruct S as [inc out m' T|p R|v|v]; proj.
    + apply Keep. destruct T; proj; auto.
    + apply Keep. auto.
    + destruct Z0 as [Z0|Z0].
      * destruct (IH (or_introl Z0)) as (x & w & I & X). exists x, w. split; [apply in_or_app; auto|exact X].
      * eexists _, v. split; [exact Iev|]. proj. auto.
    + destruct Z0 as [Z0|Z0].
      * eexists _, v. split; [exact Iev|]. proj. auto.
      * destruct (IH (or_intror Z0)) as (x & w & I & X). exists x, w. split; [apply in_or_app; auto|exact X].
Qed.
Print Assumptions C38_host_undefined_only_with_zero_counts.

(** Host crashes exist: a control packet, then the current effect again. *)
Example C38_example : exists h n p, hist (env0 Host) 0 h n /\
  ~ In (pid p) (last5 (all_ids h)) /\ kills n p /\ ptype p = 2 /\ dlen p = 3 /\
  step (env0 Host) (u32 20) (OTick (Some p)) n = Abort.
Proof.
  run_as H (env0 Host) 0 [(7, OTick (Some (effect_pkt 50 9 3 2))); (8, OTick (Some (control_pkt 51 1 2 3 4)))].
  match type of H with hist _ _ ?h ?n => exists h, n, (effect_pkt 52 9 3 2) end.
  split; [exact H|]. split; [vm_compute; intuition discriminate|].
  split; [|split; [reflexivity|split; [reflexivity|vm_compute; reflexivity]]].
  right; right; right. split; [reflexivity|]. split; [reflexivity|]. split; [reflexivity|]. split; [reflexivity|].
  intros [X _]. discriminate X.
Qed.

(** Undefined behaviour exists: a master with zero effects configured. *)
Example C38_undefined_example : exists h n, hist (env0 Host) 0 h n /\ step (env0 Host) (u32 90000) (OTick None) n = Undef.
Proof.
  run_as H (env0 Host) 0 [(7, OSetNumEffects 256); (80000, OTick None); (81001, OTick None); (90000, OTick None)].
  match type of H with hist _ _ ?h ?n => exists h, n end.
  split; [exact H|]. vm_compute. reflexivity.
Qed.
