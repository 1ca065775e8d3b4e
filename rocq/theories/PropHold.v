(** When a node changes or repeats its effect: C30-C36. *)
From Coq Require Import ZArith Lia List Bool.
From Coq Require Import ZifyBool.
From Verif Require Import CInt CIntFacts Packet SpecPacket PacketFacts NetMgr NetHist SpecNet NetFacts Rsm RsmStep RsmEval RsmHist SpecRsm RsmFacts RsmTime RoleFacts EffectFacts RsmRun.
Import ListNotations.
Open Scope Z_scope.
Ltac Zify.zify_post_hook ::= Z.div_mod_to_equations.

Ltac no_calls := let I := fresh "I" in let C := fresh "C" in
  intros ? ? I C; repeat (destruct I as [<-|I]; [discriminate C|]); destruct I.
Ltac in_all := let I := fresh "I" in
  intros ? I; repeat (destruct I as [<-|I]; [|]); try destruct I.

(** The hold time, in seconds, an effect or control packet asks for. *)
Definition hold_seconds (p : packet) : Z :=
  if ptype p =? 2 then nth 1 (pdata p) 0 else nth 0 (pdata p) 0.

Lemma master_packet_timer e ev p :
  stepR e (u32 (at_ ev)) (before ev) (call ev) (sent ev) (after ev) ->
  role_before ev = Master -> accepted ev p -> ptype p = 2 \/ ptype p = 3 ->
  t_ce (after ev) = timer_of (u32 (at_ ev)) (hold_seconds p * 1000) /\ role_after ev = Master.
Proof.
  intros S R Ac P. pose proof (proj1 (step_accepted _ _ _ S) Ac) as (inc & C & Hh).
  pose proof (tick_step _ _ _ C S) as T. destruct ev as [t o m m' out]; proj.
  destruct T; proj; try congruence;
  match goal with X : heard _ _ = Some ?q, Y : heard _ _ = Some p |- _ =>
    assert (q = p) by congruence; subst q end; try (types; lia).
  all: split; [|assumption]; unfold hold_seconds, byte_at;
    match goal with X : ptype ?q = _ |- context [ptype ?q] => rewrite X end; reflexivity.
Qed.

(** C30: a master that accepts an effect with hold time d > 0 makes its next own
    change d seconds later. *)
Theorem C30_hold_time_honoured e t0 h ev p :
  history e t0 (h ++ [ev]) -> role_before ev = Master ->
  accepted ev p -> ptype p = 2 \/ ptype p = 3 ->
  0 < hold_seconds p -> at_ ev + 1000 * hold_seconds p < wrap ->
  role_after ev = Master /\
  change_scheduled e t0 (h ++ [ev]) (at_ ev + 1000 * hold_seconds p).
Proof.
  intros HH R Ac P D W. destruct HH as [n H]; apply hist_last in H as (H & -> & G & O & L1 & L2 & S).
  destruct (master_packet_timer e ev p S R Ac P) as [E M]. split; [exact M|].
  pose proof (hist_t0 _ _ _ _ H) as P0.
  apply scheduled_intro; [|lia..]. rewrite E. unfold timer_of.
  destruct (Z.eqb_spec (hold_seconds p * 1000) 0); [lia|].
  unfold wrap in *. rewrite (u32_small (at_ ev) (hold_seconds p * 1000) (4294967296 - hold_seconds p * 1000)); lia.
Qed.
Print Assumptions C30_hold_time_honoured.

(** C31: a hold time of zero stops the automatic changes, for ever (also across
    clock wraps). *)
Theorem C31_zero_hold_stops_changes e t0 h ev p :
  history e t0 (h ++ [ev]) -> role_before ev = Master ->
  accepted ev p -> ptype p = 2 \/ ptype p = 3 -> hold_seconds p = 0 ->
  role_after ev = Master /\ change_never e t0 (h ++ [ev]).
Proof.
  intros HH R Ac P D. destruct HH as [n H]; apply hist_last in H as (H & -> & G & O & L1 & L2 & S).
  destruct (master_packet_timer e ev p S R Ac P) as [E M]. split; [exact M|].
  apply never_intro. rewrite E, D. reflexivity.
Qed.
Print Assumptions C31_zero_hold_stops_changes.

(** A master that made its own change makes the next one 60 s later. *)
Theorem C31_own_changes_every_minute e t0 h ev :
  history e t0 (h ++ [ev]) -> own_change ev -> at_ ev + 60000 < wrap ->
  change_scheduled e t0 (h ++ [ev]) (at_ ev + 60000).
Proof.
  intros HH (p & I) W. destruct HH as [n H]; apply hist_last in H as (H & -> & G & O & L1 & L2 & S).
  pose proof (hist_t0 _ _ _ _ H) as P0.
  apply scheduled_intro; [|lia..]. unfold wrap in *.
  rewrite <- (u32_small (at_ ev) 60000 (4294967296 - 60000)) by lia.
  destruct ev as [t o m m' out]; proj.
  destruct S as [inc out m' T|q R|v|v]; proj; own_in I. destruct T; own_in I. reflexivity.
Qed.
Print Assumptions C31_own_changes_every_minute.

(** A master with hold time 3 s: quiet until then, change right after. *)
Example C30_example : exists h ev ev1 ev2 ev3 ev4, history (env0 Arduino) 0 (h ++ [ev; ev1; ev2; ev3; ev4]) /\
  role_before ev = Master /\ accepted ev (effect_pkt 50 9 3 2) /\ hold_seconds (effect_pkt 50 9 3 2) = 3 /\
  ~ own_change ev1 /\ own_change ev4 /\ at_ ev4 = at_ ev + 3001.
Proof.
  run_as H (env0 Arduino) 0 [(7000, OTick None); (7010, OTick (Some (effect_pkt 50 9 3 2))); (10005, OTick None);
    (10006, OTick None); (10007, OTick None); (10011, OTick None)].
  match type of H with hist _ _ [?a; ?b; ?c; ?d; ?f; ?g] _ => exists [a], b, c, d, f, g end.
  split; [eexists; exact H|]. split; [reflexivity|]. split; [split; [reflexivity|left; reflexivity]|].
  split; [reflexivity|]. split; [intros (q & I); own_in I|]. split; [eexists; left; reflexivity|reflexivity].
Qed.

(** Zero hold: the change of the default cadence would be due at 60001. *)
Example C31_example : exists h ev ev1 ev2 ev3 ev4, history (env0 Arduino) 0 (h ++ [ev; ev1; ev2; ev3; ev4]) /\
  role_before ev = Master /\ accepted ev (effect_pkt 50 9 0 2) /\ hold_seconds (effect_pkt 50 9 0 2) = 0 /\
  (forall x, In x [ev1; ev2; ev3; ev4] -> undisturbed x) /\ 60000 < at_ ev4 /\ packet_free ev4 /\ ~ own_heartbeat ev4.
Proof.
  run_as H (env0 Arduino) 0 [(7000, OTick None); (7010, OTick (Some (effect_pkt 50 9 0 2))); (100000, OTick None);
    (100001, OTick None); (100002, OTick None); (100011, OTick None)].
  match type of H with hist _ _ [?a; ?b; ?c; ?d; ?f; ?g] _ => exists [a], b, c, d, f, g end.
  split; [eexists; exact H|]. split; [reflexivity|]. split; [split; [reflexivity|left; reflexivity]|].
  split; [reflexivity|]. split; [|split; [reflexivity|split]].
  - in_all; (split; [reflexivity|split; [reflexivity|split; [|discriminate]]]; intros p [C _]; discriminate).
  - split; [eexists; reflexivity|]. intros p [].
  - intros (p & (s & []) & _).
Qed.

(** C32. *)
Definition rebroadcast (ev : event) : Prop := by_site ByRebroadcast ev.

(** A re-broadcast is the current effect packet under another id, which becomes
    the current packet; nothing else is sent and the effect is not changed. *)
Theorem C32_rebroadcast_is_current e t0 h ev p : history e t0 (h ++ [ev]) ->
  In (Own ByRebroadcast p) (sent ev) ->
  same_content p (GetSetEffect (before ev)) /\ GetSetEffect (after ev) = p /\ sent ev = [Own ByRebroadcast p] /\
  GetEffectIndex (after ev) = GetEffectIndex (before ev) /\
  role_before ev = Master /\ role_after ev = Master /\ packet_free ev.
Proof.
  intros HH I. destruct HH as [n H]; apply hist_last in H as (H & -> & G & O & L1 & L2 & S).
  assert (F : role_before ev = Master /\ role_after ev = Master /\ packet_free ev).
  { pose proof S as S0. rewrite (step_packet_free e ev S0). destruct ev as [t o m m' out]; proj.
    destruct S as [inc out m' T|q R|v|v]; proj; own_in I. destruct T; own_in I. eauto. }
  destruct ev as [t o m m' out]; proj. unfold GetEffectIndex, GetSetEffect, same_content.
  destruct S as [inc out m' T|q R|v|v]; proj; own_in I. destruct T; own_in I. proj.
  split; [repeat split|]. split; [reflexivity|]. split; [reflexivity|]. split; [reflexivity|]. exact F.
Qed.
Print Assumptions C32_rebroadcast_is_current.

Theorem C32_rebroadcasts_apart e t0 h1 ev1 h2 ev2 :
  history e t0 (h1 ++ ev1 :: h2 ++ [ev2]) ->
  all_before (wrap - 2000) t0 (h1 ++ ev1 :: h2 ++ [ev2]) ->
  rebroadcast ev1 \/ took_over ev1 -> rebroadcast ev2 -> at_ ev1 + 2000 < at_ ev2.
Proof.
  intros HH B R1 (p & I). destruct HH as [n H].
  replace (h1 ++ ev1 :: h2 ++ [ev2]) with ((h1 ++ ev1 :: h2) ++ [ev2]) in *
    by (rewrite <- app_assoc; reflexivity).
  apply hist_last in H as (H & -> & G & O & L1 & L2 & S).
  apply all_before_last in B as [B Bt]. pose proof (hist_t0 _ _ _ _ H) as P0.
  pose proof (bc_timer_inv _ _ _ _ H B) as K.
  assert (X : state (before ev2) = Master /\ timer_due (u32 (at_ ev2)) (t_bc (before ev2)) = true).
  { destruct ev2 as [t o m m' out]; proj. destruct S as [inc out m' T|q R|v|v]; proj; own_in I.
    destruct T; own_in I. auto. }
  destruct X as [M X]. apply timer_due_iff in X; [|apply G]. rewrite u32_id in X by (unfold wrap in *; lia).
  destruct (K M) as (b & Ib & Xb & Tb & Ub). specialize (Ub ev1).
  assert (In ev1 (h1 ++ ev1 :: h2)) by (apply in_or_app; right; left; reflexivity).
  specialize (Ub H0 ltac:(destruct R1; auto)). lia.
Qed.
Print Assumptions C32_rebroadcasts_apart.

(** ... and they happen. *)
Theorem C32_rebroadcast_due_is_sent e t0 h ev :
  history e t0 (h ++ [ev]) -> all_before (wrap - 2000) t0 (h ++ [ev]) ->
  role_before ev = Master -> packet_free ev ->
  (forall x, In x h -> rebroadcast x \/ took_over x -> at_ x + 2000 < at_ ev) ->
  rebroadcast ev \/ by_site ByHeartbeat ev \/ own_change ev.
Proof.
  intros HH B R F Q. destruct HH as [n H].
  apply hist_last in H as (H & -> & G & O & L1 & L2 & S).
  apply all_before_last in B as [B Bt]. pose proof (hist_t0 _ _ _ _ H) as P0.
  destruct (bc_timer_inv _ _ _ _ H B R) as (b & Ib & Xb & Tb & Ub).
  assert (K : timer_due (u32 (at_ ev)) (t_bc (before ev)) = true).
  { apply timer_due_iff; [apply G|]. rewrite u32_id by (unfold wrap in *; lia).
    specialize (Q b Ib ltac:(unfold rebroadcast; tauto)). pose proof (hist_at _ _ _ _ _ H Ib). lia. }
  apply (step_packet_free e ev S) in F as (inc & C & Hh). pose proof (tick_step _ _ _ C S) as T.
  unfold rebroadcast, own_change, by_site. destruct ev as [t o m m' out]; proj.
  destruct T; proj; try congruence.
  - intuition congruence.
  - right; left. eexists; left; reflexivity.
  - right; right. eexists; left; reflexivity.
  - left. eexists; left; reflexivity.
Qed.
Print Assumptions C32_rebroadcast_due_is_sent.

Example C32_example : exists h1 ev1 ev0 ev2 p, history (env0 Arduino) 0 (h1 ++ ev1 :: [ev0] ++ [ev2]) /\
  all_before (wrap - 2000) 0 (h1 ++ ev1 :: [ev0] ++ [ev2]) /\ role_before ev2 = Master /\ packet_free ev2 /\
  took_over ev1 /\ rebroadcast ev2 /\ In (Own ByRebroadcast p) (sent ev2) /\ pdata p = pdata (effect_pkt 50 9 3 2).
Proof.
  run_as H (env0 Arduino) 0 [(7, OTick (Some (effect_pkt 50 9 3 2))); (7000, OTick None); (9001, OTick None); (9002, OTick None)].
  match type of H with hist _ _ [?a; ?b; ?c; ?d] _ => exists [a], b, c, d end. eexists.
  split; [eexists; exact H|]. split; [split; [reflexivity|in_all; reflexivity]|].
  split; [reflexivity|]. split; [split; [eexists; reflexivity|intros q [I|[]]; discriminate]|].
  split; [split; reflexivity|]. split; [eexists; left; reflexivity|].
  split; [left; reflexivity|reflexivity].
Qed.

(** C33: the cadence across a change of master. *)
Lemma takeover_timer e t0 h ev s : history e t0 (h ++ [ev]) -> took_over ev -> last_seen h s ->
  at_ ev < wrap -> 0 <= s <= at_ ev /\ t_ce (after ev) =
    let d := at_ ev - s in
    if 60000 <? d then u32 (at_ ev + 1) else if d =? 60000 then 0 else u32 (s + 60000).
Proof.
  intros HH [R1 R2] LS W. destruct HH as [n H]; apply hist_last in H as (H & -> & G & O & L1 & L2 & S).
  pose proof (hist_t0 _ _ _ _ H) as P0. pose proof (last_seen_eq _ _ _ _ _ H LS) as E.
  assert (B : 0 <= s <= at_ ev).
  { destruct LS as [[-> _]|(h1 & x & h2 & -> & _ & -> & _)]; [lia|].
    assert (I : In x (h1 ++ x :: h2)) by (apply in_or_app; right; left; reflexivity).
    pose proof (hist_at _ _ _ _ _ H I). specialize (L2 x I). lia. }
  split; [exact B|]. unfold wrap in *. rewrite u32_id in E by lia.
  destruct ev as [t o m m' out]; proj.
  destruct S as [inc out m' T|q R|v|v]; proj; try congruence. destruct T; proj; try congruence.
  unfold ce_takeover. cbv zeta. rewrite E. rewrite (u32_id t) by lia. rewrite (u32_id (t - s)) by lia.
  destruct (60000 <? t - s); [reflexivity|]. destruct (t - s =? 60000); [reflexivity|]. f_equal; lia.
Qed.

Theorem C33_cadence_survives_change_of_master e t0 h ev s :
  history e t0 (h ++ [ev]) -> took_over ev -> last_seen h s -> at_ ev + 60000 < wrap ->
  (at_ ev < s + 60000 -> change_scheduled e t0 (h ++ [ev]) (s + 60000)) /\
  (s + 60000 < at_ ev -> change_scheduled e t0 (h ++ [ev]) (at_ ev + 1)).
Proof.
  intros HH TO LS W. destruct (takeover_timer _ _ _ _ _ HH TO LS ltac:(lia)) as [B E].
  unfold wrap in *. cbv zeta in E. split; intros D.
  - apply scheduled_intro; [|unfold wrap; lia..]. rewrite E.
    destruct (Z.ltb_spec 60000 (at_ ev - s)); [lia|]. destruct (Z.eqb_spec (at_ ev - s) 60000); [lia|].
    apply u32_id; lia.
  - apply scheduled_intro; [|unfold wrap; lia..]. rewrite E.
    destruct (Z.ltb_spec 60000 (at_ ev - s)); [|lia]. apply u32_id; lia.
Qed.
Print Assumptions C33_cadence_survives_change_of_master.

(** Taking over exactly 60 s after the last change: no own change any more. *)
Theorem C33_exactly_a_minute_stops_changes e t0 h ev s :
  history e t0 (h ++ [ev]) -> took_over ev -> last_seen h s -> at_ ev < wrap ->
  at_ ev = s + 60000 -> change_never e t0 (h ++ [ev]).
Proof.
  intros HH TO LS W D. destruct (takeover_timer _ _ _ _ _ HH TO LS W) as [B E].
  cbv zeta in E. apply never_intro. rewrite E.
  destruct (Z.ltb_spec 60000 (at_ ev - s)); [lia|]. destruct (Z.eqb_spec (at_ ev - s) 60000); [reflexivity|lia].
Qed.
Print Assumptions C33_exactly_a_minute_stops_changes.

Lemma one_seen (P : event -> Prop) a l : P a -> (forall x, In x l -> ~ P x) ->
  exists h1 ev h2, a :: l = h1 ++ ev :: h2 /\ P ev /\ at_ a = at_ ev /\ forall x, In x h2 -> ~ P x.
Proof. intros A B. exists [], a, l. auto. Qed.

Example C33_example : exists h ev s, history (env0 Arduino) 0 (h ++ [ev]) /\ took_over ev /\ last_seen h s /\
  0 < s /\ at_ ev = s + 6993.
Proof.
  run_as H (env0 Arduino) 0 [(7, OTick (Some (effect_pkt 50 9 3 2))); (7000, OTick None)].
  match type of H with hist _ _ [?a; ?b] _ => exists [a], b, 7 end.
  split; [eexists; exact H|]. split; [split; reflexivity|]. split; [|split; reflexivity].
  right. apply one_seen with (P := effect_change_seen); [|intros x []].
  split; [reflexivity|]. eexists. split; [split; [reflexivity|left; reflexivity]|]. right. split; [reflexivity|].
  left. discriminate.
Qed.

Example C33_exact_example : exists h ev s, history (env0 Arduino) 0 (h ++ [ev]) /\ took_over ev /\ last_seen h s /\
  at_ ev = s + 60000.
Proof.
  run_as H (env0 Arduino) 0 [(7, OTick (Some (effect_pkt 50 9 3 2))); (60007, OTick None)].
  match type of H with hist _ _ [?a; ?b] _ => exists [a], b, 7 end.
  split; [eexists; exact H|]. split; [split; reflexivity|]. split; [|reflexivity].
  right. apply one_seen with (P := effect_change_seen); [|intros x []].
  split; [reflexivity|]. eexists. split; [split; [reflexivity|left; reflexivity]|]. right. split; [reflexivity|].
  left. discriminate.
Qed.

(** C34: repeating effect and palette does not move the date of the change a
    slave will make when it takes over: the takeover date of the last call is
    computed from the state before the repetition. *)
Theorem C34_repetition_keeps_cadence e t0 h x h2 ev s p :
  history e t0 (h ++ x :: h2 ++ [ev]) ->
  role_before x = Slave -> accepted x p -> ptype p = 2 ->
  nth 0 (pdata p) 0 = GetEffectIndex (before x) -> nth 0 (pdata p) 0 < 128 ->
  nth 2 (pdata p) 0 = nth 2 (pdata (GetSetEffect (before x))) 0 ->
  last_seen h s -> (forall y, In y h2 -> ~ effect_change_seen y) ->
  took_over ev -> at_ ev + 60000 < wrap -> at_ ev < s + 60000 ->
  change_scheduled e t0 (h ++ x :: h2 ++ [ev]) (s + 60000).
Proof.
  intros HH R Ac P E0 Lt E2 LS N TO W D.
  replace (h ++ x :: h2 ++ [ev]) with ((h ++ x :: h2) ++ [ev]) in * by (rewrite <- app_assoc; reflexivity).
  assert (Nx : ~ effect_change_seen x).
  { intros (_ & q & Aq & K). assert (q = p).
    { destruct Aq as [Aq _], Ac as [Ac _]. congruence. }
    subst q. lia. }
  apply (C33_cadence_survives_change_of_master _ _ _ _ s); auto.
  destruct LS as [[-> Ls]|(h1 & y & h3 & -> & Sy & -> & Ls)].
  - left. split; [reflexivity|]. intros y I. apply in_app_or in I as [I|[<-|I]]; auto.
  - right. exists h1, y, (h3 ++ x :: h2). split; [rewrite <- app_assoc; reflexivity|].
    split; [auto|]. split; [auto|]. intros z I. apply in_app_or in I as [I|[<-|I]]; auto.
Qed.
Print Assumptions C34_repetition_keeps_cadence.

(** Effects from 128 on: every repetition counts as a change and moves the date. *)
Theorem C34_repetition_of_high_effects_resets_cadence e t0 h x h2 ev p :
  history e t0 (h ++ x :: h2 ++ [ev]) ->
  role_before x = Slave -> accepted x p -> ptype p = 2 -> 128 <= nth 0 (pdata p) 0 ->
  (forall y, In y h2 -> ~ effect_change_seen y) ->
  took_over ev -> at_ ev + 60000 < wrap -> at_ ev < at_ x + 60000 ->
  change_scheduled e t0 (h ++ x :: h2 ++ [ev]) (at_ x + 60000).
Proof.
  intros HH R Ac P Ge N TO W D.
  replace (h ++ x :: h2 ++ [ev]) with ((h ++ x :: h2) ++ [ev]) in * by (rewrite <- app_assoc; reflexivity).
  apply (C33_cadence_survives_change_of_master _ _ _ _ (at_ x)); auto.
  right. exists h, x, h2. split; [reflexivity|]. split; [|auto]. split; [exact R|]. exists p. split; [exact Ac|]. right. auto.
Qed.
Print Assumptions C34_repetition_of_high_effects_resets_cadence.

(** Concretely: three announcements of the same effect, then a takeover; effect
    9 keeps the date 60007, effect 200 moves it to 65000. *)
Definition repeats (i : Z) : list (Z * op) :=
  [(7, OTick (Some (effect_pkt 50 i 3 2))); (5000, OTick (Some (effect_pkt 51 i 3 2)));
   (11990, OTick None); (60008, OTick None); (60009, OTick None); (60010, OTick None)].

Example C34_example : exists a b c d f g, history (env0 Arduino) 0 [a; b; c; d; f; g] /\
  accepted b (effect_pkt 51 9 3 2) /\ took_over c /\ own_change f /\ at_ f = 60009.
Proof.
  run_as H (env0 Arduino) 0 (repeats 9).
  match type of H with hist _ _ [?a; ?b; ?c; ?d; ?f; ?g] _ => exists a, b, c, d, f, g end.
  split; [eexists; exact H|]. split; [split; [reflexivity|left; reflexivity]|].
  split; [split; reflexivity|]. split; [eexists; left; reflexivity|reflexivity].
Qed.

Theorem C34_high_effects_refuted : exists a b c d f g, history (env0 Arduino) 0 [a; b; c; d; f; g] /\
  accepted a (effect_pkt 50 200 3 2) /\ accepted b (effect_pkt 51 200 3 2) /\ took_over c /\
  at_ a + 60000 < at_ f /\ packet_free f /\ packet_free g /\ ~ own_heartbeat g /\ ~ own_change f /\ ~ own_change g.
Proof.
  run_as H (env0 Arduino) 0 (repeats 200).
  match type of H with hist _ _ [?a; ?b; ?c; ?d; ?f; ?g] _ => exists a, b, c, d, f, g end.
  split; [eexists; exact H|]. split; [split; [reflexivity|left; reflexivity]|].
  split; [split; [reflexivity|left; reflexivity]|].
  split; [split; reflexivity|]. split; [reflexivity|].
  split; [split; [eexists; reflexivity|intros q I; own_in I]|].
  split; [split; [eexists; reflexivity|intros q I; own_in I]|].
  split; [intros (p & (s & I) & _); own_in I|].
  split; intros (q & I); own_in I.
Qed.
Print Assumptions C34_high_effects_refuted.
