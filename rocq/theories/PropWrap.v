(** The 49-day clock wrap: C35.  Real time is unbounded here; millis() is real
    time modulo 2^32. *)
From Coq Require Import ZArith Lia List Bool.
From Coq Require Import ZifyBool.
From Verif Require Import CInt CIntFacts Packet SpecPacket PacketFacts NetMgr NetHist SpecNet NetFacts Rsm RsmStep RsmEval RsmHist SpecRsm RsmFacts RsmTime RoleFacts EffectFacts RsmRun.
Import ListNotations.
Open Scope Z_scope.
Ltac Zify.zify_post_hook ::= Z.div_mod_to_equations.

(** The random part of every silence delay makes it d ms long. *)
Definition silence_is (e : env) (d : Z) : Prop :=
  forall k, 5000 + Z.of_N (draw e k) mod 2000 = d.

Lemma hb_zero_step e ev : stepR e (u32 (at_ ev)) (before ev) (call ev) (sent ev) (after ev) ->
  t_hb (before ev) = 0 -> ~ (role_before ev = Slave /\ contact ev) -> ~ stepped_down ev ->
  t_hb (after ev) = 0 /\ role_after ev = role_before ev /\ ~ by_site ByHeartbeat ev.
Proof.
  intros S E NC ND. pose proof S as S0.
  destruct ev as [t o m m' out]; proj.
  assert (D0 : timer_due (u32 t) (t_hb m) = false) by (rewrite E; reflexivity).
  destruct S as [inc out m' T|q R|v|v]; proj;
    try (split; [exact E|split; [reflexivity|intros (p & I); own_in I]]).
  assert (Cn : forall p, heard m inc = Some p -> ptype p = 0 \/ ptype p = 1 -> state m = Slave -> False).
  { intros p Hp Tp Sl. apply NC. split; [exact Sl|]. exists p. split; [|exact Tp].
    apply (step_accepted e (mkEv t (OTick inc) m m' out) p S0). eexists; split; [reflexivity|exact Hp]. }
  destruct T; proj; try congruence;
    try (split; [exact E|split; [congruence|intros (p' & I); own_in I]]).
  - exfalso. eapply Cn; eauto.
  - exfalso. eapply Cn; eauto.
  - exfalso. apply ND. split; proj; auto.
  - exfalso. apply ND. split; proj; auto.
Qed.

Lemma hb_zero e t0 h ev0 h2 n : hist e t0 ((h ++ [ev0]) ++ h2) n ->
  t_hb (after ev0) = 0 ->
  (state (after ev0) = Slave -> forall x, In x h2 -> ~ contact x) ->
  (state (after ev0) = Master -> forall x, In x h2 -> ~ stepped_down x) ->
  t_hb n = 0 /\ state n = state (after ev0) /\
  forall x, In x h2 -> ~ by_site ByHeartbeat x /\ role_after x = state (after ev0).
Proof.
  revert n. induction h2 as [|y h2 IH] using rev_ind; intros n H E Q1 Q2.
  - rewrite app_nil_r in H. apply hist_last in H as (_ & -> & _). split; [exact E|]. split; [reflexivity|intros x []].
  - rewrite app_assoc in H. apply hist_last in H as (H & -> & G & O & L1 & L2 & S).
    destruct (IH _ H E) as (I1 & I2 & I3). { intros; apply Q1; auto. apply in_or_app; auto. }
    { intros; apply Q2; auto. apply in_or_app; auto. }
    assert (Iy : In y (h2 ++ [y])) by (apply in_or_app; right; left; auto).
    destruct (hb_zero_step _ _ S I1) as (J1 & J2 & J3).
    { intros [R C]. unfold role_before, GetCurrentState in R. rewrite I2 in R. exact (Q1 R y Iy C). }
    { intros D. pose proof D as [R _]. unfold role_before, GetCurrentState in R. rewrite I2 in R. exact (Q2 R y Iy D). }
    unfold role_after, role_before, GetCurrentState in *.
    split; [exact J1|]. split; [congruence|].
    intros x I. apply in_app_or in I as [I|[<-|[]]]; [auto|]. split; [auto|congruence].
Qed.

Lemma u32_add_u32 t d : u32 (u32 t + d) = u32 (t + d).
Proof. unfold u32. rewrite Zplus_mod_idemp_l. reflexivity. Qed.

Lemma hb_timer_after e ev : stepR e (u32 (at_ ev)) (before ev) (call ev) (sent ev) (after ev) ->
  by_site ByHeartbeat ev -> t_hb (after ev) = u32 (at_ ev + 1000) /\ state (after ev) = Master.
Proof.
  intros S (p & I). rewrite <- u32_add_u32. destruct ev as [t o m m' out]; proj.
  destruct S as [inc out m' T|q R|v|v]; proj; own_in I. destruct T; own_in I; auto.
Qed.

Lemma hb_timer_contact e ev d : stepR e (u32 (at_ ev)) (before ev) (call ev) (sent ev) (after ev) ->
  silence_is e d -> contact ev -> role_after ev = Slave -> t_hb (after ev) = u32 (at_ ev + d).
Proof.
  intros S D (p & Ac & Tp) R. rewrite <- u32_add_u32.
  pose proof (proj1 (step_accepted _ _ _ S) Ac) as (inc & C & Hh). pose proof (tick_step _ _ _ C S) as T.
  destruct ev as [t o m m' out]; proj.
  destruct T; proj; try congruence;
  match goal with X : heard _ _ = Some ?q, Y : heard _ _ = Some p |- _ =>
    assert (q = p) by congruence; subst q end; try (types; lia);
  unfold silence; rewrite D; reflexivity.
Qed.

Lemma last_step e t0 h ev0 h2 n : hist e t0 ((h ++ [ev0]) ++ h2) n ->
  stepR e (u32 (at_ ev0)) (before ev0) (call ev0) (sent ev0) (after ev0).
Proof.
  intros H. apply hist_prefix in H as [m H]. apply hist_last in H as (_ & _ & _ & _ & _ & _ & S). exact S.
Qed.

(** A master whose heartbeat falls exactly 1000 ms before the wrap never sends
    another one for as long as it stays master. *)
Theorem C35_heartbeats_stop e t0 h ev0 h2 :
  history e t0 (h ++ ev0 :: h2) -> by_site ByHeartbeat ev0 -> (at_ ev0 + 1000) mod wrap = 0 ->
  (forall x, In x h2 -> ~ stepped_down x) ->
  forall x, In x h2 -> role_after x = Master /\ ~ by_site ByHeartbeat x.
Proof.
  intros [n H] B Z0 Q x I. rewrite cons_snoc in H. pose proof (last_step _ _ _ _ _ _ H) as S.
  destruct (hb_timer_after e ev0 S B) as [E M].
  destruct (hb_zero _ _ _ _ _ _ H) as (_ & _ & K); [rewrite E; exact Z0|congruence|auto|].
  rewrite M in K. destruct (K x I); auto.
Qed.
Print Assumptions C35_heartbeats_stop.

(** A slave whose silence delay ends exactly at the wrap never takes over,
    however long the network stays silent. *)
Theorem C35_takeover_never e t0 h ev0 h2 d :
  history e t0 (h ++ ev0 :: h2) -> silence_is e d -> contact ev0 -> role_after ev0 = Slave ->
  (at_ ev0 + d) mod wrap = 0 -> (forall x, In x h2 -> ~ contact x) ->
  forall x, In x h2 -> role_after x = Slave.
Proof.
  intros [n H] D C R Z0 Q x I. rewrite cons_snoc in H. pose proof (last_step _ _ _ _ _ _ H) as S.
  pose proof (hb_timer_contact e ev0 d S D C R) as E.
  unfold role_after, GetCurrentState in R.
  destruct (hb_zero _ _ _ _ _ _ H) as (_ & _ & K); [rewrite E; exact Z0|auto|congruence|].
  rewrite R in K. apply K; auto.
Qed.
Print Assumptions C35_takeover_never.

(** A slave whose silence delay passes the wrap takes over at its next
    packet-free radio tick before the wrap, without any silence. *)
Theorem C35_takeover_at_once e t0 h ev0 ev d :
  history e t0 (h ++ [ev0; ev]) -> silence_is e d -> contact ev0 -> role_after ev0 = Slave ->
  wrap < at_ ev0 mod wrap + d -> at_ ev / wrap = at_ ev0 / wrap -> packet_free ev ->
  took_over ev.
Proof.
  intros [n H] D C R W Q F. change (h ++ [ev0; ev]) with (h ++ [ev0] ++ [ev]) in H. rewrite app_assoc in H.
  pose proof (last_step _ _ _ _ _ _ H) as S0. pose proof (hb_timer_contact e ev0 d S0 D C R) as E.
  pose proof H as H'. apply hist_last in H as (H & -> & G & O & L1 & L2 & S).
  pose proof (hist_t0 _ _ _ _ H) as P0.
  assert (Le : at_ ev0 <= at_ ev) by (apply L2, in_or_app; right; left; reflexivity).
  apply hist_last in H as (H & Eb & _).
  assert (Dr : 5000 <= d <= 6999) by (specialize (D 0%nat); lia).
  assert (K : timer_due (u32 (at_ ev)) (t_hb (before ev)) = true).
  { apply timer_due_iff; [apply G|]. rewrite Eb, E. unfold u32, wrap in *. lia. }
  unfold role_after, GetCurrentState in R. rewrite <- Eb in R.
  apply (step_packet_free e ev S) in F as (inc & C' & Hh). pose proof (tick_step _ _ _ C' S) as T.
  destruct ev as [t o m m' out]; proj. destruct T; proj; try congruence; [intuition congruence|].
  split; proj; auto.
Qed.
Print Assumptions C35_takeover_at_once.

(** A master in its last second before the wrap sends a heartbeat at every
    packet-free radio tick. *)
Theorem C35_heartbeats_at_once e t0 h ev0 ev :
  history e t0 (h ++ [ev0; ev]) -> by_site ByHeartbeat ev0 ->
  wrap < at_ ev0 mod wrap + 1000 -> at_ ev / wrap = at_ ev0 / wrap -> packet_free ev ->
  by_site ByHeartbeat ev.
Proof.
  intros [n H] B W Q F. change (h ++ [ev0; ev]) with (h ++ [ev0] ++ [ev]) in H. rewrite app_assoc in H.
  pose proof (last_step _ _ _ _ _ _ H) as S0. destruct (hb_timer_after e ev0 S0 B) as [E M].
  apply hist_last in H as (H & -> & G & O & L1 & L2 & S).
  pose proof (hist_t0 _ _ _ _ H) as P0.
  assert (Le : at_ ev0 <= at_ ev) by (apply L2, in_or_app; right; left; reflexivity).
  apply hist_last in H as (H & Eb & _).
  assert (K : timer_due (u32 (at_ ev)) (t_hb (before ev)) = true).
  { apply timer_due_iff; [apply G|]. rewrite Eb, E. unfold u32, wrap in *. lia. }
  rewrite <- Eb in M.
  apply (step_packet_free e ev S) in F as (inc & C' & Hh). pose proof (tick_step _ _ _ C' S) as T.
  destruct ev as [t o m m' out]; proj. destruct T; proj; try congruence; [intuition congruence|].
  eexists; left; reflexivity.
Qed.
Print Assumptions C35_heartbeats_at_once.

(** All four happen. *)
Example C35_stop_example : exists h ev0 h2, history (env_const Arduino 7%N) 4294959000 (h ++ ev0 :: h2) /\ by_site ByHeartbeat ev0 /\ (at_ ev0 + 1000) mod wrap = 0 /\ (forall x, In x h2 -> ~ stepped_down x) /\ exists x, In x h2 /\ packet_free x /\ at_ ev0 + 1000000 < at_ x.
Proof.
  run_as H (env_const Arduino 7%N) 4294959000 [(4294966296, OTick None); (4294967297, OTick None); (4295967297, OTick None);
    (4295967297, OTick None); (4295967297, OTick None)].
  match type of H with hist _ _ [?a; ?b; ?c; ?d; ?f] _ => exists [], a, [b; c; d; f] end.
  split; [eexists; exact H|]. split; [eexists; left; reflexivity|]. split; [reflexivity|].
  split. { intros x I [_ X]. repeat (destruct I as [<-|I]; [discriminate X|]). destruct I. }
  eexists. split; [right; right; right; left; reflexivity|].
  split; [split; [eexists; reflexivity|intros q []]|reflexivity].
Qed.

Example C35_never_example : exists h ev0 h2 d, history (env_const Host 7%N) 4294959000 (h ++ ev0 :: h2) /\ silence_is (env_const Host 7%N) d /\ contact ev0 /\ role_after ev0 = Slave /\ (at_ ev0 + d) mod wrap = 0 /\ (forall x, In x h2 -> ~ contact x) /\ exists x, In x h2 /\ packet_free x /\ at_ ev0 + 1000000 < at_ x.
Proof.
  run_as H (env_const Host 7%N) 4294959000 [(4294962289, OTick (Some (heartbeat_pkt 9 1))); (4295967297, OTick None)].
  match type of H with hist _ _ [?a; ?b] _ => exists [], a, [b], 5007 end.
  split; [eexists; exact H|]. split; [intros k; reflexivity|].
  split; [eexists; split; [split; [reflexivity|left; reflexivity]|left; reflexivity]|].
  split; [reflexivity|]. split; [reflexivity|]. split.
  { intros x [<-|[]] (p & [C _] & _). discriminate C. }
  eexists. split; [left; reflexivity|].
  split; [split; [eexists; reflexivity|intros q []]|reflexivity].
Qed.

Example C35_at_once_example : exists h ev0 ev d, history (env_const Host 7%N) 4294959000 (h ++ [ev0; ev]) /\ silence_is (env_const Host 7%N) d /\ contact ev0 /\ role_after ev0 = Slave /\ wrap < at_ ev0 mod wrap + d /\ at_ ev / wrap = at_ ev0 / wrap /\ packet_free ev /\ at_ ev = at_ ev0 + 1.
Proof.
  run_as H (env_const Host 7%N) 4294959000 [(4294962290, OTick (Some (heartbeat_pkt 9 1))); (4294962291, OTick None)].
  match type of H with hist _ _ [?a; ?b] _ => exists [], a, b, 5007 end.
  split; [eexists; exact H|]. split; [intros k; reflexivity|].
  split; [eexists; split; [split; [reflexivity|left; reflexivity]|left; reflexivity]|].
  split; [reflexivity|]. split; [reflexivity|]. split; [reflexivity|].
  split; [split; [eexists; reflexivity|]|reflexivity]. intros q I; cbn in I. intuition discriminate.
Qed.

Example C35_storm_example : exists h ev0 ev, history (env_const Host 7%N) 4294959000 (h ++ [ev0; ev]) /\ by_site ByHeartbeat ev0 /\ wrap < at_ ev0 mod wrap + 1000 /\ at_ ev / wrap = at_ ev0 / wrap /\ packet_free ev /\ at_ ev = at_ ev0 + 1.
Proof.
  run_as H (env_const Host 7%N) 4294959000 [(4294966990, OTick None); (4294966991, OTick None)].
  match type of H with hist _ _ [?a; ?b] _ => exists [], a, b end.
  split; [eexists; exact H|]. split; [eexists; left; reflexivity|].
  split; [reflexivity|]. split; [reflexivity|].
  split; [split; [eexists; reflexivity|]|reflexivity]. intros q I; cbn in I. intuition discriminate.
Qed.
