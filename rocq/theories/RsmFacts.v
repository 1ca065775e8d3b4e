(** Proof support: steps, the data invariant, and invariants over histories. *)
From Coq Require Import ZArith Lia List Bool.
From Coq Require Import ZifyBool.
From Verif Require Import CInt CIntFacts Packet SpecPacket PacketFacts NetMgr NetHist SpecNet NetFacts Rsm RsmStep RsmEval RsmHist SpecRsm.
Import ListNotations.
Open Scope Z_scope.
Ltac Zify.zify_post_hook ::= Z.div_mod_to_equations.

Definition api_delay (p : packet) : Z :=
  if byte_at (pdata p) 1 =? 0 then 60000 else byte_at (pdata p) 1 * 1000.

Definition api_after (e : env) (now : Z) (n : node) (p : packet) : node :=
  with_t_ce (u32 (now + api_delay p))
    (with_effect_index (i8 (byte_at (pdata p) 0))
      (with_set_effect_packet (set_id p (fresh e n))
        (with_nm (nm_push (nm n) (fresh e n)) (with_rng (S (rng n)) n)))).

Lemma SetEffect_eq e now n p : good n -> wf_packet p ->
  SetEffect e now p n =
  if readableb e SET_EFFECT 3 p
  then Ok (tt, api_after e now n p, [Own ByApi (set_id p (fresh e n))])
  else Abort.
Proof.
  intros G W. unfold SetEffect. unfold mupd at 1, mget. unfold mbind at 1 2 3.
  rewrite msend_eq by (cbn; apply G).
  unfold readEffectIndexFromSetEffect, readDelayFromSetEffect, mupd, mlift. unfold mbind.
  rewrite read_eval.
  destruct (readableb e SET_EFFECT 3 p) eqn:R; [|reflexivity].
  cbn [set_effect_packet with_effect_index with_set_effect_packet with_nm].
  rewrite !read_eval.
  change (readableb e SET_EFFECT 3 (set_id p (fresh e (with_set_effect_packet p n))))
    with (readableb e SET_EFFECT 3 p). rewrite R.
  cbn [pdata set_id]. unfold api_after, api_delay.
  pose proof (wf_byte p 1 W) as B.
  destruct (byte_at (pdata p) 1 =? 0) eqn:E.
  - rewrite SetTimer_ce. reflexivity.
  - rewrite SetTimer_ce, u32_delay by auto. unfold timer_of.
    destruct (Z.eqb_spec (byte_at (pdata p) 1 * 1000) 0); [lia|]. reflexivity.
Qed.

(** One successful call. *)
Inductive stepR (e : env) (now : Z) (n : node) : op -> list rtx -> node -> Prop :=
| S_tick inc out n' : tick e now n inc out n' -> stepR e now n (OTick inc) out n'
| S_effect p : readable e SET_EFFECT 3 p ->
    stepR e now n (OSetEffect p) [Own ByApi (set_id p (fresh e n))] (api_after e now n p)
| S_palettes v : stepR e now n (OSetNumPalettes v) [] (with_num_palettes (u8 v) n)
| S_effects v : stepR e now n (OSetNumEffects v) [] (with_num_effects (u8 v) n).

Lemma step_inv e now o n u n' out : good n -> op_ok o ->
  step e now o n = Ok (u, n', out) -> stepR e now n o out n'.
Proof.
  intros G O E. destruct o as [inc|p|v|v]; cbn [step] in E.
  - constructor. eapply tick_inv; eauto.
  - rewrite SetEffect_eq in E by auto. destruct (readableb e SET_EFFECT 3 p) eqn:R; [|discriminate].
    inversion E; subst. constructor. now apply readableb_iff.
  - inversion E; subst. constructor.
  - inversion E; subst. constructor.
Qed.

Lemma set_id_wf p i : wf_packet p -> 0 <= i < 65536 -> wf_packet (set_id p i).
Proof. unfold wf_packet, set_id; cbn. intuition. Qed.

Lemma list_set_byte l i v : Forall is_byte l -> Forall is_byte (list_set l i (u8 v)).
Proof. intros; apply list_set_Forall; auto. unfold is_byte. apply u8_range. Qed.

Lemma writeHeartbeat_wf t p : wf_packet p -> wf_packet (writeHeartbeat t p).
Proof.
  unfold wf_packet, writeHeartbeat, is_byte, HEARTBEAT; cbn [pid ptype dlen pdata]. intros (A & B & C & D & E). repeat split; try lia; fold is_byte in *.
  - rewrite !list_set_length; auto.
  - repeat apply list_set_byte; auto.
Qed.

Lemma writeSetEffect_wf a b c p : wf_packet p -> wf_packet (writeSetEffect a b c p).
Proof.
  unfold wf_packet, writeSetEffect, is_byte, SET_EFFECT; cbn [pid ptype dlen pdata]. intros (A & B & C & D & E). repeat split; try lia; fold is_byte in *.
  - rewrite !list_set_length; auto.
  - repeat apply list_set_byte; auto.
Qed.

Lemma hb_packet_wf e now n : wf_packet (packet_ n) -> wf_packet (hb_packet e now n).
Proof. intros. apply set_id_wf; [apply writeHeartbeat_wf; auto|apply id_of_range]. Qed.

Lemma claim_packet_wf e n : wf_packet (packet_ n) -> wf_packet (claim_packet e n).
Proof.
  unfold wf_packet, claim_packet, is_byte, CLAIM_MASTER; cbn [pid ptype dlen pdata]. intros (A & B & C & D & E).
  pose proof (id_of_range (plat e) (draw e (S (rng n)))). repeat split; auto; lia.
Qed.

Lemma i32_range z : -2147483648 <= i32 z < 2147483648.
Proof. unfold i32; cbv zeta; destruct (z mod 4294967296 <? 2147483648) eqn:E; lia. Qed.

Lemma timer_of_range now d : 0 <= timer_of now d < 4294967296.
Proof. unfold timer_of. destruct (d =? 0); [lia|apply u32_range]. Qed.

Lemma ce_takeover_range now n : 0 <= ce_takeover now n < 4294967296.
Proof.
  unfold ce_takeover. cbv zeta. destruct (_ <? _); [apply u32_range|].
  destruct (_ =? _); [lia|apply u32_range].
Qed.

Lemma hear_good p n : good n -> good (hear p n).
Proof. intros []; constructor; cbn; auto. apply nm_push_wf; auto. Qed.

Ltac gd := match goal with
  | |- 0 <= u32 _ < _ => apply u32_range
  | |- 0 <= u8 _ < _ => apply u8_range
  | |- _ <= i32 _ < _ => apply i32_range
  | |- _ <= i8 _ < _ => apply i8_range
  | |- 0 <= timer_of _ _ < _ => apply timer_of_range
  | |- 0 <= ce_takeover _ _ < _ => apply ce_takeover_range
  | |- 0 <= id_of _ _ < _ => apply id_of_range
  | |- nm_wf (nm_push _ _) => apply nm_push_wf
  | |- wf_packet (hb_packet _ _ _) => apply hb_packet_wf
  | |- wf_packet (claim_packet _ _) => apply claim_packet_wf
  | |- wf_packet (set_id _ _) => apply set_id_wf
  | |- wf_packet (writeSetEffect _ _ _ _) => apply writeSetEffect_wf
  | |- _ => assumption
  | |- @eq role _ _ => congruence
  end.

Lemma heard_wf n inc p : inc_ok inc -> heard n inc = Some p -> wf_packet p.
Proof. intros I H. apply heard_some in H. subst. exact I. Qed.

Lemma tick_good e now n inc out n' : good n -> inc_ok inc -> 0 <= now < 4294967296 ->
  tick e now n inc out n' -> good n'.
Proof.
  intros G I Hn T. pose proof G as [].
  destruct T; try (pose proof (heard_wf _ _ _ I H) as W);
  try exact G; constructor; cbn [with_nm with_state with_next_state with_t_hb with_t_ce with_t_bc with_seen_at
     with_millis_offset with_effect_index with_num_palettes with_num_effects with_packet_ with_set_effect_packet
     with_tick_run with_rng hear nm state next_state t_hb t_ce t_bc seen_at millis_offset effect_index
     num_palettes num_effects packet_ set_effect_packet tick_run rng];
  unfold pick_packet, pick_id, fresh in *;
  try solve [repeat gd].
  destruct (changed n p); auto.
Qed.

Lemma step_good e now n o out n' : good n -> op_ok o -> 0 <= now < 4294967296 ->
  stepR e now n o out n' -> good n'.
Proof.
  intros G O Hn T. destruct T.
  - eapply tick_good; eauto.
  - pose proof G as []. unfold api_after. constructor; cbn; unfold fresh; try solve [repeat gd].
  - pose proof G as []. constructor; cbn; try solve [repeat gd].
  - pose proof G as []. constructor; cbn; try solve [repeat gd].
Qed.

Lemma construct_eq e now ty1 ty2 d1 d2 :
  construct e now ty1 ty2 d1 d2 =
  Ok (mkNode nm_init Slave Slave (u32 (now + (5000 + Z.of_N (draw e 0%nat) mod 2000))) 0 0 0 0 0 1 1
        (mkPacket 0 ty1 0 d1) (writeSetEffect 1 0 0 (mkPacket 0 ty2 0 d2)) false 1%nat).
Proof.
  unfold construct. rewrite (mbind_ok _ _ _ _ _ _ (beginSlave_eq e now _)). reflexivity.
Qed.

Lemma construct_good e now ty1 ty2 d1 d2 n :
  wf_packet (mkPacket 0 ty1 0 d1) -> wf_packet (mkPacket 0 ty2 0 d2) ->
  construct e now ty1 ty2 d1 d2 = Ok n -> good n.
Proof.
  intros W1 W2 E. rewrite construct_eq in E. inversion E; subst. constructor; cbn -[writeSetEffect];
    try solve [repeat gd]; try lia.
  apply nm_init_wf.
Qed.

Lemma hist_good e t0 h n : hist e t0 h n -> good n.
Proof.
  induction 1.
  - exact (construct_good _ _ _ _ _ _ _ H0 H1 H2).
  - apply (step_good e (u32 t) n o out n'); auto; [apply u32_range|]. eapply step_inv; eauto.
Qed.

Lemma hist_t0 e t0 h n : hist e t0 h n -> 0 <= t0.
Proof. induction 1; auto. Qed.

Lemma hist_at e t0 h n ev : hist e t0 h n -> In ev h -> t0 <= at_ ev.
Proof.
  induction 1; intros I; [destruct I|]. apply in_app_or in I. destruct I as [I|[<-|[]]]; auto.
Qed.

(** Inversion of a history at its last event. *)
Lemma hist_last e t0 h ev n : hist e t0 (h ++ [ev]) n ->
  hist e t0 h (before ev) /\ n = after ev /\ good (before ev) /\ op_ok (call ev) /\
  t0 <= at_ ev /\ (forall ev', In ev' h -> at_ ev' <= at_ ev) /\
  stepR e (u32 (at_ ev)) (before ev) (call ev) (sent ev) (after ev).
Proof.
  intros H. inversion H.
  - destruct h; discriminate.
  - apply app_inj_tail in H0 as [-> <-]. subst n'. cbn. pose proof (hist_good _ _ _ _ H1).
    split; [exact H1|]. split; [reflexivity|]. split; [assumption|].
    split; [assumption|]. split; [assumption|]. split; [assumption|].
    eapply step_inv; eauto.
Qed.

(** Any prefix of a history is one. *)
Lemma hist_prefix e t0 h1 h2 n : hist e t0 (h1 ++ h2) n -> exists n1, hist e t0 h1 n1.
Proof.
  revert n. induction h2 as [|ev h2 IH] using rev_ind; intros n H.
  - rewrite app_nil_r in H. eauto.
  - rewrite app_assoc in H. apply hist_last in H as (H & _). eauto.
Qed.

(** Step-wise view of histories, to be used for induction. *)
Lemma hist_ind2 e t0 (P : list event -> node -> Prop) :
  (forall ty1 ty2 d1 d2, 0 <= t0 ->
     wf_packet (mkPacket 0 ty1 0 d1) -> wf_packet (mkPacket 0 ty2 0 d2) ->
     P [] (mkNode nm_init Slave Slave (u32 (u32 t0 + (5000 + Z.of_N (draw e 0%nat) mod 2000))) 0 0 0 0 0 1 1
        (mkPacket 0 ty1 0 d1) (writeSetEffect 1 0 0 (mkPacket 0 ty2 0 d2)) false 1%nat)) ->
  (forall h ev, hist e t0 h (before ev) -> P h (before ev) -> good (before ev) -> op_ok (call ev) ->
     t0 <= at_ ev -> (forall ev', In ev' h -> at_ ev' <= at_ ev) ->
     stepR e (u32 (at_ ev)) (before ev) (call ev) (sent ev) (after ev) -> P (h ++ [ev]) (after ev)) ->
  forall h n, hist e t0 h n -> P h n.
Proof.
  intros B S h n H. induction H.
  - rewrite construct_eq in H2. inversion H2; subst. auto.
  - apply (S h (mkEv t o n n' out)); cbn; auto.
    + eapply hist_good; eauto.
    + eapply step_inv; eauto. eapply hist_good; eauto.
Qed.

(** The network manager remembers the last five transmitted ids. *)
Definition untag (t : rtx) : tx := match t with Forwarded p => Relay p | Own _ p => Orig p end.

Lemma step_nm e now n o out n' s : nm_inv (nm n) s -> stepR e now n o out n' ->
  nm_inv (nm n') (s ++ map untag out).
Proof.
  intros N T. assert (K : forall t, nm_inv (nm_push (nm n) (pid (tx_packet t))) (s ++ [t])).
  { intros t. apply nm_push_inv; auto. }
  destruct T as [? ? ? T|p R| |]; [|apply (K (Orig (set_id p (fresh e n))))|cbn; now rewrite app_nil_r..].
  destruct T; cbn [map untag]; try (rewrite app_nil_r; exact N);
  try match goal with |- nm_inv _ (_ ++ [?t]) => exact (K t) end.
  change [Relay p; Orig (claim_packet e n)] with ([Relay p] ++ [Orig (claim_packet e n)]).
  rewrite app_assoc. apply (nm_push_inv _ _ (Orig (claim_packet e n))). apply (K (Relay p)).
Qed.

Lemma hist_nm e t0 h n : hist e t0 h n -> nm_inv (nm n) (map untag (concat (map sent h))).
Proof.
  intros H. pattern h, n. apply (hist_ind2 e t0); auto.
  - intros. cbn. apply nm_inv_init.
  - intros. rewrite map_app, concat_app, map_app. cbn. rewrite app_nil_r. eapply step_nm; eauto.
Qed.

Lemma all_ids_eq h : ids_of (map untag (concat (map sent h))) = all_ids h.
Proof. unfold ids_of, all_ids. rewrite map_map. apply map_ext. intros [|]; reflexivity. Qed.

Lemma heard_iff e t0 h n p : hist e t0 h n ->
  heard n (Some p) = Some p <-> ~ In (pid p) (last5 (all_ids h)).
Proof.
  intros H. apply hist_nm in H as [W V]. rewrite <- all_ids_eq, <- V.
  cbn. pose proof (existsb_window (nm n) (pid p) W) as E.
  destruct (existsb _ _).
  - split; [discriminate|]. intros C. exfalso. apply C, E. reflexivity.
  - split; [|reflexivity]. intros _ C. apply E in C. discriminate.
Qed.

(** Acceptance as seen in an event. *)
Lemma tick_forwarded e now n inc out n' p : tick e now n inc out n' ->
  In (Forwarded p) out <-> heard n inc = Some p.
Proof.
  intros T. destruct T;
    match goal with Hh : heard _ _ = _ |- _ => rewrite Hh end; cbn; split; intros X;
    repeat match goal with
    | Y : _ \/ _ |- _ => destruct Y as [Y|Y]
    | Y : False |- _ => destruct Y
    end; try discriminate; try congruence; inversion X; subst; auto.
Qed.

Lemma step_accepted e ev p :
  stepR e (u32 (at_ ev)) (before ev) (call ev) (sent ev) (after ev) ->
  accepted ev p <-> exists inc, call ev = OTick inc /\ heard (before ev) inc = Some p.
Proof.
  intros S. unfold accepted. split.
  - intros [C I]. rewrite C in S. inversion S; subst. exists (Some p). split; [auto|].
    eapply tick_forwarded; eauto.
  - intros (inc & C & H). rewrite C in *. inversion S; subst. split.
    + now rewrite (heard_some _ _ _ H).
    + eapply tick_forwarded; eauto.
Qed.

Lemma step_packet_free e ev :
  stepR e (u32 (at_ ev)) (before ev) (call ev) (sent ev) (after ev) ->
  packet_free ev <-> exists inc, call ev = OTick inc /\ heard (before ev) inc = None.
Proof.
  intros S. unfold packet_free. split.
  - intros [[inc C] N]. exists inc. split; [auto|]. rewrite C in S. inversion S; subst.
    destruct (heard (before ev) inc) eqn:H; [|reflexivity]. exfalso. eapply N. eapply tick_forwarded; eauto.
  - intros (inc & C & H). split; [eauto|]. intros p I. rewrite C in S. inversion S; subst.
    eapply tick_forwarded in I; eauto. congruence.
Qed.
