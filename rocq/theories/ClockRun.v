(** Proof support: histories of a node whose clock moves while a call runs
    (RsmClock.v). *)
From Coq Require Import ZArith Lia List Bool.
From Coq Require Import ZifyBool.
From Verif Require Import CInt CIntFacts Packet SpecPacket PacketFacts NetMgr NetHist SpecNet NetFacts Rsm RsmStep RsmEval RsmHist SpecRsm RsmFacts RsmTime RoleFacts EffectFacts BeginMasterRace RsmClock ClockFacts RsmRun SpecClock.
Import ListNotations.
Open Scope Z_scope.
Ltac Zify.zify_post_hook ::= Z.div_mod_to_equations.

Inductive cstepR (e : env) (m : nat -> Z) (n : node) : op -> list rtx -> node -> Prop :=
| CS_tick inc out n' : ctick e m n inc out n' -> cstepR e m n (OTick inc) out n'
| CS_effect p : readable e SET_EFFECT 3 p ->
    cstepR e m n (OSetEffect p) [Own ByApi (set_id p (fresh e n))] (api_after e (m 0%nat) n p)
| CS_palettes v : cstepR e m n (OSetNumPalettes v) [] (with_num_palettes (u8 v) n)
| CS_effects v : cstepR e m n (OSetNumEffects v) [] (with_num_effects (u8 v) n).

Lemma cstep_inv e m o n u n' out : good n -> op_ok o ->
  step_clock e m o n = Ok (u, n', out) -> cstepR e m n o out n'.
Proof.
  intros G O E. destruct o as [inc|p|v|v]; cbn [step_clock] in E.
  - constructor. eapply ctick_inv; eauto.
  - rewrite SetEffect_eq in E by auto. destruct (readableb e SET_EFFECT 3 p) eqn:R; [|discriminate].
    inversion E; subst. constructor. now apply readableb_iff.
  - inversion E; subst. constructor.
  - inversion E; subst. constructor.
Qed.

Lemma ce_clock_range a b d n : 0 <= ce_clock a b d n < 4294967296.
Proof. unfold ce_clock. destruct (_ <? _); [apply u32_range|apply timer_of_range]. Qed.

Lemma ctick_good e m n inc out n' : good n -> inc_ok inc -> (forall i, 0 <= m i < 4294967296) ->
  ctick e m n inc out n' -> good n'.
Proof.
  intros G I Hn T. pose proof G as [].
  destruct T; try (pose proof (heard_wf _ _ _ I H) as W);
  try exact G; constructor; cbn [with_nm with_state with_next_state with_t_hb with_t_ce with_t_bc with_seen_at
     with_millis_offset with_effect_index with_num_palettes with_num_effects with_packet_ with_set_effect_packet
     with_tick_run with_rng hear nm state next_state t_hb t_ce t_bc seen_at millis_offset effect_index
     num_palettes num_effects packet_ set_effect_packet tick_run rng];
  unfold pick_packet, pick_id, fresh in *;
  try solve [repeat gd]; try apply ce_clock_range; try (destruct (changed n p); auto); auto.
Qed.

Lemma cstep_good e m n o out n' : good n -> op_ok o -> (forall i, 0 <= m i < 4294967296) ->
  cstepR e m n o out n' -> good n'.
Proof.
  intros G O Hn T. destruct T.
  - eapply ctick_good; eauto.
  - pose proof G as []. unfold api_after. constructor; cbn; unfold fresh; try solve [repeat gd].
  - pose proof G as []. constructor; cbn; try solve [repeat gd].
  - pose proof G as []. constructor; cbn; try solve [repeat gd].
Qed.

Lemma chist_good e t0 h n : chist e t0 h n -> good n.
Proof.
  induction 1.
  - exact (construct_good _ _ _ _ _ _ _ H0 H1 H2).
  - apply (cstep_good e (fun i => u32 (c i)) n o out n'); auto; [intros; apply u32_range|]. eapply cstep_inv; eauto.
Qed.

Lemma chist_t0 e t0 h n : chist e t0 h n -> 0 <= t0.
Proof. induction 1; auto. Qed.

Lemma forward_le c i j : forward c -> (i <= j)%nat -> c i <= c j.
Proof. intros F L. induction L; [lia|]. specialize (F m). lia. Qed.

Lemma forward_between c i : forward c -> (i <= 10)%nat -> c 0%nat <= c i <= c 10%nat.
Proof. intros F L. split; apply forward_le; auto; lia. Qed.

(** A call that continues a history. *)
Definition next_call (e : env) (t0 : Z) (h : list timed) (x : timed) : Prop :=
  forward (reading x) /\ at_ (what x) = started x /\ t0 <= started x /\ (forall y, In y h -> ended y <= started x) /\
  good (before (what x)) /\ op_ok (call (what x)) /\
  cstepR e (fun i => u32 (reading x i)) (before (what x)) (call (what x)) (sent (what x)) (after (what x)).

Lemma chist_last e t0 h x n : chist e t0 (h ++ [x]) n ->
  chist e t0 h (before (what x)) /\ n = after (what x) /\ next_call e t0 h x.
Proof.
  intros H. inversion H as [? ? ? ? ? ? ? ? ? Eh|h' n0 c o n' out H1 F L1 L2 O S Eh]; subst.
  - destruct h; discriminate.
  - apply app_inj_tail in Eh as [-> <-]. cbn. split; [exact H1|]. split; [reflexivity|].
    pose proof (chist_good _ _ _ _ H1) as G. unfold next_call, started; cbn. do 6 (split; [solve [auto]|]). eapply cstep_inv; eauto.
Qed.

Lemma chist_prefix e t0 h1 h2 n : chist e t0 (h1 ++ h2) n -> exists n1, chist e t0 h1 n1.
Proof.
  revert n. induction h2 as [|x h2 IH] using rev_ind; intros n H.
  - rewrite app_nil_r in H. eauto.
  - rewrite app_assoc in H. apply chist_last in H as (H & _). eauto.
Qed.

Lemma chist_ind2 e t0 (P : list timed -> node -> Prop) :
  (forall ty1 ty2 d1 d2, 0 <= t0 ->
     wf_packet (mkPacket 0 ty1 0 d1) -> wf_packet (mkPacket 0 ty2 0 d2) ->
     P [] (mkNode nm_init Slave Slave (u32 (u32 t0 + (5000 + Z.of_N (draw e 0%nat) mod 2000))) 0 0 0 0 0 1 1
        (mkPacket 0 ty1 0 d1) (writeSetEffect 1 0 0 (mkPacket 0 ty2 0 d2)) false 1%nat)) ->
  (forall h x, chist e t0 h (before (what x)) -> P h (before (what x)) -> next_call e t0 h x -> P (h ++ [x]) (after (what x))) ->
  forall h n, chist e t0 h n -> P h n.
Proof.
  intros B S h n H. induction H as [? ? ? ? ? ? ? ? Ec|h n c o n' out H IH F L1 L2 O E].
  - rewrite construct_eq in Ec. inversion Ec; subst. auto.
  - apply (S h (mkTimed c (mkEv (c 0%nat) o n n' out))); cbn; auto.
    pose proof (chist_good _ _ _ _ H) as G. unfold next_call, started; cbn. do 6 (split; [solve [auto]|]). eapply cstep_inv; eauto.
Qed.

Lemma ends_before_last T t0 h x : ends_before T t0 (h ++ [x]) -> ends_before T t0 h /\ ended x < T.
Proof. intros [A B]. repeat split; auto; intros; apply B; apply in_or_app; cbn; auto. Qed.

(** ** What a call accepts *)
Lemma ctick_forwarded e m n inc out n' p : ctick e m n inc out n' ->
  In (Forwarded p) out <-> heard n inc = Some p.
Proof.
  intros T. destruct T;
    match goal with Hh : heard _ _ = _ |- _ => rewrite Hh end; cbn; split; intros X;
    repeat match goal with
    | Y : _ \/ _ |- _ => destruct Y as [Y|Y]
    | Y : False |- _ => destruct Y
    end; try discriminate; try congruence; inversion X; subst; auto.
Qed.

Lemma cstep_accepted e m ev p :
  cstepR e m (before ev) (call ev) (sent ev) (after ev) ->
  accepted ev p <-> exists inc, call ev = OTick inc /\ heard (before ev) inc = Some p.
Proof.
  intros S. unfold accepted. split.
  - intros [C I]. rewrite C in S. inversion S; subst. exists (Some p). split; [auto|].
    eapply ctick_forwarded; eauto.
  - intros (inc & C & H). rewrite C in *. inversion S; subst. split.
    + now rewrite (heard_some _ _ _ H).
    + eapply ctick_forwarded; eauto.
Qed.

Lemma cstep_packet_free e m ev :
  cstepR e m (before ev) (call ev) (sent ev) (after ev) ->
  packet_free ev <-> exists inc, call ev = OTick inc /\ heard (before ev) inc = None.
Proof.
  intros S. unfold packet_free. split.
  - intros [[inc C] N]. exists inc. split; [auto|]. rewrite C in S. inversion S; subst.
    destruct (heard (before ev) inc) eqn:H; [|reflexivity]. exfalso. eapply N. eapply ctick_forwarded; eauto.
  - intros (inc & C & H). split; [eauto|]. intros p I. rewrite C in S. inversion S; subst.
    eapply ctick_forwarded in I; eauto. congruence.
Qed.

Lemma ccontact_heard e m t inc n n' out : ctick e m n inc out n' ->
  contact (mkEv t (OTick inc) n n' out) <->
  exists p, heard n inc = Some p /\ (ptype p = 0 \/ ptype p = 1).
Proof.
  intros T. unfold contact, accepted; cbn. split.
  - intros (p & (C & I) & K). exists p. split; [|auto]. eapply ctick_forwarded; eauto.
  - intros (p & H & K). exists p. split; [|auto]. split.
    + now rewrite (heard_some _ _ _ H).
    + eapply ctick_forwarded; eauto.
Qed.

(** ** The heartbeat timer *)
Definition canchor (t0 : Z) (h : list timed) (r : Z) : Prop :=
  (r = t0 \/ exists x, In x h /\ started x <= r <= ended x /\ (contact (what x) \/ stepped_down (what x))) /\
  t0 <= r /\ forall x, In x h -> contact (what x) \/ stepped_down (what x) \/ by_site ByHeartbeat (what x) -> started x <= r.
Definition cslave_inv (t0 : Z) (h : list timed) (n : node) : Prop :=
  exists r, canchor t0 h r /\ r + 5000 <= t_hb n <= r + 6999.
Definition cmaster_inv (h : list timed) (n : node) : Prop :=
  exists x r, In x h /\ by_site ByHeartbeat (what x) /\ started x <= r <= ended x /\ t_hb n = r + 1000 /\
    forall y, In y h -> by_site ByHeartbeat (what y) -> started y <= r.

Lemma cslave_keep t0 h n x n' : cslave_inv t0 h n -> t_hb n' = t_hb n ->
  ~ contact (what x) -> ~ stepped_down (what x) -> ~ by_site ByHeartbeat (what x) -> cslave_inv t0 (h ++ [x]) n'.
Proof.
  intros (r & (A & B & C) & D) E N1 N2 N3. exists r. split; [|lia]. repeat split; auto.
  - destruct A as [A|(y & I & A)]; [auto|]. right. exists y. split; [apply in_or_app; auto|exact A].
  - intros y I X. apply in_app_or in I as [I|[<-|[]]]; [auto|tauto].
Qed.
Lemma cslave_new t0 h x r n' : t0 <= r -> started x <= r <= ended x -> (forall y, In y h -> ended y <= started x) ->
  (forall y, In y h -> started y <= ended y) ->
  contact (what x) \/ stepped_down (what x) -> r + 5000 <= t_hb n' <= r + 6999 -> cslave_inv t0 (h ++ [x]) n'.
Proof.
  intros A B C C2 D E. exists r. split; [|exact E]. repeat split; [|exact A|].
  - right. exists x. repeat split; auto; try lia. apply in_or_app; cbn; auto.
  - intros y I _. apply in_app_or in I as [I|[<-|[]]]; [|lia]. specialize (C y I). specialize (C2 y I). lia.
Qed.
Lemma cmaster_keep h n x n' : cmaster_inv h n -> t_hb n' = t_hb n -> ~ by_site ByHeartbeat (what x) ->
  cmaster_inv (h ++ [x]) n'.
Proof.
  intros (y & r & I & B & R & T & U) E N. exists y, r. split; [apply in_or_app; auto|]. repeat split; auto; try lia.
  intros z J Z0. apply in_app_or in J as [J|[<-|[]]]; [auto|tauto].
Qed.
Lemma cmaster_new h x r n' : started x <= r <= ended x -> (forall y, In y h -> ended y <= started x) ->
  (forall y, In y h -> started y <= ended y) -> by_site ByHeartbeat (what x) -> t_hb n' = r + 1000 -> cmaster_inv (h ++ [x]) n'.
Proof.
  intros A B B2 C D. exists x, r. split; [apply in_or_app; cbn; auto|]. repeat split; auto; try lia.
  intros z J _. apply in_app_or in J as [J|[<-|[]]]; [|lia]. specialize (B z J). specialize (B2 z J). lia.
Qed.

Lemma chist_ordered e t0 h n : chist e t0 h n -> forall x, In x h -> t0 <= started x <= ended x.
Proof.
  intros H. pattern h, n. revert h n H. apply (chist_ind2 e t0).
  - intros. contradiction.
  - intros h' x H' IH (F & _ & L & _) y I. apply in_app_or in I as [I|[<-|[]]]; [auto|].
    split; [exact L|]. apply (forward_between (reading x) 10 F). lia.
Qed.

Ltac cct := cbn [what]; eapply ccontact_heard; [eassumption|]; eexists; split; [eassumption|];
  unfold HEARTBEAT, CLAIM_MASTER in *; lia.
Ltac cno_ct := cbn [what]; let X := fresh in let p' := fresh in intros X;
  eapply ccontact_heard in X; [|eassumption]; destruct X as (p' & X & ?);
  first [ congruence
        | match goal with Y : heard _ _ = Some ?p |- _ =>
            assert (p' = p) by congruence; subst p';
            unfold HEARTBEAT, CLAIM_MASTER, SET_EFFECT, SET_CONTROL in *; lia end ].

Lemma ctimer_inv e t0 h n : chist e t0 h n -> ends_before (wrap - 7000) t0 h ->
  match state n with Slave => cslave_inv t0 h n | Master => cmaster_inv h n end.
Proof.
  intros H. pattern h, n. revert h n H. apply (chist_ind2 e t0).
  - intros ty1 ty2 d1 d2 P0 W1 W2 [T0 _]. unfold wrap in T0. cbn [state].
    exists t0. split; [repeat split; [auto|lia|intros ? []]|]. cbn [t_hb].
    pose proof (Z.mod_pos_bound (Z.of_N (draw e 0%nat)) 2000 ltac:(lia)).
    rewrite (u32_small t0 _ (wrap - 7000)) by (unfold wrap; lia). lia.
  - intros h x H IH (F & At & L1 & L2 & G & O & S) B. apply ends_before_last in B as [B Bt].
    specialize (IH B). unfold wrap in Bt.
    pose proof (chist_t0 _ _ _ _ H) as P0. pose proof (chist_ordered _ _ _ _ H) as Ord.
    assert (Ord2 : forall y, In y h -> started y <= ended y) by (intros y Iy; apply (Ord y Iy)).
    assert (Bw : forall i, (i <= 10)%nat -> started x <= reading x i <= ended x) by (intros i Hi; apply (forward_between _ i F Hi)).
    destruct x as [c [t o n n' out]]; cbn [reading what started ended at_ call before after sent] in *.
    assert (Us : forall i d, (i <= 10)%nat -> 0 <= d <= 7000 -> u32 (u32 (c i) + d) = c i + d).
    { intros i d Hi Hd. specialize (Bw i Hi). unfold started, ended in Bw, L1, Bt; cbn in Bw, L1, Bt. apply (u32_small (c i) d (wrap - 7000)); unfold wrap; lia. }
    destruct S as [inc out n' T|p R|v|v].
    + pose proof T as T0. destruct T; proj;
      try (destruct (state n) eqn:St; [|]); try discriminate; try congruence;
      try (match goal with Hs : state n = _ |- _ => rewrite Hs in * end);
      try (eapply cslave_keep; [eassumption|reflexivity|cno_ct|cbn [what]; no_sd|cbn [what]; no_hb]);
      try (eapply cmaster_keep; [eassumption|reflexivity|cbn [what]; no_hb]).
      * apply (cmaster_new h _ (c 6%nat)); auto; [apply Bw; lia|eexists; cbn; left; reflexivity|]. proj. apply Us; lia.
      * apply (cmaster_new h _ (c 4%nat)); auto; [apply Bw; lia|eexists; cbn; left; reflexivity|]. proj. apply Us; lia.
      * pose proof (Bw 4%nat ltac:(lia)). apply (cslave_new t0 h _ (c 4%nat)); auto; [lia|left; cct|]. proj. pose proof (silence_range e n). rewrite Us by lia. lia.
      * pose proof (Bw 3%nat ltac:(lia)). apply (cslave_new t0 h _ (c 3%nat)); auto; [lia|left; cct|]. proj. pose proof (silence_range e n). rewrite Us by lia. lia.
      * pose proof (Bw 5%nat ltac:(lia)). apply (cslave_new t0 h _ (c 5%nat)); auto; [lia|left; cct|]. proj. rewrite Us by lia. lia.
      * pose proof (Bw 5%nat ltac:(lia)). apply (cslave_new t0 h _ (c 5%nat)); auto; [lia|left; cct|]. proj. pose proof (silence_range e n). rewrite Us by lia. lia.
    + proj. destruct (state n) eqn:St.
      * eapply cslave_keep; [eassumption|reflexivity| | cbn [what]; no_sd | cbn [what]; no_hb].
        cbn [what]; intros X; apply contact_tick in X as [? X]; discriminate.
      * eapply cmaster_keep; [eassumption|reflexivity|cbn [what]; no_hb].
    + proj. destruct (state n) eqn:St.
      * eapply cslave_keep; [eassumption|reflexivity| | cbn [what]; no_sd | cbn [what]; no_hb].
        cbn [what]; intros X; apply contact_tick in X as [? X]; discriminate.
      * eapply cmaster_keep; [eassumption|reflexivity|cbn [what]; no_hb].
    + proj. destruct (state n) eqn:St.
      * eapply cslave_keep; [eassumption|reflexivity| | cbn [what]; no_sd | cbn [what]; no_hb].
        cbn [what]; intros X; apply contact_tick in X as [? X]; discriminate.
      * eapply cmaster_keep; [eassumption|reflexivity|cbn [what]; no_hb].
Qed.

(** ** Own heartbeats *)
Lemma ceffect_type e t0 h n : chist e t0 h n -> api_ok (map what h) ->
  ptype (set_effect_packet n) = 2 \/ ptype (set_effect_packet n) = 3.
Proof.
  intros H. pattern h, n. revert h n H. apply (chist_ind2 e t0).
  - intros. cbn. auto.
  - intros h x H IH (F & At & L1 & L2 & G & O & S) B. rewrite map_app in B. apply api_ok_last in B as [B Bp]. specialize (IH B).
    destruct x as [c [t o n n' out]]; cbn [reading what started] in *; proj.
    destruct S as [inc out n' T|p R|v|v]; proj; auto.
    destruct T; proj; auto.
Qed.

Lemma cheartbeat_site e t0 h x : chistory e t0 (h ++ [x]) -> api_ok (map what (h ++ [x])) ->
  own_heartbeat (what x) <-> by_site ByHeartbeat (what x).
Proof.
  intros [n H] A. apply chist_last in H as (H & -> & F & At & L1 & L2 & G & O & S).
  rewrite map_app in A. apply api_ok_last in A as [A Ap]. pose proof (ceffect_type _ _ _ _ H A) as E.
  destruct x as [c [t o n n' out]]; cbn [reading what started] in *; proj. unfold own_heartbeat, originated, by_site. proj.
  split.
  - intros (p & (s & I) & P).
    destruct S as [inc out n' T|q R|v|v]; proj; try (destruct I; fail).
    + destruct T; cbn in I;
      repeat (destruct I as [I|I]; [inversion I; subst; clear I|]); try destruct I;
      proj; try (eexists; left; reflexivity); try discriminate;
      exfalso; cbn in P; unfold SET_EFFECT, CLAIM_MASTER in *; lia.
    + destruct I as [I|[]]. inversion I; subst. specialize (Ap q eq_refl). cbn in P. lia.
  - intros (p & I). exists p. split; [eauto|].
    destruct S as [inc out n' T|q R|v|v]; proj; try (destruct I; fail);
    [|destruct I as [I|[]]; inversion I].
    destruct T; cbn in I;
      repeat (destruct I as [I|I]; [inversion I; subst; clear I|]); try destruct I; reflexivity.
Qed.

Lemma cheartbeat_site_in e t0 h x n : chist e t0 h n -> api_ok (map what h) -> In x h ->
  own_heartbeat (what x) <-> by_site ByHeartbeat (what x).
Proof.
  intros H A I. apply in_split in I as (h1 & h2 & ->). rewrite cons_snoc in H, A. rewrite map_app in A.
  apply chist_prefix in H as (m & H). eapply cheartbeat_site; [exists m; exact H|]. eapply api_ok_app; eauto.
Qed.

(** ** Network time *)
Lemma coffset_step e c ev : cstepR e (fun i => u32 (c i)) (before ev) (call ev) (sent ev) (after ev) ->
  millis_offset (after ev) = millis_offset (before ev) \/
  (role_before ev = Slave /\ exists p, accepted ev p /\ ptype p = 0 /\
     millis_offset (after ev) = i32 (u32 (big_endian (payload 4 p) - u32 (i32 (u32 (c 3%nat)))))).
Proof.
  intros S. pose proof S as S0. destruct ev as [t o n n' out]; proj.
  destruct S as [inc out n' T|q R|v|v]; proj; auto.
  destruct T; proj; auto. right. split; [assumption|]. exists p. split; [|split; [assumption|reflexivity]].
  eapply cstep_accepted; [exact S0|]. proj. eauto.
Qed.

(** ** The effect-change timer *)
Lemma cce_step e m ev : cstepR e m (before ev) (call ev) (sent ev) (after ev) ->
  undisturbed ev -> ~ own_change ev -> t_ce (after ev) = t_ce (before ev).
Proof.
  intros S (R1 & R2 & Q & N) NC. pose proof S as S0.
  assert (YA : forall p inc, call ev = OTick inc -> heard (before ev) inc = Some p -> accepted ev p).
  { intros p inc C Hq. apply (cstep_accepted e m ev p S0). eauto. }
  destruct ev as [t o n n' out]; proj.
  destruct S as [inc out n' T|p R|v|v]; proj; try reflexivity; [|exfalso; eapply N; reflexivity].
  specialize (fun p => YA p inc eq_refl).
  destruct T; proj; try reflexivity; try congruence.
  - exfalso. apply NC. eexists; left; reflexivity.
  - exfalso. pose proof (Q p (YA p ltac:(assumption))). types; lia.
  - exfalso. pose proof (Q p (YA p ltac:(assumption))). types; lia.
Qed.

Lemma cce_kept e t0 h x0 h2 n : chist e t0 ((h ++ [x0]) ++ h2) n ->
  (forall x, In x h2 -> undisturbed (what x)) -> (forall x, In x h2 -> ~ own_change (what x)) ->
  t_ce n = t_ce (after (what x0)).
Proof.
  revert n. induction h2 as [|x h2 IH] using rev_ind; intros n H U N.
  - rewrite app_nil_r in H. apply chist_last in H as (_ & -> & _). reflexivity.
  - rewrite app_assoc in H. apply chist_last in H as (H & -> & F & At & L1 & L2 & G & O & S).
    rewrite (cce_step _ _ _ S); [|apply U|apply N]; try (apply in_or_app; right; left; reflexivity).
    apply IH; auto; intros y I; [apply U|apply N]; apply in_or_app; auto.
Qed.

Lemma cown_change_iff e m ev : cstepR e m (before ev) (call ev) (sent ev) (after ev) ->
  (own_change ev -> timer_due (m 1%nat) (t_ce (before ev)) = true) /\
  (timer_due (m 1%nat) (t_ce (before ev)) = true -> role_before ev = Master -> packet_free ev ->
   ~ own_heartbeat ev -> own_change ev).
Proof.
  intros S. split.
  - intros (p & I). destruct ev as [t o n n' out]; proj.
    destruct S as [inc out n' T|q R|v|v]; proj; own_in I.
    destruct T; own_in I; assumption.
  - intros D R F NH. apply (cstep_packet_free e m ev S) in F as (inc & C & Hh).
    destruct ev as [t o n n' out]; proj. subst o. inversion S as [? ? ? T| | |]; subst.
    destruct T; proj; try congruence.
    + intuition congruence.
    + exfalso. apply NH. eexists. split; [eexists; left; reflexivity|reflexivity].
    + eexists; left; reflexivity.
Qed.

Lemma cscheduled_intro e t0 h x0 lo hi : lo <= t_ce (after (what x0)) <= hi -> 0 < t_ce (after (what x0)) -> hi < wrap ->
  cchange_scheduled e t0 (h ++ [x0]) lo hi.
Proof.
  intros E P W h2 x HH B U N. destruct HH as [n H]. rewrite app_assoc in H, B.
  apply chist_last in H as (H & -> & F & At & L1 & L2 & G & O & S).
  apply ends_before_last in B as [B Bt]. pose proof (chist_t0 _ _ _ _ H) as P0.
  assert (K : t_ce (before (what x)) = t_ce (after (what x0))).
  { apply (cce_kept _ _ _ _ _ _ H); auto. intros y I; apply U, in_or_app; auto. }
  pose proof (forward_between _ 1 F ltac:(lia)) as B1. unfold started, ended in *.
  destruct (cown_change_iff e _ (what x) S) as [A1 A2]. cbv beta in A1, A2.
  rewrite u32_id in * by (unfold wrap in *; lia). rewrite K in *.
  split.
  - intros Lt C. apply A1 in C. apply timer_due_iff in C; lia.
  - intros Lt Pf NH. apply A2; auto; [apply timer_due_iff; lia|].
    apply U. apply in_or_app; right; left; reflexivity.
Qed.

Lemma cnever_intro e t0 h x0 : t_ce (after (what x0)) = 0 -> cchange_never e t0 (h ++ [x0]).
Proof.
  intros E h2. induction h2 as [h2 IH] using (well_founded_induction (Wf_nat.well_founded_ltof _ (@length timed))).
  intros x [n H] U. rewrite app_assoc in H. pose proof H as H0.
  apply chist_last in H as (H & -> & F & At & L1 & L2 & G & O & S).
  assert (N : forall y, In y h2 -> ~ own_change (what y)).
  { intros y I. apply in_split in I as (k1 & k2 & ->). apply (IH k1).
    - unfold Wf_nat.ltof. rewrite app_length; cbn; lia.
    - rewrite (cons_snoc k1), app_assoc in H. apply chist_prefix in H. exact H.
    - intros z I. apply U. apply in_or_app; left. apply in_app_or in I as [I|[<-|[]]]; apply in_or_app; cbn; auto. }
  assert (K : t_ce (before (what x)) = t_ce (after (what x0))).
  { eapply cce_kept; [exact H| |exact N]. intros y I. apply U, in_or_app; auto. }
  destruct (cown_change_iff e _ (what x) S) as [A1 _]. intros C. apply A1 in C. rewrite K, E in C. discriminate.
Qed.

(** ** The last change seen *)
Lemma cseen_step e c ev : good (before ev) -> op_ok (call ev) ->
  cstepR e (fun i => u32 (c i)) (before ev) (call ev) (sent ev) (after ev) ->
  (effect_change_seen ev /\ seen_at (after ev) = u32 (c 3%nat)) \/
  (~ effect_change_seen ev /\ seen_at (after ev) = seen_at (before ev)).
Proof.
  intros G O S. pose proof S as S0.
  assert (NA : forall p q inc, call ev = OTick inc -> heard (before ev) inc = Some q -> accepted ev p -> p = q).
  { intros p q inc C Hq A. apply (cstep_accepted _ _ ev p S0) in A as (inc' & C' & A). congruence. }
  assert (NN : forall p inc, call ev = OTick inc -> heard (before ev) inc = None -> ~ accepted ev p).
  { intros p inc C Hq A. apply (cstep_accepted _ _ ev p S0) in A as (inc' & C' & A). congruence. }
  assert (YA : forall p inc, call ev = OTick inc -> heard (before ev) inc = Some p -> accepted ev p).
  { intros p inc C Hq. apply (cstep_accepted _ _ ev p S0). eauto. }
  unfold effect_change_seen. destruct ev as [t o n n' out]; proj.
  destruct S as [inc out n' T|q R|v|v]; proj;
    try (right; split; [intros (_ & p & (C & _) & _); discriminate|reflexivity]).
  specialize (fun p q => NA p q inc eq_refl). specialize (fun p => NN p inc eq_refl). specialize (fun p => YA p inc eq_refl).
  destruct T; proj;
    try (right; split; [intros (_ & q & A & _); exact (NN q ltac:(assumption) A)|reflexivity]);
    try (right; split; [intros (? & q & A & X); apply (NA q p) in A; [subst q|assumption]; types; try congruence; lia|reflexivity]).
  - assert (Hwf : forall b, 0 <= b < 256 -> (b =? effect_index n) = false <-> (b <> u8 (effect_index n) \/ 128 <= b)).
    { intros b Rb. pose proof (g_ei _ G). unfold u8. lia. }
    assert (CH : changed n p = true <-> (nth 0 (pdata p) 0 <> GetEffectIndex n \/ 128 <= nth 0 (pdata p) 0 \/
         nth 2 (pdata p) 0 <> nth 2 (pdata (GetSetEffect n)) 0)).
    { unfold changed, GetEffectIndex, GetSetEffect. rewrite orb_true_iff, !negb_true_iff.
      assert (B0 : 0 <= byte_at (pdata p) 0 < 256).
      { apply wf_byte. match goal with X : heard n inc = Some p |- _ => rewrite (heard_some _ _ _ X) in O end. exact O. }
      rewrite (Hwf _ B0). rewrite Z.eqb_neq. unfold byte_at. tauto. }
    destruct (changed n p) eqn:E.
    + left. split; [|reflexivity]. split; [assumption|]. exists p. split; [auto|]. right. split; [types; auto|].
      apply CH. reflexivity.
    + right. split; [|reflexivity]. intros (_ & q & A & X). apply (NA q p) in A; [subst q|assumption].
      types. destruct X as [X|[_ X]]; [lia|]. apply CH in X. discriminate.
  - left. split; [|reflexivity]. split; [assumption|]. exists p. split; [auto|]. left; types; auto.
Qed.

Lemma clast_seen_eq e t0 h n lo hi : chist e t0 h n -> clast_seen h lo hi ->
  exists s, lo <= s <= hi /\ seen_at n = u32 s.
Proof.
  intros H. revert lo hi. pattern h, n. revert h n H. apply (chist_ind2 e t0).
  - intros ? ? ? ? _ _ _ lo hi [(-> & -> & _)|(h1 & ev & h2 & E & _)]; [|destruct h1; discriminate].
    exists 0. split; [lia|reflexivity].
  - intros h x H IH (F & At & L1 & L2 & G & O & S) lo hi LS.
    destruct (cseen_step e (reading x) (what x) G O S) as [[Y E]|[N E]].
    + destruct LS as [(-> & -> & X)|(h1 & y & h2 & Eh & Sx & -> & -> & X)].
      * exfalso. apply (X x); [apply in_or_app; right; left; auto|auto].
      * destruct h2 as [|z h2 _] using rev_ind.
        -- apply app_inj_tail in Eh as [_ <-]. exists (reading x 3%nat). split; [|exact E].
           apply (forward_between _ 3 F); lia.
        -- exfalso. rewrite app_comm_cons, app_assoc in Eh. apply app_inj_tail in Eh as [_ <-].
           apply (X x); [apply in_or_app; right; left; auto|auto].
    + rewrite E. apply IH. destruct LS as [(-> & -> & X)|(h1 & y & h2 & Eh & Sx & -> & -> & X)].
      * left. repeat split. intros; apply X, in_or_app; auto.
      * right. destruct h2 as [|z h2 _] using rev_ind.
        -- apply app_inj_tail in Eh as [_ <-]. contradiction.
        -- rewrite app_comm_cons, app_assoc in Eh. apply app_inj_tail in Eh as [-> <-].
           exists h1, y, h2. do 4 (split; [solve [auto]|]). intros; apply X, in_or_app; auto.
Qed.

Lemma clast_seen_range e t0 h n lo hi : chist e t0 h n -> clast_seen h lo hi ->
  0 <= lo <= hi /\ forall x, next_call e t0 h x -> hi <= started x.
Proof.
  intros H LS. pose proof (chist_t0 _ _ _ _ H) as P0. split.
  - destruct LS as [(-> & -> & _)|(h1 & y & h2 & -> & _ & -> & -> & _)]; [lia|].
    pose proof (chist_ordered _ _ _ _ H y ltac:(apply in_or_app; right; left; reflexivity)). lia.
  - intros x (F & At & L1 & L2 & _). destruct LS as [(-> & -> & _)|(h1 & y & h2 & -> & _ & -> & -> & _)]; [lia|].
    apply L2. apply in_or_app; right; left; reflexivity.
Qed.

(** ** Executable histories *)

(** The clock jumps from [b] to [b + g] just before reading number [k]. *)
Definition jump (b g : Z) (k : nat) : nat -> Z := fun i => if (i <? k)%nat then b else b + g.
Lemma jump_forward b g k : 0 <= g -> forward (jump b g k).
Proof. intros H i. unfold jump. destruct (Nat.ltb_spec i k), (Nat.ltb_spec (S i) k); lia. Qed.

Fixpoint cexec (e : env) (last : Z) (n : node) (calls : list (Z * Z * nat * op)) : option (list timed * node) :=
  match calls with
  | [] => Some ([], n)
  | (b, g, k, o) :: rest =>
      if (last <=? jump b g k 0) && (0 <=? g) && op_okb o then
        match step_clock e (fun i => u32 (jump b g k i)) o n with
        | Ok (_, n', out) =>
            match cexec e (jump b g k 10) n' rest with
            | Some (h, m) => Some (mkTimed (jump b g k) (mkEv (jump b g k 0) o n n' out) :: h, m)
            | None => None
            end
        | _ => None
        end
      else None
  end.
Definition cexecute (e : env) (t0 : Z) (calls : list (Z * Z * nat * op)) : option (list timed * node) :=
  cexec e t0 (start e t0) calls.

Lemma cexec_hist e t0 calls : forall last h n h' m,
  chist e t0 h n -> t0 <= last -> (forall x, In x h -> ended x <= last) ->
  cexec e last n calls = Some (h', m) -> chist e t0 (h ++ h') m.
Proof.
  induction calls as [|[[[b g] k] o] calls IH]; intros last h n h' m H L1 L2 E; cbn [cexec] in E.
  - inversion E; subst. now rewrite app_nil_r.
  - destruct ((last <=? jump b g k 0) && (0 <=? g) && op_okb o) eqn:C; [|discriminate].
    apply andb_true_iff in C as [C C3]. apply andb_true_iff in C as [C1 C2].
    destruct (step_clock e (fun i => u32 (jump b g k i)) o n) as [[[[] n'] out]| |] eqn:S; try discriminate.
    destruct (cexec e (jump b g k 10) n' calls) as [[h2 m2]|] eqn:X; [|discriminate]. inversion E; subst.
    assert (F : forward (jump b g k)) by (apply jump_forward; lia).
    pose proof (forward_between _ 10 F ltac:(lia)) as B.
    replace (h ++ mkTimed (jump b g k) (mkEv (jump b g k 0) o n n' out) :: h2)
      with ((h ++ [mkTimed (jump b g k) (mkEv (jump b g k 0) o n n' out)]) ++ h2) by (rewrite <- app_assoc; reflexivity).
    eapply IH; [| |  |exact X]; [|lia|].
    + constructor; auto; [lia| |now apply op_okb_ok]. intros y I. apply L2 in I. lia.
    + intros y I. apply in_app_or in I as [I|[<-|[]]]; [apply L2 in I; lia|unfold ended; cbn; lia].
Qed.

Lemma cexecute_hist e t0 calls h n : 0 <= t0 -> cexecute e t0 calls = Some (h, n) -> chist e t0 h n.
Proof.
  intros P E. unfold cexecute in E. change h with ([] ++ h). eapply cexec_hist; [| | |exact E].
  - unfold start. destruct (construct e (u32 t0) 0 0 zero58 zero58) eqn:C.
    + econstructor; [exact P| | |exact C]; apply wf_packetb_ok; vm_compute; reflexivity.
    + rewrite construct_eq in C. discriminate.
    + rewrite construct_eq in C. discriminate.
  - lia.
  - intros ? [].
Qed.

Ltac crun_as H e t0 calls :=
  let r := eval vm_compute in (cexecute e t0 calls) in
  match r with
  | Some (?h, ?n) =>
      assert (H : chist e t0 h n) by (apply (cexecute_hist e t0 calls); [lia | vm_compute; reflexivity])
  end.
