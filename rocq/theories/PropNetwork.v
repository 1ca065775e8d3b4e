(** Where the effects shown in a network come from: C90, C91. *)
From Coq Require Import ZArith Lia List Bool.
From Coq Require Import ZifyBool.
From Verif Require Import CInt CIntFacts Packet SpecPacket PacketFacts NetMgr NetHist SpecNet NetFacts Rsm RsmStep RsmEval RsmHist SpecRsm RsmFacts RsmTime RoleFacts RsmRun EffectFacts PropHeartbeat PropEffect PropNetTime.
Import ListNotations.
Open Scope Z_scope.
Ltac Zify.zify_post_hook ::= Z.div_mod_to_equations.

(** Two packets carry the same order: same type and same content, which is three
    bytes for set-effect and four for control packets. *)
Definition says (p q : packet) : Prop :=
  ptype p = ptype q /\
  payload (if ptype q =? 2 then 3%nat else 4%nat) p = payload (if ptype q =? 2 then 3%nat else 4%nat) q.

Definition about_effects (p : packet) : Prop := ptype p = 2 \/ ptype p = 3.

(** The medium does not invent orders: every set-effect or control packet
    accepted in the run was transmitted earlier in the run by some node; bytes
    after the content, the id and the length may be anything. *)
Definition genuine (tr : run) : Prop :=
  forall a i ev b p, tr = a ++ (i, ev) :: b -> accepted ev p -> about_effects p ->
    exists j ev' x, In (j, ev') a /\ In x (sent ev') /\ says p (rtx_packet x).

(** The nodes have just been switched on. *)
Definition fresh_network (w : network) : Prop := forall i, n_past w i = [].

(** Somebody decided to show this: an application by SetEffect, or a node
    changing the effect by itself. *)
Definition decided (tr : run) (p : packet) : Prop :=
  exists j ev q, In (j, ev) tr /\ says p q /\ (call ev = OSetEffect q \/ In (Own ByChange q) (sent ev)).

(** What a node holds at power-up: effect 1, palette 0, held for 0 s. *)
Definition powerup_order (p : packet) : Prop := ptype p = 2 /\ payload 3 p = [1; 0; 0].

Definition has_origin (tr : run) (p : packet) : Prop := powerup_order p \/ decided tr p.

Lemma says_trans p q r : says p q -> says q r -> says p r.
Proof.
  intros [A B] [C D]. split; [congruence|]. rewrite <- D. rewrite <- C in *. exact B.
Qed.
Lemma says_refl p : says p p.
Proof. split; reflexivity. Qed.
Lemma says_content p q : same_content p q -> says p q.
Proof. intros (A & _ & C). split; [exact A|]. unfold payload. rewrite C. reflexivity. Qed.

Lemma origin_says tr p q : says p q -> has_origin tr q -> has_origin tr p.
Proof.
  intros S [[P Y]|(j & ev & r & I & S2 & K)].
  - left. destruct S as [S1 S2]. rewrite P in S2. change (2 =? 2) with true in S2. cbv iota in S2. split; [congruence|]. rewrite S2. exact Y.
  - right. exists j, ev, r. split; [exact I|]. split; [eapply says_trans; eauto|exact K].
Qed.
Lemma origin_more tr tr' p : incl tr tr' -> has_origin tr p -> has_origin tr' p.
Proof.
  intros L [P|(j & ev & r & I & S2 & K)]; [left; exact P|right]. exists j, ev, r. auto.
Qed.

(** What a node sends of its own about effects, and what it shows. *)
Lemma own_about_effects e ev s p : stepR e (u32 (at_ ev)) (before ev) (call ev) (sent ev) (after ev) ->
  good (before ev) -> In (Own s p) (sent ev) -> about_effects p ->
  same_content p (GetSetEffect (before ev)) \/ In (Own ByChange p) (sent ev) \/
  exists q, call ev = OSetEffect q /\ same_content p q.
Proof.
  intros S G I A. destruct ev as [t o m m' out]; proj. unfold GetSetEffect, about_effects in *.
  destruct S as [inc out m' T|q R|v|v]; proj; own_in I.
  - destruct T; own_in I; proj; try (cbn in A; unfold HEARTBEAT, CLAIM_MASTER in A; lia).
    + right; left. left. reflexivity.
    + left. repeat split.
  - right; right. eexists. split; [reflexivity|]. repeat split.
Qed.

Lemma shown_step e ev : stepR e (u32 (at_ ev)) (before ev) (call ev) (sent ev) (after ev) ->
  good (before ev) ->
  same_content (GetSetEffect (after ev)) (GetSetEffect (before ev)) \/
  (exists p, accepted ev p /\ about_effects p /\ GetSetEffect (after ev) = p) \/
  (exists p, In (Own ByChange p) (sent ev) /\ same_content (GetSetEffect (after ev)) p) \/
  (exists q, call ev = OSetEffect q /\ same_content (GetSetEffect (after ev)) q).
Proof.
  intros S G. pose proof S as S0.
  assert (Q' : forall inc p, call ev = OTick inc -> heard (before ev) inc = Some p -> accepted ev p).
  { intros inc p C Hp. apply (step_accepted _ _ _ S0). eauto. }
  destruct ev as [t o m m' out]; proj. unfold GetSetEffect, about_effects in *.
  destruct S as [inc out m' T|q R|v|v]; proj; try (left; repeat split; reflexivity).
  - destruct T; proj; try (left; repeat split; reflexivity);
    try (right; left; exists p; split; [eapply Q'; [reflexivity|assumption]|]; types; split; [lia|reflexivity]).
    right; right; left. eexists. split; [left; reflexivity|]. repeat split.
  - right; right; right. eexists. split; [reflexivity|]. repeat split.
Qed.

(** One run, one step at a time. *)
Lemma run_split w tr i ev rest : is_run w (tr ++ (i, ev) :: rest) ->
  exists n, hist (n_env w i) (n_start w i) ((n_past w i ++ calls_at i tr) ++ [ev]) n /\
            api_ok ((n_past w i ++ calls_at i tr) ++ [ev]).
Proof.
  intros R. destruct (R i) as [[n H] Ap]. rewrite calls_at_app in H, Ap.
  unfold calls_at at 2 in H. unfold calls_at at 2 in Ap. cbn in H, Ap. rewrite PeanoNat.Nat.eqb_refl in H, Ap. cbn in H, Ap.
  rewrite app_assoc, cons_snoc in H. rewrite app_assoc, cons_snoc in Ap.
  apply hist_prefix in H as [n1 H]. exists n1. split; [exact H|].
  intros x q I. apply Ap. apply in_or_app; left; exact I.
Qed.

Lemma calls_at_one i ev : calls_at i [(i, ev)] = [ev].
Proof. unfold calls_at. cbn. rewrite PeanoNat.Nat.eqb_refl. reflexivity. Qed.
Lemma calls_at_other i k ev : k <> i -> calls_at k [(i, ev)] = [].
Proof.
  intros N. unfold calls_at. cbn. destruct (Nat.eqb i k) eqn:E; [apply PeanoNat.Nat.eqb_eq in E; congruence|reflexivity].
Qed.

(** C90.  In a network that starts from power-up, every order a node shows, and
    every order anybody transmits, is the power-up order or was decided by
    somebody, earlier. *)
Theorem C90_effects_have_an_origin w tr : fresh_network w -> is_run w tr -> genuine tr ->
  (forall i n, hist (n_env w i) (n_start w i) (calls_at i tr) n -> has_origin tr (GetSetEffect n)) /\
  (forall a i ev b x, tr = a ++ (i, ev) :: b -> In x (sent ev) -> about_effects (rtx_packet x) ->
     has_origin (a ++ [(i, ev)]) (rtx_packet x)).
Proof.
  intros Fr R L.
  assert (X : forall tr rest, is_run w (tr ++ rest) -> genuine (tr ++ rest) ->
    (forall i n, hist (n_env w i) (n_start w i) (calls_at i tr) n -> has_origin tr (GetSetEffect n)) /\
    (forall a i ev b x, tr = a ++ (i, ev) :: b -> In x (sent ev) -> about_effects (rtx_packet x) ->
       has_origin (a ++ [(i, ev)]) (rtx_packet x))).
  { clear R L tr. intros tr. induction tr as [|[i ev] tr IH] using rev_ind; intros rest R L.
    - split; [|intros [|] ? ? ? ? E; discriminate E]. intros i n H. left. cbn in H.
      inversion H as [? ? ? ? ? P W1 W2 C|]; [|destruct h; discriminate].
      rewrite construct_eq in C. inversion C; subst. unfold GetSetEffect, writeSetEffect, powerup_order. proj.
      split; [reflexivity|]. destruct W2 as (_ & _ & _ & Ln & _). cbn in Ln.
      destruct d2 as [|x1 [|x2 [|x3 d2]]]; try discriminate Ln. reflexivity.
    - rewrite <- app_assoc in R, L. destruct (IH _ R L) as [I1 I2].
      destruct (run_split _ _ _ _ _ R) as (n & H & Ap). rewrite Fr in H, Ap. cbn [app] in H, Ap.
      apply hist_last in H as (H & En & G & O & L1 & L2 & S).
      assert (Bef : has_origin tr (GetSetEffect (before ev))) by (apply (I1 i); exact H).
      assert (In1 : incl tr (tr ++ [(i, ev)])) by (intros z; rewrite in_app_iff; auto).
      assert (Acc : forall p, accepted ev p -> about_effects p -> has_origin tr p).
      { intros p Ac A. destruct (L tr i ev rest p eq_refl Ac A) as (j & ev' & x & J1 & J2 & J3).
        apply (origin_says _ _ _ J3). apply in_split in J1 as (u & v & ->).
        eapply origin_more; [|apply (I2 u j ev' v x eq_refl J2)].
        - intros z Iz. apply in_app_or in Iz as [Iz|[<-|[]]]; apply in_or_app; [left; auto|right; left; auto].
        - destruct J3 as [J3 _]. unfold about_effects in *. lia. }
      assert (Chg : forall p, In (Own ByChange p) (sent ev) -> has_origin (tr ++ [(i, ev)]) p).
      { intros p I. right. exists i, ev, p. split; [apply in_or_app; right; left; reflexivity|]. split; [apply says_refl|right; exact I]. }
      assert (Api : forall q, call ev = OSetEffect q -> has_origin (tr ++ [(i, ev)]) q).
      { intros q I. right. exists i, ev, q. split; [apply in_or_app; right; left; reflexivity|]. split; [apply says_refl|left; exact I]. }
      split.
      + intros k m Hk. rewrite calls_at_app in Hk.
        destruct (PeanoNat.Nat.eq_dec k i) as [->|Nk].
        * rewrite calls_at_one in Hk. apply hist_last in Hk as (_ & -> & _).
          destruct (shown_step _ _ S G) as [E|[(p & Ac & A & E)|[(p & I & E)|(q & C & E)]]].
          -- eapply origin_more; [exact In1|]. eapply origin_says; [apply says_content; exact E|exact Bef].
          -- rewrite E. eapply origin_more; [exact In1|]. auto.
          -- eapply origin_says; [apply says_content; exact E|auto].
          -- eapply origin_says; [apply says_content; exact E|auto].
        * rewrite (calls_at_other _ _ _ Nk), app_nil_r in Hk. eapply origin_more; [exact In1|]. eauto.
      + intros a j ev' b x E Ix A.
        destruct b as [|y b _] using rev_ind.
        * apply app_inj_tail in E as [-> E]. inversion E; subst j ev'.
          destruct x as [p|s p]; cbn [rtx_packet] in *.
          -- eapply origin_more; [exact In1|]. apply Acc; [|exact A]. eapply forwarded_accepted; eauto.
          -- destruct (own_about_effects _ _ _ _ S G Ix A) as [E1|[I|(q & C & E1)]].
             ++ eapply origin_more; [exact In1|]. eapply origin_says; [apply says_content; exact E1|exact Bef].
             ++ auto.
             ++ eapply origin_says; [apply says_content; exact E1|auto].
        * rewrite app_comm_cons, app_assoc in E. apply app_inj_tail in E as [E _]. eauto. }
  apply (X tr []); rewrite app_nil_r; auto.
Qed.
Print Assumptions C90_effects_have_an_origin.

(** Node 0 is asked for effect 9 with palette 2, and node 1 hears about it. *)
Example C90_example : exists w tr, fresh_network w /\ is_run w tr /\ genuine tr /\
  exists n, hist (n_env w 1%nat) (n_start w 1%nat) (calls_at 1 tr) n /\
    GetEffectIndex n = 9 /\ decided tr (GetSetEffect n) /\ ~ powerup_order (GetSetEffect n).
Proof.
  run_as H0 (env0 Arduino) 0 [(10, OSetNumPalettes 22); (11, OSetEffect (effect_pkt 0 9 3 2))].
  run_as H1 (env0 Arduino) 0 [(40, OTick (Some (effect_pkt 99 9 3 2)))].
  run_as H2 (env0 Arduino) 0 (@nil (Z * op)).
  match type of H0 with hist _ _ [?a; ?b] _ =>
  match type of H1 with hist _ _ [?c] _ =>
    exists (mkNetwork (fun _ => env0 Arduino) (fun _ => 0) (fun i => 0) (fun i => [])), [(0%nat, a); (0%nat, b); (1%nat, c)]
  end end.
  split; [intros i; reflexivity|].
  split.
  { intros [|[|i]]; cbn.
    - split; [eexists; exact H0|]. intros x p I C. destruct I as [<-|[<-|[]]]; [discriminate C|]. injection C as <-. left. reflexivity.
    - split; [eexists; exact H1|]. intros x p I C. destruct I as [<-|[]]. discriminate C.
    - split; [eexists; exact H2|]. intros x p []. }
  split.
  { intros a i ev b p E Ac A.
    destruct a as [|x [|y [|z a]]]; inversion E; subst; try (destruct Ac as [C _]; discriminate C).
    - eexists 0%nat, _, _. split; [right; left; reflexivity|]. split; [left; reflexivity|].
      destruct Ac as [C _]. injection C as <-. split; reflexivity.
    - destruct a; discriminate. }
  eexists. split; [exact H1|]. split; [reflexivity|]. split.
  - eexists 0%nat, _, _. split; [right; left; reflexivity|]. split; [|left; reflexivity]. split; reflexivity.
  - intros [_ P]. discriminate P.
Qed.
