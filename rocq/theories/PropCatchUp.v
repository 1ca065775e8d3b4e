(** A node that joins a network catches up: C93. *)
From Coq Require Import ZArith Lia List Bool.
From Coq Require Import ZifyBool.
From Verif Require Import CInt CIntFacts Packet SpecPacket PacketFacts NetMgr NetHist SpecNet NetFacts Rsm RsmStep RsmEval RsmHist SpecRsm RsmFacts RsmTime RoleFacts RsmRun EffectFacts PropRole PropHeartbeat PropEffect PropHold PropPair PropNetTime PropNetwork.
Import ListNotations.
Open Scope Z_scope.
Ltac Zify.zify_post_hook ::= Z.div_mod_to_equations.

(** The node sends its current effect (a repetition, or a change of its own). *)
Definition announces (ev : event) (p : packet) : Prop :=
  In (Own ByRebroadcast p) (sent ev) \/ In (Own ByChange p) (sent ev).

Lemma announced_is_shown e t0 h ev p : history e t0 (h ++ [ev]) -> announces ev p ->
  same_content (GetSetEffect (after ev)) p.
Proof.
  intros HH A. destruct HH as [n H]. apply hist_last in H as (H & -> & G & O & L1 & L2 & S).
  destruct ev as [t o m m' out]; proj. unfold announces, GetSetEffect, same_content in *. proj.
  destruct A as [I|I]; (destruct S as [inc out m' T|q R|v|v]; proj; own_in I; destruct T; own_in I; proj; repeat split).
Qed.

Lemma rebroadcast_dec ev : rebroadcast ev \/ ~ rebroadcast ev.
Proof. apply by_site_dec. Qed.

Lemma announce_window h (x : Z) :
  (exists y, In y h /\ rebroadcast y /\ x < at_ y) \/ (forall y, In y h -> rebroadcast y -> at_ y <= x).
Proof.
  induction h as [|a h IH]; [right; intros y []|].
  destruct IH as [(y & I & B & L)|N]; [left; exists y; repeat split; auto; right; auto|].
  destruct (rebroadcast_dec a) as [B|B].
  - destruct (Z_lt_ge_dec x (at_ a)); [left; exists a; repeat split; auto; left; auto|].
    right. intros y [<-|I] By; [lia|auto].
  - right. intros y [<-|I] By; [contradiction|auto].
Qed.

Lemma sub_history e t0 a b n W : hist e t0 (a ++ b) n -> api_ok (a ++ b) -> all_before W t0 (a ++ b) ->
  exists m, hist e t0 a m /\ api_ok a /\ all_before W t0 a.
Proof.
  intros H Ap [B1 B2]. destruct (hist_prefix _ _ _ _ _ H) as [m Hm]. exists m. split; [exact Hm|]. split.
  - intros v q I. apply Ap. apply in_or_app; left; exact I.
  - split; [exact B1|]. intros v I. apply B2. apply in_or_app; left; exact I.
Qed.

(** A master that has a packet-free tick at least every P <= 1000 ms announces its
    current effect at least every 2000 + 2 P ms. *)
Theorem C93_master_keeps_announcing e t0 h1 h2 x P :
  history e t0 (h1 ++ h2) -> api_ok (h1 ++ h2) -> all_before (wrap - 7000) t0 (h1 ++ h2) ->
  (forall y, In y h1 -> at_ y <= x) ->
  (forall y, In y h2 -> x < at_ y /\ role_before y = Master) ->
  0 <= P <= 1000 ->
  (forall u, x <= u <= x + 2000 + P -> exists y, In y h2 /\ packet_free y /\ u < at_ y <= u + P) ->
  exists y p, In y h2 /\ announces y p /\ at_ y <= x + 2000 + 2 * P.
Proof.
  intros HH Ap B E1 E2 P0 Dense. destruct HH as [n H].
  (* a tick after x + 2000 *)
  destruct (Dense (x + 2000)) as (y & Iy & Fy & Ly); [lia|].
  assert (Pre : forall z, In z h2 -> exists k1 k2 m, h2 = k1 ++ z :: k2 /\ hist e t0 ((h1 ++ k1) ++ [z]) m /\
                  api_ok ((h1 ++ k1) ++ [z]) /\ all_before (wrap - 7000) t0 ((h1 ++ k1) ++ [z])).
  { intros z I. apply in_split in I as (k1 & k2 & ->). exists k1, k2.
    assert (Eq : h1 ++ k1 ++ z :: k2 = ((h1 ++ k1) ++ [z]) ++ k2) by (rewrite <- !app_assoc; reflexivity).
    rewrite Eq in H, Ap, B. destruct (sub_history _ _ _ _ _ _ H Ap B) as (m & X). exists m. split; [reflexivity|exact X]. }
  assert (Found : forall z, In z h2 -> rebroadcast z -> at_ z <= x + 2000 + 2 * P ->
            exists y p, In y h2 /\ announces y p /\ at_ y <= x + 2000 + 2 * P).
  { intros z I (p & Q) L. exists z, p. split; [exact I|]. split; [left; exact Q|exact L]. }
  (* at a packet-free tick z later than x + 2000: an announcement by then, or a heartbeat *)
  assert (Try : forall z, In z h2 -> packet_free z -> x + 2000 < at_ z <= x + 2000 + 2 * P ->
            (exists y p, In y h2 /\ announces y p /\ at_ y <= x + 2000 + 2 * P) \/ by_site ByHeartbeat z).
  { intros z Iz Fz Lz. destruct (Pre z Iz) as (k1 & k2 & m & Ek & Hm & Am & Bm).
    pose proof Hm as Hl. apply hist_last in Hl as (Hl & _ & _ & _ & _ & L2 & _).
    destruct (announce_window (h1 ++ k1) x) as [(v & Iv & Rv & Lv)|N].
    - left. apply in_app_or in Iv as [Iv|Iv]; [specialize (E1 v Iv); lia|].
      apply (Found v); [rewrite Ek; apply in_or_app; left; exact Iv|exact Rv|].
      specialize (L2 v ltac:(apply in_or_app; right; exact Iv)). lia.
    - destruct (C32_rebroadcast_due_is_sent e t0 (h1 ++ k1) z (ex_intro _ _ Hm) ltac:(destruct Bm as [b1 b2]; split; [unfold wrap in *; lia|intros v I; specialize (b2 v I); unfold wrap in *; lia])) as [R|[R|(p & R)]]; auto.
      + apply (E2 z Iz).
      + intros v Iv [Rv|[Tv _]]; [specialize (N v Iv Rv); lia|].
        apply in_app_or in Iv as [Iv|Iv]; [specialize (E1 v Iv); lia|].
        destruct (E2 v) as [_ Mv]; [rewrite Ek; apply in_or_app; left; exact Iv|congruence].
      + left. apply (Found z Iz R). lia.
      + left. exists z, p. split; [exact Iz|]. split; [right; exact R|lia]. }
  destruct (Try y Iy Fy ltac:(lia)) as [K|HB]; [exact K|].
  (* the next tick is too soon after this heartbeat for another one *)
  destruct (Dense (at_ y)) as (z & Iz & Fz & Lz); [lia|].
  destruct (Try z Iz Fz ltac:(lia)) as [K|HB2]; [exact K|exfalso].
  destruct (Pre z Iz) as (k1 & k2 & m & Ek & Hm & Am & Bm).
  assert (Iy1 : In y (h1 ++ k1)).
  { rewrite Ek in Iy. apply in_app_or in Iy as [Iy|[Iy|Iy]]; [apply in_or_app; right; exact Iy|subst; lia|].
    exfalso. apply in_split in Iy as (k3 & k4 & ->). rewrite Ek in H.
    replace (h1 ++ k1 ++ z :: k3 ++ y :: k4) with (((h1 ++ k1 ++ z :: k3) ++ [y]) ++ k4) in H
      by (rewrite <- !app_assoc; cbn; rewrite <- ?app_assoc; reflexivity).
    apply hist_prefix in H as [m' H].
    apply hist_last in H as (_ & _ & _ & _ & _ & L2 & _).
    specialize (L2 z ltac:(apply in_or_app; right; apply in_or_app; right; left; reflexivity)). lia. }
  apply in_split in Iy1 as (k3 & k4 & Ek3). rewrite Ek3 in Hm, Am, Bm.
  rewrite <- app_assoc in Hm, Am, Bm. cbn [app] in Hm, Am, Bm.
  assert (at_ y + 1000 < at_ z); [|lia].
  apply (C20_heartbeats_apart e t0 k3 y k4 z (ex_intro _ _ Hm) Am Bm).
  - eapply heartbeat_site_in; [exact Hm|exact Am|apply in_or_app; right; left; reflexivity|exact HB].
  - eapply heartbeat_site_in; [exact Hm|exact Am| |exact HB2].
    apply in_or_app; right; right; apply in_or_app; right; left; reflexivity.
Qed.
Print Assumptions C93_master_keeps_announcing.

Lemma says_sym p q : says p q -> says q p.
Proof. intros [A B]. split; [auto|]. rewrite A, B. reflexivity. Qed.

(** A node keeps showing K as long as it only gets to hear K. *)
Lemma stays_at_K e t0 K : forall h2 h1 n, hist e t0 (h1 ++ h2) n ->
  (forall m, hist e t0 h1 m -> says (GetSetEffect m) K) ->
  (forall c, In c h2 -> role_before c = Slave /\ (forall q, call c = OSetEffect q -> says q K) /\
     (forall q, accepted c q -> about_effects q -> says q K)) ->
  says (GetSetEffect n) K.
Proof.
  induction h2 as [|c h2 IH] using rev_ind; intros h1 n H Q0 Q.
  - rewrite app_nil_r in H. auto.
  - rewrite app_assoc in H. apply hist_last in H as (H & -> & G & O & L1 & L2 & S).
    assert (B : says (GetSetEffect (before c)) K).
    { apply (IH h1 _ H Q0). intros z I. apply Q. apply in_or_app; left; exact I. }
    destruct (Q c ltac:(apply in_or_app; right; left; reflexivity)) as (R & Q1 & Q2).
    destruct (shown_step _ _ S G) as [E|[(p & Ac & A & E)|[(p & I & E)|(q & C & E)]]].
    + eapply says_trans; [apply says_content; exact E|exact B].
    + rewrite E. auto.
    + exfalso. destruct c as [t o m m' out]; proj. unfold GetCurrentState in R.
      destruct S as [inc out m' T|q Rd|v|v]; proj; own_in I. destruct T; own_in I; congruence.
    + eapply says_trans; [apply says_content; exact E|auto].
Qed.

(** Node m has been master since global time x (calls h2) and has shown K since
    then.  The other node (calls hs) has been slave and has heard of no other
    effect since x.  Every announcement of m reaches it within D ms.  Then 2000 +
    2 P + D ms after x it shows K. *)
Theorem C93_newcomer_catches_up em t0m h1 h2 es t0s hs n offm offs x T P D K :
  history em t0m (h1 ++ h2) -> api_ok (h1 ++ h2) -> all_before (wrap - 7000) t0m (h1 ++ h2) ->
  hist es t0s hs n ->
  (forall y, In y h1 -> at_ y - offm <= x) ->
  (forall y, In y h2 -> x < at_ y - offm /\ role_before y = Master /\ says (GetSetEffect (after y)) K) ->
  (forall c, In c hs -> x < at_ c - offs -> role_before c = Slave /\
     (forall q, call c = OSetEffect q -> says q K) /\
     (forall q, accepted c q -> about_effects q -> says q K)) ->
  about_effects K -> 0 <= P <= 1000 -> 0 <= D -> x + 2000 + 2 * P + D <= T ->
  (forall u, x <= u <= x + 2000 + P -> exists y, In y h2 /\ packet_free y /\ u < at_ y - offm <= u + P) ->
  (forall y p, In y h2 -> announces y p -> at_ y - offm + D <= T ->
     exists c q, In c hs /\ accepted c q /\ says q p /\ at_ y - offm <= at_ c - offs <= at_ y - offm + D) ->
  says (GetSetEffect n) K /\ (ptype K = 2 -> GetEffectIndex n = nth 0 (pdata K) 0).
Proof.
  intros Hm Am Bm Hs E1 E2 E3 AK P0 D0 LT Dense Del.
  destruct (C93_master_keeps_announcing em t0m h1 h2 (x + offm) P Hm Am Bm) as (y & p & Iy & Ay & Ly).
  - intros y I. specialize (E1 y I). lia.
  - intros y I. destruct (E2 y I) as (A & B & _). split; [lia|exact B].
  - exact P0.
  - intros u U. destruct (Dense (u - offm)) as (y & I & F & L); [lia|]. exists y. split; [exact I|]. split; [exact F|lia].
  - destruct (E2 y Iy) as (Xy & _ & Ky).
    destruct (Del y p Iy Ay ltac:(lia)) as (c & q & Ic & Ac & Sq & Lc).
    assert (SK : says q K).
    { eapply says_trans; [exact Sq|]. eapply says_trans; [|exact Ky]. apply says_content.
      destruct Hm as [nm Hm]. apply in_split in Iy as (k1 & k2 & ->).
      rewrite cons_snoc, app_assoc in Hm. rewrite app_assoc in Hm. rewrite <- app_assoc in Hm.
      assert (X : exists m, hist em t0m ((h1 ++ k1) ++ [y]) m).
      { apply (hist_prefix em t0m _ k2 nm). rewrite <- !app_assoc in *. exact Hm. }
      destruct (announced_is_shown em t0m (h1 ++ k1) y p X Ay) as (A & B & C). repeat split; auto. }
    assert (Tq : about_effects q) by (unfold about_effects in *; destruct SK as [SK _]; rewrite SK; exact AK).
    pose proof Ic as Ic0. apply in_split in Ic as (k1 & k2 & ->).
    assert (Hc : exists m, hist es t0s (k1 ++ [c]) m).
    { apply (hist_prefix es t0s _ k2 n). rewrite <- app_assoc. exact Hs. }
    assert (Sc : GetSetEffect (after c) = q).
    { destruct Tq as [Tq|Tq]; [apply (C27_set_effect_adopted es t0s k1 c q Hc Ac Tq)|apply (C27_control_adopted es t0s k1 c q Hc Ac Tq)]. }
    assert (Fin : says (GetSetEffect n) K).
    { apply (stays_at_K es t0s K k2 (k1 ++ [c]) n).
      - rewrite <- app_assoc. exact Hs.
      - intros m Hm1. apply hist_last in Hm1 as (_ & -> & _). rewrite Sc. exact SK.
      - intros z Iz. apply E3; [apply in_or_app; right; right; exact Iz|].
        pose proof Iz as Iz0. apply in_split in Iz as (k3 & k4 & ->).
        replace (k1 ++ c :: k3 ++ z :: k4) with (((k1 ++ c :: k3) ++ [z]) ++ k4) in Hs
          by (rewrite <- !app_assoc; cbn; rewrite <- ?app_assoc; reflexivity).
        apply hist_prefix in Hs as [m Hs]. apply hist_last in Hs as (_ & _ & _ & _ & _ & L2 & _).
        specialize (L2 c ltac:(apply in_or_app; right; left; reflexivity)). lia. }
    split; [exact Fin|]. intros K2. destruct Fin as [F1 F2].
    rewrite <- (C28_index_agrees_with_packet es t0s (k1 ++ c :: k2) n Hs).
    + rewrite K2 in F2. change (2 =? 2) with true in F2. cbv iota in F2. unfold payload in F2.
      destruct (pdata (GetSetEffect n)) as [|? ?], (pdata K) as [|? ?]; cbn in F2; try discriminate; try reflexivity.
      inversion F2; reflexivity.
    + exists c. split; [exact Ic0|]. left. exists q. split; [exact Ac|]. destruct SK as [SK _]. congruence.
    + congruence.
Qed.
Print Assumptions C93_newcomer_catches_up.

(** Non-vacuous: a master with effect 9, palette 2; a node powered up 500 ms
    later hears its repetition; P = 1000, D = 50. *)
Example C93_example : exists h1 h2 hs n K x T,
  history (env0 Arduino) 0 (h1 ++ h2) /\ api_ok (h1 ++ h2) /\ all_before (wrap - 7000) 0 (h1 ++ h2) /\
  hist (env_const Arduino 0%N) 0 hs n /\
  (forall y, In y h1 -> at_ y - 0 <= x) /\
  (forall y, In y h2 -> x < at_ y - 0 /\ role_before y = Master /\ says (GetSetEffect (after y)) K) /\
  (forall c, In c hs -> x < at_ c - -7000 -> role_before c = Slave /\
     (forall q, call c = OSetEffect q -> says q K) /\
     (forall q, accepted c q -> about_effects q -> says q K)) /\
  about_effects K /\ x + 2000 + 2 * 1000 + 50 <= T /\
  (forall u, x <= u <= x + 2000 + 1000 -> exists y, In y h2 /\ packet_free y /\ u < at_ y - 0 <= u + 1000) /\
  (forall y p, In y h2 -> announces y p -> at_ y - 0 + 50 <= T ->
     exists c q, In c hs /\ accepted c q /\ says q p /\ at_ y - 0 <= at_ c - -7000 <= at_ y - 0 + 50) /\
  GetEffectIndex n = 9.
Proof.
  run_as H (env0 Arduino) 0 [(7, OTick (Some (effect_pkt 50 9 3 2))); (7000, OTick None); (7600, OTick None); (8500, OTick None);
    (9400, OTick None); (9700, OTick None); (10600, OTick None); (11500, OTick None)].
  run_as K (env_const Arduino 0%N) 0 [(510, OTick (Some (heartbeat_pkt 71 8500))); (2420, OTick (Some (effect_pkt 72 9 3 2)));
    (4550, OTick None)].
  match type of H with hist _ _ [?a; ?b; ?c; ?d; ?f; ?g; ?i; ?j] _ => exists [a; b], [c; d; f; g; i; j] end.
  match type of K with hist _ _ ?h ?n => exists h, n end.
  exists (effect_pkt 0 9 3 2), 7500, 11550.
  split; [eexists; exact H|].
  split; [intros z q I C; repeat (destruct I as [<-|I]; [discriminate C|]); destruct I|].
  split; [split; [reflexivity|intros z I; repeat (destruct I as [<-|I]; [reflexivity|]); destruct I]|].
  split; [exact K|].
  split; [intros y I; repeat (destruct I as [<-|I]; [vm_compute; congruence|]); destruct I|].
  split; [intros y I; repeat (destruct I as [<-|I]; [split; [reflexivity|split; [reflexivity|split; reflexivity]]|]); destruct I|].
  split.
  { intros c I _. repeat (destruct I as [<-|I]; [split; [reflexivity|]; split; [intros q C; discriminate C|];
      intros q [C _] A; first [discriminate C|injection C as <-; first [split; reflexivity|destruct A as [A|A]; discriminate A]]|]). destruct I. }
  split; [left; reflexivity|]. split; [lia|].
  split.
  { intros u U.
    assert (X : u < 8500 \/ 8500 <= u < 9400 \/ 9400 <= u < 9700 \/ 9700 <= u) by lia.
    destruct X as [X|[X|[X|X]]].
    - eexists. split; [right; left; reflexivity|]. split; [split; [eexists; reflexivity|intros q I; cbn in I; intuition discriminate]|cbn [at_]; lia].
    - eexists. split; [right; right; left; reflexivity|]. split; [split; [eexists; reflexivity|intros q I; cbn in I; intuition discriminate]|cbn [at_]; lia].
    - eexists. split; [right; right; right; left; reflexivity|]. split; [split; [eexists; reflexivity|intros q I; cbn in I; intuition discriminate]|cbn [at_]; lia].
    - eexists. split; [right; right; right; right; left; reflexivity|]. split; [split; [eexists; reflexivity|intros q I; cbn in I; intuition discriminate]|cbn [at_]; lia]. }
  split; [|reflexivity].
  intros y p I A L. unfold announces in A.
  repeat (destruct I as [<-|I]; [cbn [sent In] in A;
    first [exfalso; intuition discriminate
      |destruct A as [[A|[]]|[A|[]]]; [injection A as <-|discriminate A];
       eexists _, _; split; [right; left; reflexivity|]; split; [split; [reflexivity|left; reflexivity]|];
       split; [split; reflexivity|cbn [at_]; lia]]|]).
  destruct I.
Qed.
