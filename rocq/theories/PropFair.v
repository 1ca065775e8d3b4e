(** How random the choices of a node are: C114. *)
From Coq Require Import ZArith NArith Lia List Bool FinFun.
From Coq Require Import ZifyBool ZifyNat.
From Verif Require Import CInt CIntFacts Packet SpecPacket PacketFacts NetMgr NetHist SpecNet NetFacts Rsm RsmStep RsmEval RsmHist SpecRsm RsmFacts RsmTime RoleFacts RsmRun EffectFacts PropRole PropHeartbeat PropEffect PropNetTime PropOneMaster PropStartUp.
Import ListNotations.
Open Scope Z_scope.
Ltac Zify.zify_post_hook ::= Z.div_mod_to_equations.

(** The node's random source with number k replaced by r. *)
Definition with_draw (e : env) (k : nat) (r : Z) : env :=
  mkEnv (plat e) (fun j => if Nat.eqb j k then Z.to_N r else draw e j).

(** ** A call depends on the numbers it draws, and on no others. *)
Section Locality.
Variables (e : env) (d' : nat -> N).
Let e' := mkEnv (plat e) d'.

Definition local {A} (m m' : M A) : Prop := forall n a n1 o, m n = Ok (a, n1, o) ->
  (rng n <= rng n1)%nat /\
  ((forall k, (rng n <= k < rng n1)%nat -> draw e k = d' k) -> m' n = Ok (a, n1, o)).

Lemma local_bind {A B} (m m' : M A) (f f' : A -> M B) : local m m' -> (forall a, local (f a) (f' a)) ->
  local (mbind m f) (mbind m' f').
Proof using Type.
  intros L1 L2 n b n2 o E. unfold mbind in *. destruct (m n) as [[[a n1] o1]| |] eqn:E1; try discriminate.
  destruct (f a n1) as [[[b' n2'] o2]| |] eqn:E2; try discriminate. injection E as -> -> <-.
  destruct (L1 _ _ _ _ E1) as [R1 Q1]. destruct (L2 a _ _ _ _ E2) as [R2 Q2]. split; [lia|].
  intros D. rewrite Q1 by (intros k K; apply D; lia). rewrite Q2 by (intros k K; apply D; lia). reflexivity.
Qed.

Lemma local_ret {A} (a : A) : local (mret a) (mret a).
Proof using Type. intros n a' n1 o E. injection E as <- <- <-. split; [lia|reflexivity]. Qed.

Lemma local_get {A} (f : node -> A) : local (mget f) (mget f).
Proof using Type. intros n a' n1 o E. injection E as <- <- <-. split; [lia|reflexivity]. Qed.

Lemma local_upd f : (forall n, rng (f n) = rng n) -> local (mupd f) (mupd f).
Proof using Type. intros R n a' n1 o E. injection E as <- <- <-. rewrite R. split; [lia|reflexivity]. Qed.

Lemma local_lift {A} (x : outcome A) : local (mlift x) (mlift x).
Proof using Type. intros n a n1 o E. unfold mlift in *. destruct x; try discriminate. injection E as <- <- <-. split; [lia|reflexivity]. Qed.

Lemma local_draw : local (mdraw e) (mdraw e').
Proof using Type.
  intros n a n1 o E. unfold mdraw in *. injection E as <- <- <-. cbn [rng with_rng]. split; [lia|].
  intros D. unfold e'. cbn [draw]. rewrite D by lia. reflexivity.
Qed.

Lemma local_random lo hi : local (mrandom e lo hi) (mrandom e' lo hi).
Proof using Type. apply local_bind; [apply local_draw|]. intros r. apply local_lift. Qed.

Lemma local_rand : local (mrand e) (mrand e').
Proof using Type. apply local_bind; [apply local_draw|]. intros r. apply local_ret. Qed.

Lemma local_send s p : local (msend e s p) (msend e' s p).
Proof using Type.
  apply local_bind; [apply local_draw|]. intros r n a n1 o E. cbn [plat e'] in *.
  destruct (nm_send (plat e) r (nm n) p) as [[[p' m'] out]| |]; try discriminate. injection E as <- <- <-.
  split; [apply le_n|reflexivity].
Qed.

Lemma local_receive inc : local (mreceive inc) (mreceive inc).
Proof using Type.
  intros n a n1 o E. unfold mreceive in *. destruct (nm_receive (nm n) inc) as [[[r m'] out]| |]; try discriminate. injection E as <- <- <-.
  split; [apply le_n|reflexivity].
Qed.

Lemma local_timer now t d : local (SetTimer now t d) (SetTimer now t d).
Proof using Type. destruct t; cbn [SetTimer]; first [apply local_ret|apply local_upd; reflexivity]. Qed.

Ltac loc := repeat first
  [ apply local_timer | apply local_ret | apply local_get | apply local_lift | apply local_rand | apply local_random | apply local_send
  | apply local_receive | apply local_upd; reflexivity
  | apply local_bind; [|intros] | match goal with |- local (if ?b then _ else _) _ => destruct b end
  | match goal with |- local (match ?b with _ => _ end) _ => destruct b end ].

Lemma local_step now o : local (step e now o) (step e' now o).
Proof using Type.
  destruct o; cbn [step].
  - unfold RadioTick, handleSlavePacket, handleMasterPacket, PerformMasterElection, handleSlaveTimer, handleMasterTimer,
      finish_tick, beginMaster, beginSlave, SendHeartbeat. loc.
  - unfold SetEffect. loc.
  - unfold SetNumPalettes. loc.
  - unfold SetNumEffects. loc.
Qed.

Lemma local_hist t0 h n : hist e t0 h n -> (forall k, (k < rng n)%nat -> draw e k = d' k) -> hist e' t0 h n.
Proof using Type.
  intros H. induction H as [ty1 ty2 d1 d2 n T W1 W2 C|h n t o n' out H IH L1 L2 Ok E].
  - intros D. assert (R : rng n = 1%nat) by (rewrite construct_eq in C; injection C as <-; reflexivity).
    apply (hist_start e' t0 ty1 ty2 d1 d2 n T W1 W2). rewrite construct_eq in *. rewrite <- C.
    unfold e'. cbn [draw]. rewrite D by lia. reflexivity.
  - intros D. destruct (local_step (u32 t) o _ _ _ _ E) as [R Q].
    apply hist_step; auto. 
    + apply IH. intros k K. apply D. lia.
    + apply Q. intros k K. apply D. lia.
Qed.
End Locality.

Lemma with_draw_hist e t0 h n k r : hist e t0 h n -> (rng n <= k)%nat -> hist (with_draw e k r) t0 h n.
Proof.
  intros H L. apply local_hist; [exact H|]. intros j J. destruct (PeanoNat.Nat.eqb_spec j k); [lia|reflexivity].
Qed.

(** ** Counting *)

(** The numbers 0 .. K-1. *)
Definition below (K : Z) : list Z := map Z.of_nat (seq 0 (Z.to_nat K)).

Lemma below_in K r : In r (below K) <-> 0 <= r < K.
Proof.
  unfold below. rewrite in_map_iff. split.
  - intros (x & <- & I). apply in_seq in I. lia.
  - intros L. exists (Z.to_nat r). split; [lia|]. apply in_seq. lia.
Qed.

Lemma below_nodup K : NoDup (below K).
Proof. unfold below. apply FinFun.Injective_map_NoDup; [intros x y; lia|apply seq_NoDup]. Qed.

Lemma below_succ K : 0 <= K -> below (K + 1) = below K ++ [K].
Proof.
  intros P. unfold below. replace (Z.to_nat (K + 1)) with (Z.to_nat K + 1)%nat by lia. rewrite seq_app, map_app. cbn. f_equal. f_equal. lia.
Qed.

Definition how_many {A} (f : A -> bool) (l : list A) : Z := Z.of_nat (length (filter f l)).

Lemma how_many_app {A} (f : A -> bool) l l' : how_many f (l ++ l') = how_many f l + how_many f l'.
Proof. unfold how_many. rewrite filter_app, app_length. lia. Qed.

Lemma how_many_ext {A} (f f' : A -> bool) l : (forall x, In x l -> f x = f' x) -> how_many f l = how_many f' l.
Proof.
  intros E. unfold how_many. f_equal. f_equal. induction l as [|x l IH]; [reflexivity|]. cbn. rewrite (E x) by (left; reflexivity).
  rewrite IH by (intros y I; apply E; right; exact I). reflexivity.
Qed.

Lemma how_many_map {A B} (g : A -> B) (f : B -> bool) l : how_many f (map g l) = how_many (fun x => f (g x)) l.
Proof.
  unfold how_many. induction l as [|x l IH]; [reflexivity|]. cbn. destruct (f (g x)); cbn [length]; lia.
Qed.

Lemma below_app K J : 0 <= K -> 0 <= J -> below (K + J) = below K ++ map (fun r => K + r) (below J).
Proof.
  intros P Q. unfold below. rewrite Z2Nat.inj_add, seq_app, map_app, map_map by lia. f_equal. cbn [Nat.add].
  replace (Z.to_nat K) with (Z.to_nat K + 0)%nat at 1 by lia. generalize 0%nat as b. generalize (Z.to_nat J) as j. intros j.
  induction j as [|j IH]; intros b; [reflexivity|]. cbn [seq map]. f_equal; [lia|]. rewrite <- IH. do 2 f_equal. lia.
Qed.

Lemma how_many_true {A} (l : list A) : how_many (fun _ => true) l = Z.of_nat (length l).
Proof. unfold how_many. f_equal. induction l; [reflexivity|]. cbn. lia. Qed.

Lemma how_many_false {A} (l : list A) : how_many (fun _ => false) l = 0.
Proof. unfold how_many. induction l; [reflexivity|]. cbn. lia. Qed.

Lemma below_length K : 0 <= K -> Z.of_nat (length (below K)) = K.
Proof. intros P. unfold below. rewrite map_length, seq_length. lia. Qed.

(** Numbers from a on. *)
Lemma count_high a K : 0 <= a <= K -> how_many (fun r => a <=? r) (below K) = K - a.
Proof.
  intros L. replace (below K) with (below (a + (K - a))) by (f_equal; lia). rewrite below_app, how_many_app, how_many_map by lia.
  rewrite (how_many_ext _ (fun _ => false) (below a)) by (intros x I; apply below_in in I; lia).
  rewrite (how_many_ext _ (fun _ => true) (below (K - a))) by (intros x I; apply below_in in I; lia).
  rewrite how_many_true, how_many_false, below_length; lia.
Qed.

Lemma count_one i K : 0 <= i -> 0 <= K -> how_many (fun r => r =? i) (below K) = if i <? K then 1 else 0.
Proof.
  intros P Q. destruct (Z.ltb_spec i K) as [L|L].
  - replace (below K) with (below (i + (1 + (K - i - 1)))) by (f_equal; lia). rewrite below_app, below_app, how_many_app, how_many_map, how_many_app, how_many_map by lia.
    rewrite (how_many_ext _ (fun _ => false) (below i)) by (intros x I; apply below_in in I; lia).
    rewrite (how_many_ext _ (fun _ => false) (below (K - i - 1))) by (intros x I; apply below_in in I; lia).
    rewrite (how_many_ext _ (fun _ => true) (below 1)) by (intros x I; apply below_in in I; lia).
    rewrite !how_many_false, how_many_true, below_length; lia.
  - rewrite (how_many_ext _ (fun _ => false)) by (intros x I; apply below_in in I; lia). apply how_many_false.
Qed.

(** What depends on the remainder only repeats. *)
Lemma count_periodic (f : Z -> bool) n c b : 0 < n -> 0 <= c -> 0 <= b < n ->
  how_many (fun r => f (r mod n)) (below (n * c + b)) = c * how_many f (below n) + how_many f (below b).
Proof.
  intros N C B. pattern c. apply natlike_ind; [| |exact C].
  - rewrite Z.mul_0_r, Z.add_0_l, Z.mul_0_l. apply how_many_ext. intros x I. apply below_in in I. rewrite Z.mod_small by lia. reflexivity.
  - intros x Px IH. replace (n * Z.succ x + b) with (n + (n * x + b)) by lia. rewrite below_app, how_many_app, how_many_map by nia.
    rewrite (how_many_ext _ f (below n)) by (intros y I; apply below_in in I; rewrite Z.mod_small by lia; reflexivity).
    rewrite (how_many_ext _ (fun r => f (r mod n)) (below (n * x + b))).
    + rewrite IH. lia.
    + intros y _. f_equal. replace (n + y) with (y + 1 * n) by lia. apply Z.mod_add. lia.
Qed.

Lemma count_residue n i K : 0 < n -> 0 <= i < n -> 0 <= K ->
  how_many (fun r => r mod n =? i) (below K) = K / n + if i <? K mod n then 1 else 0.
Proof.
  intros N I P. pose proof (Z.mod_pos_bound K n N) as M. pose proof (Z.div_pos K n P N) as D.
  assert (E : K = n * (K / n) + K mod n) by (apply Z.div_mod; lia). set (q := K / n) in *. set (m := K mod n) in *. clearbody q m. subst K.
  rewrite (count_periodic (fun x => x =? i)) by lia. rewrite !count_one by lia. destruct (Z.ltb_spec i n); lia.
Qed.

Lemma count_prod {A B} (f : A -> bool) (g : B -> bool) l l' :
  how_many (fun x => f (fst x) && g (snd x)) (list_prod l l') = how_many f l * how_many g l'.
Proof.
  induction l as [|x l IH]; [reflexivity|]. cbn [list_prod]. rewrite how_many_app, IH, how_many_map.
  rewrite (how_many_ext _ (fun y => f x && g y)) by reflexivity. replace (how_many f (x :: l)) with ((if f x then 1 else 0) + how_many f l).
  - destruct (f x).
    + change (how_many (fun y => true && g y) l') with (how_many g l'). lia.
    + change (how_many (fun y => false && g y) l') with (how_many (fun _ => false) l'). rewrite how_many_false. lia.
  - unfold how_many. cbn. destruct (f x); cbn [length]; lia.
Qed.

(** ** The same call with other random numbers *)

(** The call of event ev, made on the same node at the same time, with random source e. *)
Definition redo (e : env) (ev : event) : event :=
  match step e (u32 (at_ ev)) (call ev) (before ev) with
  | Ok (_, n', out) => mkEv (at_ ev) (call ev) (before ev) n' out
  | _ => ev
  end.

Lemma redo_frame e ev : at_ (redo e ev) = at_ ev /\ call (redo e ev) = call ev /\ before (redo e ev) = before ev.
Proof. unfold redo. destruct (step _ _ _ _) as [[[a n'] out]| |]; repeat split. Qed.

(** Whether a call returns does not depend on the numbers drawn. *)
Lemma redo_step e d' now o n n' out : good n -> op_ok o -> step e now o n = Ok (tt, n', out) ->
  exists n2 out2, step (mkEnv (plat e) d') now o n = Ok (tt, n2, out2).
Proof.
  intros G O E. destruct o as [inc|p|v|v]; cbn [step] in *.
  - assert (I : inc_ok inc) by (destruct inc; exact O).
    destruct (tick_total (mkEnv (plat e) d') now n inc G I) as [(n1 & o1 & E1 & _)|[(_ & X)|(_ & X)]]; [eauto| |].
    + exfalso. destruct X as (p & Hp & Pl & X). cbn [plat] in *.
      destruct (tick_total e now n inc G I) as [(n1 & o1 & E1 & T)|[(E1 & _)|(E1 & _)]]; try congruence.
      destruct T; try congruence; assert (Ep : p0 = p) by congruence; subst p0;
        unfold readable, HEARTBEAT, CLAIM_MASTER, SET_EFFECT, SET_CONTROL in *; 
        repeat match goal with H : _ \/ _ |- _ => destruct H end; try intuition congruence.
    + exfalso. destruct X as (Hh & St & D1 & D2 & Np).
      destruct (tick_total e now n inc G I) as [(n1 & o1 & E1 & T)|[(E1 & _)|(E1 & _)]]; try congruence.
      destruct T; try congruence; try intuition congruence.
  - rewrite SetEffect_eq in * by auto. change (readableb (mkEnv (plat e) d') SET_EFFECT 3 p) with (readableb e SET_EFFECT 3 p).
    destruct (readableb e SET_EFFECT 3 p); [eauto|discriminate].
  - eauto.
  - eauto.
Qed.

Lemma redo_history e d' t0 h ev : history e t0 (h ++ [ev]) ->
  (forall k, (k < rng (before ev))%nat -> draw e k = d' k) ->
  let e' := mkEnv (plat e) d' in
  hist e' t0 (h ++ [redo e' ev]) (after (redo e' ev)) /\ good (before ev) /\
  stepR e' (u32 (at_ ev)) (before ev) (call ev) (sent (redo e' ev)) (after (redo e' ev)).
Proof.
  intros [n H] D e'. inversion H as [|h0 n0 t o n' out H0 L1 L2 Ok0 E Eh En]; [destruct h; discriminate|].
  apply app_inj_tail in Eh as [-> <-]. subst n'. cbn [before at_ call] in *.
  pose proof (hist_good _ _ _ _ H0) as G.
  destruct (redo_step e d' (u32 t) o n0 n out G Ok0 E) as (n2 & out2 & E2). fold e' in E2.
  unfold redo. cbn [at_ call before]. rewrite E2. cbn [after sent].
  assert (H1 : hist e' t0 (h ++ [mkEv t o n0 n2 out2]) n2).
  { apply hist_step; auto. apply local_hist; assumption. }
  split; [exact H1|]. split; [exact G|]. apply hist_last in H1 as (_ & _ & _ & _ & _ & _ & S). exact S.
Qed.

Lemma draw_with e k r j : draw (with_draw e k r) j = if Nat.eqb j k then Z.to_N r else draw e j.
Proof. reflexivity. Qed.

Lemma change_step e e' now n o out n' out2 n2 p : stepR e now n o out n' -> In (Own ByChange p) out ->
  stepR e' now n o out2 n2 -> out2 = [Own ByChange (set_id (pick_packet e' n) (pick_id e' n))].
Proof.
  intros S I S2. destruct S as [inc out n' T|x R|v|v]; own_in I. inversion S2 as [inc2 out3 n3 T2| | |]; subst.
  destruct T; own_in I. destruct T2; try congruence; try intuition congruence; reflexivity.
Qed.

(** C114.  When a master chooses a new effect, every effect and every palette of
    those configured is equally likely, independently of each other: there are
    two numbers of the random source such that, whatever else the source
    contains, with the two replaced the node announces effect i and palette j for
    (K / effects) (J / palettes) of the K J pairs of raw numbers, up to the
    rounding of each quotient. *)
Theorem C114_every_effect_is_equally_likely e t0 h ev p :
  history e t0 (h ++ [ev]) -> In (Own ByChange p) (sent ev) ->
  0 < configured_effects h -> 0 < configured_palettes h ->
  exists (k1 k2 : nat) (q : Z -> Z -> packet), k1 <> k2 /\
  (forall r s, 0 <= r -> 0 <= s ->
     let e' := with_draw (with_draw e k1 r) k2 s in
     history e' t0 (h ++ [redo e' ev]) /\ sent (redo e' ev) = [Own ByChange (q r s)]) /\
  forall K J i j, 0 <= K -> 0 <= J -> 0 <= i < configured_effects h -> 0 <= j < configured_palettes h ->
    (K / configured_effects h) * (J / configured_palettes h) <=
    how_many (fun x => (nth 0 (pdata (q (fst x) (snd x))) 0 =? i) && (nth 2 (pdata (q (fst x) (snd x))) 0 =? j))
      (list_prod (below K) (below J)) <=
    (K / configured_effects h + 1) * (J / configured_palettes h + 1).
Proof.
  intros HH I P1 P2. pose proof HH as [n H]. apply hist_last in H as (H & -> & G & O & L1 & L2 & S).
  destruct (configured_eq _ _ _ _ H) as [E1 E2]. rewrite <- E1, <- E2 in *.
  pose proof (g_ne _ G) as R1. pose proof (g_np _ G) as R2.
  set (m := before ev) in *. set (E' := fun r s => with_draw (with_draw e (rng m) r) (Datatypes.S (rng m)) s).
  set (q := fun r s => set_id (pick_packet (E' r s) m) (pick_id (E' r s) m)).
  assert (Val : forall r s, 0 <= r -> 0 <= s -> nth 0 (pdata (q r s)) 0 = r mod num_effects m /\ nth 2 (pdata (q r s)) 0 = s mod num_palettes m).
  { intros r s Pr Ps. destruct (pick_packet_bytes (E' r s) m G) as (Y0 & _ & Y2). unfold q. unfold set_id; proj. rewrite Y0, Y2.
    assert (Pk : forall hi raw, 0 < hi < 256 -> picked (plat e) hi raw = Z.of_N raw mod hi).
    { intros hi raw Hi. unfold picked, random2. pose proof (Z.mod_pos_bound (Z.of_N raw) hi ltac:(lia)). destruct (plat e).
      - destruct (Z.eqb_spec hi 0); [lia|]. rewrite u16_id; lia.
      - destruct (Z.leb_spec hi 0); [lia|]. rewrite Z.sub_0_r. lia. }
    unfold pick_effect, pick_palette, E'. rewrite !draw_with. cbn [plat with_draw]. rewrite !Pk by lia.
    rewrite !PeanoNat.Nat.eqb_refl. destruct (PeanoNat.Nat.eqb_spec (rng m) (Datatypes.S (rng m))); [lia|].
    rewrite !Z2N.id by lia. pose proof (Z.mod_pos_bound r (num_effects m) ltac:(lia)). pose proof (Z.mod_pos_bound s (num_palettes m) ltac:(lia)).
    split; apply u8_id; lia. }
  exists (rng m), (Datatypes.S (rng m)), q. split; [lia|]. split.
  - intros r s Pr Ps e'.
    destruct (redo_history e (draw e') t0 h ev HH) as (H2 & _ & S2).
    { intros k Lk. fold m in Lk. unfold e'. rewrite !draw_with. destruct (PeanoNat.Nat.eqb_spec k (Datatypes.S (rng m))); [lia|].
      destruct (PeanoNat.Nat.eqb_spec k (rng m)); [lia|reflexivity]. }
    change (mkEnv (plat e) (draw e')) with e' in *. split; [eexists; exact H2|]. fold m in S2. clear H2.
    exact (change_step _ _ _ _ _ _ _ _ _ _ S I S2).
  - intros K J i j PK PJ Pi Pj.
    rewrite (how_many_ext _ (fun x => (fst x mod num_effects m =? i) && (snd x mod num_palettes m =? j))).
    + rewrite (count_prod (fun r => r mod num_effects m =? i) (fun s => s mod num_palettes m =? j)).
      rewrite !count_residue by lia.
      assert (A : forall b : bool, 0 <= (if b then 1 else 0) <= 1) by (intros []; lia).
      pose proof (A (i <? K mod num_effects m)). pose proof (A (j <? J mod num_palettes m)).
      pose proof (Z.div_pos K (num_effects m) PK ltac:(lia)). pose proof (Z.div_pos J (num_palettes m) PJ ltac:(lia)). clear -H0 H1 H2 H3.
      set (a := K / num_effects m) in *. set (b := J / num_palettes m) in *. nia.
    + intros [r s] Irs. apply in_prod_iff in Irs as [Ir Is]. apply below_in in Ir, Is. cbn [fst snd]. destruct (Val r s) as [-> ->]; [lia..|reflexivity].
Qed.
Print Assumptions C114_every_effect_is_equally_likely.

Lemma wait_step e now n o out n' p : stepR e now n o out n' -> o = OTick (Some p) -> In (Forwarded p) out ->
  ptype p = 0 \/ ptype p = 1 -> state n' = Slave ->
  exists k, (rng n <= k)%nat /\ forall e' out2 n2, plat e' = plat e -> (forall j, j <> k -> draw e' j = draw e j) ->
    stepR e' now n o out2 n2 ->
    In (Forwarded p) out2 /\ state n2 = Slave /\ t_hb n2 = u32 (now + (5000 + Z.of_N (draw e' k) mod 2000)).
Proof.
  intros S Eo I Ty Ra. subst o. inversion S as [inc out0 n0 T| | |]; subst.
  assert (Hd : heard n (Some p) = Some p).
  { destruct (heard n (Some p)) as [q|] eqn:Hd; [apply heard_some in Hd; congruence|exfalso].
    inversion T; subst; try congruence; repeat (destruct I as [I|I]; try discriminate I); destruct I. }
  assert (Lo : ptype p = 0 -> state n = Master -> election_number e n <= pid p).
  { intros T0 M0. inversion T; subst; try congruence; assert (Ep : p0 = p) by congruence; subst p0;
      unfold HEARTBEAT, CLAIM_MASTER, SET_EFFECT, SET_CONTROL in *; try congruence; try lia.
    unfold with_packet_, with_nm, with_rng in Ra; cbn [state] in Ra. congruence. }
  exists (if (ptype p =? 0) && (match state n with Master => true | Slave => false end) then Datatypes.S (rng n) else rng n).
  split; [destruct ((ptype p =? 0) && _); lia|].
  intros e' out2 n2 Pl Dr S2. inversion S2 as [inc out0' n0' T2| | |]; subst. clear S S2 T I Ra.
  inversion T2; subst; try congruence; assert (Ep : p0 = p) by congruence; subst p0;
    unfold HEARTBEAT, CLAIM_MASTER, SET_EFFECT, SET_CONTROL in *; try (exfalso; intuition congruence);
    repeat match goal with H : state n = _ |- _ => rewrite H in * end;
    repeat match goal with H : ptype p = _ |- _ => rewrite H in * end; cbn [Z.eqb andb] in *.
  - split; [left; reflexivity|]. split; [assumption|reflexivity].
  - split; [left; reflexivity|]. split; [assumption|reflexivity].
  - exfalso. assert (election_number e' n = election_number e n).
    { unfold election_number. rewrite Pl, Dr by lia. reflexivity. }
    specialize (Lo eq_refl eq_refl). lia.
  - split; [left; reflexivity|]. split; reflexivity.
  - split; [left; reflexivity|]. split; reflexivity.
Qed.

(** The wait of a slave after it has heard a master, or stepped down, is equally
    likely to be any whole number of ms between 5000 and 6999. *)
Theorem C114_every_wait_is_equally_likely e t0 h ev :
  history e t0 (h ++ [ev]) -> contact ev -> role_after ev = Slave ->
  exists (k : nat) (wait : Z -> Z),
  (forall r, 0 <= r ->
     let e' := with_draw e k r in
     history e' t0 (h ++ [redo e' ev]) /\ contact (redo e' ev) /\ role_after (redo e' ev) = Slave /\
     forall h2 x, history e' t0 (((h ++ [redo e' ev]) ++ h2) ++ [x]) ->
       all_before (wrap - 7000) t0 (((h ++ [redo e' ev]) ++ h2) ++ [x]) ->
       (forall y, In y h2 -> ~ contact y) -> role_before x = Slave ->
       (took_over x <-> packet_free x /\ wait r < at_ x - at_ ev)) /\
  forall K d, 0 <= K -> 5000 <= d < 7000 ->
    K / 2000 <= how_many (fun r => wait r =? d) (below K) <= K / 2000 + 1.
Proof.
  intros HH C Ra. pose proof HH as [n H]. apply hist_last in H as (H & -> & G & O & L1 & L2 & S).
  destruct C as (p & Ap & Ty). pose proof (proj1 (step_accepted e ev p S) Ap) as (inc & Cl & Hh).
  pose proof (heard_some _ _ _ Hh) as ->. destruct Ap as [_ Ip].
  destruct (wait_step _ _ _ _ _ _ p S Cl Ip Ty Ra) as (k & Lk & Wk).
  exists k, (fun r => 5000 + r mod 2000). split.
  - intros r Pr e'.
    destruct (redo_history e (draw e') t0 h ev HH) as (H2 & _ & S2).
    { intros j Lj. unfold e'. rewrite draw_with. destruct (PeanoNat.Nat.eqb_spec j k); [lia|reflexivity]. }
    change (mkEnv (plat e) (draw e')) with e' in *.
    destruct (redo_frame e' ev) as (F1 & F2 & F3).
    assert (Dj : forall j, j <> k -> draw e' j = draw e j).
    { intros j Nj. unfold e'. rewrite draw_with. destruct (PeanoNat.Nat.eqb_spec j k); [lia|reflexivity]. }
    destruct (Wk e' _ _ eq_refl Dj S2) as (I2 & St2 & T2).
    split; [eexists; exact H2|]. split. { exists p. split; [split; [rewrite F2; exact Cl|exact I2]|exact Ty]. }
    split; [exact St2|]. intros h2 x Hx Bx Nc Rx.
    set (w := mkNetwork (fun _ => e') (fun _ => t0) (fun _ => 0) (fun _ => h ++ [redo e' ev])).
    rewrite (lonely_node w 0%nat h2 x Hx Bx); [| |exact Nc|exact Rx].
    + assert (En : ends w 0 = at_ ev + (5000 + r mod 2000)).
      { unfold ends. cbn [n_past w]. rewrite rev_app_distr. cbn [rev app]. rewrite T2. unfold e'. rewrite draw_with, PeanoNat.Nat.eqb_refl, Z2N.id by exact Pr.
        destruct Bx as [B0 Bx]. specialize (Bx (redo e' ev) ltac:(apply in_or_app; left; apply in_or_app; left; apply in_or_app; right; left; reflexivity)).
        rewrite F1 in Bx. pose proof (Z.mod_pos_bound r 2000 ltac:(lia)). pose proof (hist_t0 _ _ _ _ H).
        unfold wrap in *. rewrite (u32_id (at_ ev)) by lia. apply u32_id. lia. }
      rewrite En. intuition lia.
    + cbn [n_env n_start n_past w]. intros n0 H0. apply hist_last in H0 as (_ & -> & _). exact St2.
  - intros K d PK Pd. rewrite (how_many_ext _ (fun r => r mod 2000 =? d - 5000)).
    + rewrite count_residue by lia. destruct (d - 5000 <? K mod 2000); lia.
    + intros x _. destruct (Z.eqb_spec (x mod 2000) (d - 5000)), (Z.eqb_spec (5000 + x mod 2000) d); lia.
Qed.
Print Assumptions C114_every_wait_is_equally_likely.

(** How many different numbers an election draws from. *)
Definition tickets (pl : platform) : Z := match pl with Host => 65535 | Arduino => 65534 end.

Definition is_master (r : role) : bool := match r with Master => true | Slave => false end.

(** A master that hears a heartbeat with id i stays master for [tickets] - i out
    of every [tickets] raw numbers: the larger the id of the heartbeat, the more
    likely it steps down; nothing else about the two masters matters. *)
Theorem C114_odds_of_an_election e t0 h ev p :
  history e t0 (h ++ [ev]) -> accepted ev p -> ptype p = 0 -> role_before ev = Master ->
  0 <= pid p <= tickets (plat e) ->
  exists k : nat,
  (forall r, 0 <= r -> let e' := with_draw e k r in
     history e' t0 (h ++ [redo e' ev]) /\ accepted (redo e' ev) p /\ role_before (redo e' ev) = Master) /\
  forall c, 0 <= c ->
    how_many (fun r => is_master (role_after (redo (with_draw e k r) ev))) (below (tickets (plat e) * c)) =
    (tickets (plat e) - pid p) * c.
Proof.
  intros HH Ap Ty Rb Pp. pose proof HH as [n H]. apply hist_last in H as (H & -> & G & O & L1 & L2 & S).
  exists (rng (before ev)).
  assert (A : forall r, let e' := with_draw e (rng (before ev)) r in
     history e' t0 (h ++ [redo e' ev]) /\ accepted (redo e' ev) p /\ role_before (redo e' ev) = Master).
  { intros r e'. destruct (redo_history e (draw e') t0 h ev HH) as (H2 & _ & S2).
    { intros j Lj. unfold e'. rewrite draw_with. destruct (PeanoNat.Nat.eqb_spec j (rng (before ev))); [lia|reflexivity]. }
    change (mkEnv (plat e) (draw e')) with e' in *. destruct (redo_frame e' ev) as (F1 & F2 & F3).
    split; [eexists; exact H2|]. split; [|unfold role_before in *; rewrite F3; exact Rb].
    pose proof (proj1 (step_accepted e ev p S) Ap) as (inc & Cl & Hh).
    assert (S3 : stepR e' (u32 (at_ (redo e' ev))) (before (redo e' ev)) (call (redo e' ev)) (sent (redo e' ev)) (after (redo e' ev))) by (rewrite F1, F2, F3; exact S2).
    apply (step_accepted e' (redo e' ev) p S3). exists inc. rewrite F2, F3. auto. }
  split; [intros r _; apply A|]. intros c Pc.
  assert (T0 : 0 < tickets (plat e)) by (unfold tickets; destruct (plat e); lia).
  rewrite (how_many_ext _ (fun r => pid p <=? r mod tickets (plat e))).
  - replace (tickets (plat e) * c) with (tickets (plat e) * c + 0) by lia.
    rewrite (count_periodic (fun x => pid p <=? x)) by lia. rewrite count_high by lia.
    change (how_many _ (below 0)) with 0. lia.
  - intros r Ir. apply below_in in Ir. destruct (A r) as (H2 & A2 & R2).
    destruct (redo_frame (with_draw e (rng (before ev)) r) ev) as (F1 & F2 & F3).
    destruct (C22_election _ _ _ _ _ H2 A2 Ty R2) as [W Lo]. rewrite F3, draw_with, PeanoNat.Nat.eqb_refl in W, Lo. cbn [plat with_draw] in W, Lo.
    assert (Ed : election_draw (plat e) (Z.to_N r) = 1 + r mod tickets (plat e)).
    { unfold election_draw, tickets. destruct (plat e); rewrite Z2N.id by lia; reflexivity. }
    rewrite Ed in W, Lo. destruct (Z.leb_spec (pid p) (r mod tickets (plat e))).
    + destruct (W ltac:(lia)) as [-> _]. reflexivity.
    + destruct (Lo ltac:(lia)) as [-> _]. reflexivity.
Qed.
Print Assumptions C114_odds_of_an_election.

Definition zsum (l : list Z) : Z := fold_right Z.add 0 l.

Lemma how_many_pairs {A B} (F : A * B -> bool) (l : list A) (l' : list B) :
  how_many F (list_prod l l') = zsum (map (fun x => how_many (fun y => F (x, y)) l') l).
Proof.
  induction l as [|x l IH]; [reflexivity|]. cbn [list_prod map zsum fold_right]. rewrite how_many_app, IH, how_many_map. reflexivity.
Qed.

Lemma zsum_app a b : zsum (a ++ b) = zsum a + zsum b.
Proof. induction a as [|x a IH]; cbn; [reflexivity|]. unfold zsum in *. lia. Qed.

Lemma zsum_le {A} (f g : A -> Z) l : (forall x, In x l -> f x <= g x) -> zsum (map f l) <= zsum (map g l).
Proof.
  induction l as [|x l IH]; intros L; cbn; [lia|]. pose proof (L x ltac:(left; reflexivity)).
  assert (forall y, In y l -> f y <= g y) by (intros y I; apply L; right; exact I). specialize (IH H0). unfold zsum in *. lia.
Qed.

Lemma zsum_plus {A} (f g : A -> Z) l : zsum (map (fun x => f x + g x) l) = zsum (map f l) + zsum (map g l).
Proof. induction l as [|x l IH]; cbn; [reflexivity|]. unfold zsum in *. lia. Qed.

Lemma zsum_if {A} (f : A -> bool) v l : zsum (map (fun x => if f x then v else 0) l) = v * how_many f l.
Proof. induction l as [|x l IH]; [unfold how_many; cbn; lia|]. unfold zsum, how_many in *. cbn. destruct (f x); cbn [length]; lia. Qed.

Lemma zsum_line a K : 0 <= K -> 2 * zsum (map (fun x => a - x) (below K)) = 2 * K * a - K * (K - 1).
Proof.
  intros P. pattern K. apply natlike_ind; [reflexivity| |exact P]. intros x Px IH. unfold Z.succ.
  rewrite below_succ, map_app, zsum_app by exact Px. cbn [map zsum fold_right]. lia.
Qed.

(** At most as many numbers as there are ids have one of these ids. *)
Lemma few_known g ids l : (forall x y : Z, g x = g y -> x = y) -> NoDup l ->
  how_many (fun x => existsb (fun i => i =? g x) ids) l <= Z.of_nat (length ids).
Proof.
  intros Inj Nd. unfold how_many. apply inj_le. rewrite <- (map_length g). apply NoDup_incl_length.
  - apply Injective_map_NoDup; [exact Inj|apply NoDup_filter; exact Nd].
  - intros z I. apply in_map_iff in I as (x & <- & I). apply filter_In in I as [_ I]. apply existsb_exists in I as (i & I & E).
    apply Z.eqb_eq in E. subst i. exact I.
Qed.

(** The heartbeat p as its sender sends it when its random source gives raw number x. *)
Definition sent_with (x : Z) (p : packet) : packet := set_id p (2 + x mod 65533).

Theorem C114_heartbeat_ids_are_equally_likely e t0 h ev p :
  history e t0 (h ++ [ev]) -> In (Own ByHeartbeat p) (sent ev) -> plat e = Arduino ->
  exists k, forall x, 0 <= x -> let e' := with_draw e k x in
    history e' t0 (h ++ [redo e' ev]) /\ sent (redo e' ev) = [Own ByHeartbeat (sent_with x p)].
Proof.
  intros HH I Pl. pose proof HH as [n H]. apply hist_last in H as (H & -> & G & O & L1 & L2 & S).
  exists (rng (before ev)). intros x Px e'.
  destruct (redo_history e (draw e') t0 h ev HH) as (H2 & _ & S2).
  { intros j Lj. unfold e'. rewrite draw_with. destruct (PeanoNat.Nat.eqb_spec j (rng (before ev))); [lia|reflexivity]. }
  change (mkEnv (plat e) (draw e')) with e' in *. split; [eexists; exact H2|]. clear H2.
  assert (F : fresh e' (before ev) = 2 + x mod 65533).
  { unfold fresh, id_of. unfold e'. rewrite draw_with, PeanoNat.Nat.eqb_refl. cbn [plat with_draw]. rewrite Pl. cbn [random2 Z.leb Z.compare Pos.compare Pos.compare_cont Z.sub].
    rewrite Z2N.id by exact Px. reflexivity. }
  set (out2 := sent (redo e' ev)) in *. set (n2 := after (redo e' ev)) in *. clearbody out2 n2.
  set (m := before ev) in *. set (o := call ev) in *. set (now := u32 (at_ ev)) in *. set (out := sent ev) in *. set (n := after ev) in *. clearbody m o now out n e'.
  destruct S as [inc out n T|q R|v|v]; own_in I. inversion S2 as [inc2 out3 n3 T2| | |]; subst.
  destruct T; own_in I; (destruct T2; try congruence; try (intuition congruence));
    unfold sent_with, hb_packet, set_id in *; proj; rewrite F; reflexivity.
Qed.
Print Assumptions C114_heartbeat_ids_are_equally_likely.

(** A device that is master hears the heartbeat of another master.  Over all raw
    numbers of the sender (which make the id) and of the receiver (which make the
    number it draws) it stays master in half of the cases: in 65533 * 32766 of
    65533 * 65534, plus those in which it takes the heartbeat for a copy of one of
    the last five packets. *)
Theorem C114_an_election_is_a_coin e t0 h n t p :
  hist e t0 h n -> GetCurrentState n = Master -> plat e = Arduino ->
  t0 <= t -> (forall ev, In ev h -> at_ ev <= t) -> wf_packet p -> ptype p = 0 ->
  exists (k : nat) (ev : Z -> Z -> event),
  (forall x y, 0 <= x -> 0 <= y -> history (with_draw e k y) t0 (h ++ [ev x y]) /\
     at_ (ev x y) = t /\ call (ev x y) = OTick (Some (sent_with x p))) /\
  65533 * 32766 <= how_many (fun xy => is_master (role_after (ev (fst xy) (snd xy)))) (list_prod (below 65533) (below 65534))
    <= 65533 * 32766 + 5 * 65534.
Proof.
  intros H St Pl L1 L2 Wp Ty. pose proof (hist_good _ _ _ _ H) as G.
  set (id x := 2 + x mod 65533). assert (Ri : forall x, 2 <= id x <= 65534) by (intros x; unfold id; lia).
  assert (Ws : forall x, wf_packet (sent_with x p)).
  { intros x. apply set_id_wf; [exact Wp|]. specialize (Ri x). unfold id in Ri. lia. }
  set (start x := mkEv t (OTick (Some (sent_with x p))) n n []).
  assert (Run : forall e' x, plat e' = Arduino -> exists n' out, step e' (u32 t) (OTick (Some (sent_with x p))) n = Ok (tt, n', out)).
  { intros e' x Pl'. cbn [step]. destruct (tick_total e' (u32 t) n (Some (sent_with x p)) G (Ws x)) as [(n' & out & E & _)|[(_ & X)|(_ & X)]]; [eauto| |].
    - destruct X as (q & _ & X & _). congruence.
    - destruct X as (_ & _ & _ & _ & X). exfalso. apply X. left. exact Pl'. }
  exists (rng n), (fun x y => redo (with_draw e (rng n) y) (start x)).
  assert (A : forall x y, history (with_draw e (rng n) y) t0 (h ++ [redo (with_draw e (rng n) y) (start x)])).
  { intros x y. destruct (Run (with_draw e (rng n) y) x Pl) as (n' & out & E). unfold redo, start. cbn [at_ call before]. rewrite E.
    eexists. apply hist_step; auto; [|apply Ws]. apply with_draw_hist; [exact H|apply le_n]. }
  split.
  { intros x y Px Py. split; [apply A|]. destruct (redo_frame (with_draw e (rng n) y) (start x)) as (F1 & F2 & _). rewrite F1, F2. split; reflexivity. }
  rewrite how_many_pairs. cbn [fst snd].
  set (known x := existsb (fun i => i =? id x) (nm_cache (nm n))).
  assert (Inner : forall x, In x (below 65533) ->
    how_many (fun y => is_master (role_after (redo (with_draw e (rng n) y) (start x)))) (below 65534) = if known x then 65534 else 65534 - id x).
  { intros x Ix. destruct (known x) eqn:Kn.
    - rewrite (how_many_ext _ (fun _ => true)); [rewrite how_many_true, below_length; lia|].
      intros y _. destruct (redo_frame (with_draw e (rng n) y) (start x)) as (F1 & F2 & F3).
      rewrite (no_contact_keeps_master _ _ _ _ (A x y)); [reflexivity|unfold role_before; rewrite F3; exact St|].
      intros q Aq _. pose proof (A x y) as [n9 H9]. apply hist_last in H9 as (_ & _ & _ & _ & _ & _ & S9).
      apply (step_accepted _ _ _ S9) in Aq as (inc & Ci & Hd). rewrite F2 in Ci. rewrite F3 in Hd. cbn [start call before] in *. injection Ci as <-.
      cbn [heard] in Hd. unfold known in Kn. change (pid (sent_with x p)) with (id x) in Hd. rewrite Kn in Hd. discriminate.
    - set (ev := redo e (start x)).
      assert (He : history e t0 (h ++ [ev])).
      { destruct (Run e x Pl) as (n' & out & E). unfold ev, redo, start. cbn [at_ call before]. rewrite E. eexists. apply hist_step; auto. apply Ws. }
      destruct (redo_frame e (start x)) as (F1 & F2 & F3). fold ev in F1, F2, F3. cbn [start call before at_] in F1, F2, F3.
      pose proof He as [n9 H9]. apply hist_last in H9 as (_ & _ & _ & _ & _ & _ & S9).
      assert (Ac : accepted ev (sent_with x p)).
      { apply (step_accepted _ _ _ S9). exists (Some (sent_with x p)). split; [exact F2|]. rewrite F3. cbn [heard].
        change (pid (sent_with x p)) with (id x). fold (known x). rewrite Kn. reflexivity. }
      assert (Eq : forall y, redo (with_draw e (rng n) y) ev = redo (with_draw e (rng n) y) (start x)).
      { intros y. destruct (Run (with_draw e (rng n) y) x Pl) as (n' & out & E). unfold redo. rewrite F1, F2, F3. cbn [start call before at_]. rewrite E. reflexivity. }
      rewrite (how_many_ext _ (fun y => id x <=? y)); [apply count_high; specialize (Ri x); lia|].
      intros y Iy. apply below_in in Iy. pose proof (A x y) as H2. destruct (redo_frame (with_draw e (rng n) y) (start x)) as (F4 & F5 & F6).
      pose proof H2 as [n8 H8]. apply hist_last in H8 as (_ & _ & _ & _ & _ & _ & S8).
      assert (A2 : accepted (redo (with_draw e (rng n) y) (start x)) (sent_with x p)).
      { apply (step_accepted _ _ _ S8). exists (Some (sent_with x p)). rewrite F5, F6. split; [reflexivity|]. cbn [heard start before].
        change (pid (sent_with x p)) with (id x). fold (known x). rewrite Kn. reflexivity. }
      assert (R2 : role_before (redo (with_draw e (rng n) y) (start x)) = Master) by (unfold role_before; rewrite F6; exact St).
      destruct (C22_election _ _ _ _ _ H2 A2 Ty R2) as [W Lo]. rewrite F6 in W, Lo. cbn [start before] in W, Lo. rewrite draw_with, PeanoNat.Nat.eqb_refl in W, Lo.
      cbn [plat with_draw] in W, Lo. rewrite Pl in W, Lo. unfold election_draw in W, Lo. rewrite Z2N.id, Z.mod_small in W, Lo by lia.
      change (pid (sent_with x p)) with (id x) in *. destruct (Z.leb_spec (id x) y).
      + destruct (W ltac:(lia)) as [-> _]. reflexivity.
      + destruct (Lo ltac:(lia)) as [-> _]. reflexivity. }
  rewrite (map_ext_in _ _ _ Inner).
  assert (Id : forall x, In x (below 65533) -> id x = 2 + x) by (intros x Ix; apply below_in in Ix; unfold id; lia).
  pose proof (zsum_line 65532 65533 ltac:(lia)) as Line.
  split.
  - apply Z.le_trans with (zsum (map (fun x => 65532 - x) (below 65533))); [lia|].
    apply zsum_le. intros x Ix. rewrite (Id x Ix). destruct (known x); apply below_in in Ix; lia.
  - apply Z.le_trans with (zsum (map (fun x => (65532 - x) + (if known x then 65534 else 0)) (below 65533))).
    + apply zsum_le. intros x Ix. rewrite (Id x Ix). destruct (known x); apply below_in in Ix; lia.
    + rewrite (zsum_plus (fun x => 65532 - x) (fun x => if known x then 65534 else 0)), (zsum_if known).
      assert (Fk : how_many known (below 65533) <= 5).
      { rewrite (how_many_ext _ (fun x => existsb (fun i => i =? 2 + x) (nm_cache (nm n)))).
        - pose proof (few_known (fun x => 2 + x) (nm_cache (nm n)) (below 65533) ltac:(cbv beta; intros x y E9; lia) (below_nodup _)) as F.
          rewrite (proj1 (g_nm _ G)) in F. exact F.
        - intros x Ix. unfold known. rewrite (Id x Ix). reflexivity. }
      lia.
Qed.
Print Assumptions C114_an_election_is_a_coin.

(** A device that became master 7 s after power-up, with 200 effects and 7
    palettes, chooses an effect after a minute. *)
Example C114_example_change : exists h ev p, history (env0 Arduino) 0 (h ++ [ev]) /\
  In (Own ByChange p) (sent ev) /\ configured_effects h = 200 /\ configured_palettes h = 7.
Proof.
  run_as H (env0 Arduino) 0 [(1, OSetNumEffects 200); (2, OSetNumPalettes 7); (61000, OTick None); (61003, OTick None)].
  match type of H with hist _ _ [?a; ?b; ?c; ?d] _ => exists [a; b; c], d end.
  eexists. split; [eexists; exact H|]. split; [left; reflexivity|]. split; reflexivity.
Qed.

(** With 10 raw numbers for the effect and 3 effects, and 4 for the palette and 2
    palettes, each combination is chosen at least 6 times and at most 12 times. *)
Example C114_example_count :
  how_many (fun x => (fst x mod 3 =? 1) && (snd x mod 2 =? 0)) (list_prod (below 10) (below 4)) = 6 /\
  how_many (fun x => (fst x mod 3 =? 0) && (snd x mod 2 =? 0)) (list_prod (below 10) (below 4)) = 8.
Proof. split; reflexivity. Qed.

(** A master that hears a heartbeat; a slave that hears one. *)
Example C114_example_election : exists h ev, history (env_const Arduino 2000) 0 (h ++ [ev]) /\
  accepted ev (heartbeat_pkt 30000 0) /\ role_before ev = Master /\ contact ev /\ role_after ev = Slave.
Proof.
  run_as H (env_const Arduino 2000) 0 [(7000, OTick None); (7500, OTick (Some (heartbeat_pkt 30000 0)))].
  match type of H with hist _ _ [?a; ?b] _ => exists [a], b end.
  split; [eexists; exact H|]. split; [split; [reflexivity|left; reflexivity]|]. split; [reflexivity|]. split; [|reflexivity].
  exists (heartbeat_pkt 30000 0). split; [split; [reflexivity|left; reflexivity]|left; reflexivity].
Qed.

Example C114_example_heartbeat : exists h ev p, history (env_const Arduino 2000) 0 (h ++ [ev]) /\
  In (Own ByHeartbeat p) (sent ev) /\ pid p = 2002 /\ GetCurrentState (after ev) = Master.
Proof.
  run_as H (env_const Arduino 2000) 0 [(7000, OTick None)].
  match type of H with hist _ _ [?a] _ => exists [], a end.
  eexists. split; [eexists; exact H|]. split; [left; reflexivity|]. split; reflexivity.
Qed.
