(** Networks over the real radio: C112. *)
From Coq Require Import ZArith Lia List Bool.
From Coq Require Import ZifyBool.
From Verif Require Import CInt CIntFacts Packet SpecPacket PacketFacts HwRadio HwFacts PropHw NetMgr NetHist SpecNet NetFacts Fastled Palette Device LedMgr SpecLed Effects SpecEffect Show ShowFacts PropShow Rsm RsmStep RsmEval RsmHist SpecRsm RsmFacts RsmTime RoleFacts RsmRun EffectFacts PropRole PropHeartbeat PropEffect PropHold PropPair PropNetTime PropNetwork PropOneMaster PropCatchUp PropInStep PropStartUp PropPowerUp PropUnstarved PropRsmHw PropConsole.
Import ListNotations.
Open Scope Z_scope.
Ltac Zify.zify_post_hook ::= Z.div_mod_to_equations.

(** A node's radio driver makes packet p out of this frame.  RadioTick gives it a
    new packet object: length 0, and whatever bytes happen to be there. *)
Definition handed (frame : list Z) (p : packet) : Prop :=
  exists p0, wf_packet p0 /\ dlen p0 = 0 /\ hw_read (Some frame) p0 = Ok (true, p).

(** What a node gets is a frame that another node transmitted at most D ms ago. *)
Definition hears_frames (w : network) (tr : run) (D : Z) : Prop :=
  forall a i ev b p, tr = a ++ (i, ev) :: b -> call ev = OTick (Some p) ->
    exists k y t frame, k <> i /\ In (k, y) a /\ In t (sent y) /\ hw_send (rtx_packet t) = Ok frame /\ handed frame p /\
      global w k y <= global w i ev <= global w k y + D.

(** A run [tr] of a network of N nodes up to global time [stop], over the device
    radio.  Node m is ticked every P ms from time g on; D: how long a frame
    takes until a node looks at it. *)
Record on_air (w : network) (N m : nat) (tr : run) (g stop P D : Z) : Prop := mkAir {
  oa_run : is_run w tr;
  oa_ordered : ordered w tr;
  oa_times : forall i ev, In (i, ev) tr -> (i < N)%nat /\ global w i ev <= stop;
  oa_wrap : forall i, (i < N)%nat -> all_before (wrap - 7000) (n_start w i) (n_past w i ++ calls_at i tr);
  oa_ticks : forall x, g <= x -> x + P < stop ->
    exists y inc, In (m, y) tr /\ call y = OTick inc /\ x < global w m y <= x + P;
  (** every node gets the frames of node m in time, apart from those the driver
      ignores because they are no longer than the header *)
  oa_reach : forall y t frame i, In (m, y) tr -> In t (sent y) -> hw_send (rtx_packet t) = Ok frame -> (3 < length frame)%nat ->
    (i < N)%nat -> i <> m -> global w m y + D < stop ->
    exists c p, In (i, c) tr /\ call c = OTick (Some p) /\ handed frame p /\ global w m y <= global w i c <= global w m y + D;
  oa_heard : hears_frames w tr D;
  (** no coincidence of packet ids: what a node gets has none of the last five ids it transmitted *)
  oa_ids : forall a i ev b p, tr = a ++ (i, ev) :: b -> call ev = OTick (Some p) ->
    ~ In (pid p) (last5 (all_ids (n_past w i ++ calls_at i a)))
}.

(** The length that belongs to the type of a packet. *)
Definition proper (p : packet) : Prop := dlen p = if ptype p =? 2 then 3 else 4.

Lemma handed_from q frame p : wf_packet q -> hw_send q = Ok frame -> handed frame p ->
  dlen p = 0 /\ 1 <= dlen q /\ pid p = pid q /\ ptype p = ptype q /\ (proper q -> says p q).
Proof.
  intros W Hs (p0 & W0 & L0 & Hr).
  assert (L : 1 <= dlen q <= 58).
  { destruct (Z_le_gt_dec (dlen q) 58) as [L|L]; [|rewrite hw_send_undef in Hs by (auto; lia); discriminate].
    destruct (Z_le_gt_dec (dlen q) 0) as [L1|L1]; [|lia].
    assert (dlen q = 0) as E by (destruct W as (_ & _ & B & _); unfold is_byte in B; lia).
    destruct (empty_lost q E) as (f & Hf & Hn). rewrite Hs in Hf. injection Hf as <-. rewrite Hn in Hr. discriminate. }
  destruct (C06_frame_roundtrip q p0 W W0 L) as (f & Hf & _ & p' & Hp & I & T & Pl & _ & Ld).
  rewrite Hs in Hf. injection Hf as <-. rewrite Hr in Hp. injection Hp as <-.
  split; [congruence|]. split; [lia|]. split; [exact I|]. split; [exact T|]. intros Pr. split; [exact T|].
  unfold proper in Pr. rewrite Pr in Pl. destruct (ptype q =? 2); exact Pl.
Qed.

Lemma proper_sent q : wf_packet q -> proper q -> exists frame, hw_send q = Ok frame /\ (3 < length frame)%nat.
Proof.
  intros W Pr. assert (L : 1 <= dlen q <= 58) by (unfold proper in Pr; destruct (ptype q =? 2); lia).
  destruct (C06_frame_roundtrip q q W W L) as (f & Hf & Lf & _). exists f. split; [exact Hf|lia].
Qed.

(** Lengths of the packets a node originates. *)
Lemma own_lengths e ev s p : stepR e (u32 (at_ ev)) (before ev) (call ev) (sent ev) (after ev) -> good (before ev) ->
  about_effects (GetSetEffect (before ev)) -> (forall q, call ev <> OSetEffect q) -> In (Own s p) (sent ev) ->
  wf_packet p /\ (ptype p = 0 -> dlen p = 4) /\ (ptype p = 1 -> dlen p = 0) /\ (ptype p = 0 \/ ptype p = 1 \/ about_effects p).
Proof.
  intros S G Ab NS I. destruct ev as [t o m m' out]; proj. unfold about_effects, GetSetEffect in *.
  destruct S as [inc out m' T|q R|v|v]; proj; own_in I; [|exfalso; eapply NS; reflexivity].
  destruct T; own_in I; proj.
  all: try (split; [apply hb_packet_wf; apply G|split; [intros _; reflexivity|split; [intros X; discriminate X|left; reflexivity]]]; fail).
  - split; [apply set_id_wf; [apply writeSetEffect_wf; apply G|apply id_of_range]|].
    split; [intros X; discriminate X|]. split; [intros X; discriminate X|]. right; right; left; reflexivity.
  - split; [apply set_id_wf; [apply G|apply id_of_range]|]. split; [intros X; exfalso; lia|]. split; [intros X; exfalso; lia|]. right; right; exact Ab.
  - split; [apply claim_packet_wf; apply G|]. split; [intros X; discriminate X|]. split; [intros _; reflexivity|]. right; left; reflexivity.
Qed.

(** What a node shows is about effects, and as long as nobody told it what to
    show it has the length of a set-effect packet. *)
Lemma shown_proper e t0 h n : hist e t0 h n -> (forall ev q, In ev h -> call ev <> OSetEffect q) ->
  about_effects (GetSetEffect n) /\
  ((forall ev q, In ev h -> ~ accepted ev q) -> ptype (GetSetEffect n) = 2 /\ dlen (GetSetEffect n) = 3).
Proof.
  intros H. pattern h, n. revert h n H. apply (hist_ind2 e t0).
  - intros. split; [left; reflexivity|]. intros _. split; reflexivity.
  - intros h ev H IH G O L1 L2 S NS. destruct IH as [Ab Pr]; [intros z q I; apply NS; apply in_or_app; left; exact I|].
    destruct (shown_step _ _ S G) as [(E1 & E2 & E3)|[(p & Ac & A & E)|[(p & I & E1 & E2 & E3)|(q & C & E)]]].
    + unfold about_effects. rewrite E1, E2. split; [exact Ab|]. intros Na. apply Pr. intros z q I. apply Na. apply in_or_app; left; exact I.
    + rewrite E. split; [exact A|]. intros Na. exfalso. apply (Na ev p); [apply in_or_app; right; left; reflexivity|exact Ac].
    + assert (X : ptype p = 2 /\ dlen p = 3).
      { destruct ev as [t o m m' out]; proj. destruct S as [inc out m' T|q R|v|v]; proj; own_in I. destruct T; own_in I; split; reflexivity. }
      unfold about_effects. rewrite E1, E2. split; [left|intros _]; apply X.
    + exfalso. apply (NS ev q); [apply in_or_app; right; left; reflexivity|exact C].
Qed.

Section Air.
Variables (w : network) (N m : nat) (tr : run) (g stop P D : Z).
Hypothesis (OA : on_air w N m tr g stop P D).
Hypothesis (New : forall i, n_past w i = []).
Hypothesis (NoSet : forall i ev q, In (i, ev) tr -> call ev <> OSetEffect q).

Lemma oa_hist a i ev b : tr = a ++ (i, ev) :: b ->
  (exists n, hist (n_env w i) (n_start w i) (calls_at i a ++ [ev]) n) /\
  (forall z q, In z (calls_at i a ++ [ev]) -> call z <> OSetEffect q).
Proof using All.
  intros E. pose proof (oa_run _ _ _ _ _ _ _ _ OA) as R. rewrite E in R.
  destruct (run_split _ _ _ _ _ R) as (n & H & _). rewrite New in H. split; [exists n; exact H|].
  intros z q I. apply (NoSet i). rewrite E. apply in_app_or in I as [I|[<-|[]]]; apply in_or_app; [left; apply in_calls_at; exact I|right; left; reflexivity].
Qed.

(** What a node is handed, it accepts. *)
Lemma oa_accepts a i ev b p : tr = a ++ (i, ev) :: b -> call ev = OTick (Some p) -> accepted ev p.
Proof using All.
  intros E C. destruct (oa_hist a i ev b E) as [(n & H) _].
  apply (C10_node_accepts_iff_not_recent _ _ _ _ _ (ex_intro _ _ H) C).
  pose proof (oa_ids _ _ _ _ _ _ _ _ OA a i ev b p E C) as X. rewrite New in X. exact X.
Qed.

(** What a node is handed has length 0: relays of it are lost. *)
Lemma oa_empty i ev p : In (i, ev) tr -> In (Forwarded p) (sent ev) -> dlen p = 0.
Proof using All.
  intros I F. apply in_split in I as (a & b & E). destruct (oa_hist a i ev b E) as [(n & H) _].
  apply hist_last in H as (_ & _ & _ & _ & _ & _ & S).
  destruct (forwarded_accepted _ _ _ S F) as [C _].
  destruct (oa_heard _ _ _ _ _ _ _ _ OA a i ev b p E C) as (k & y & t & frame & _ & _ & _ & _ & (p0 & _ & L0 & Hr) & _).
  rewrite (hw_read_dlen _ _ _ _ Hr). exact L0.
Qed.

Lemma oa_prompt a i ev b p : tr = a ++ (i, ev) :: b -> call ev = OTick (Some p) ->
  exists k y q, k <> i /\ In (k, y) a /\ originated y q /\ dlen q <> 0 /\ ptype p = ptype q /\
    (about_effects q -> ptype (GetSetEffect (after y)) = ptype q /\ dlen (GetSetEffect (after y)) = dlen q) /\
    (proper q -> says p q) /\ (ptype q = 0 -> proper q) /\
    (ptype q = 0 \/ about_effects q) /\ global w k y <= global w i ev <= global w k y + D.
Proof using All.
  intros E C. destruct (oa_heard _ _ _ _ _ _ _ _ OA a i ev b p E C) as (k & y & t & frame & Nk & Iy & It & Hs & Hd & Lt).
  assert (Iy' : In (k, y) tr) by (rewrite E; apply in_or_app; left; exact Iy).
  destruct t as [q|s q]; cbn [rtx_packet] in Hs.
  - exfalso. destruct (empty_lost q (oa_empty k y q Iy' It)) as (f & Hf & Hn). rewrite Hs in Hf. injection Hf as <-.
    destruct Hd as (p0 & _ & _ & Hr). rewrite Hn in Hr. discriminate.
  - pose proof Iy as Iz. apply in_split in Iz as (a1 & b1 & E1).
    assert (Ey : tr = a1 ++ (k, y) :: (b1 ++ (i, ev) :: b)) by (rewrite E, E1, <- app_assoc; reflexivity).
    destruct (oa_hist a1 k y _ Ey) as [(n & H) NS]. pose proof H as Hl. apply hist_last in Hl as (Hb & _ & G & _ & _ & _ & S).
    destruct (shown_proper _ _ _ _ Hb ltac:(intros z r Iz; apply NS; apply in_or_app; left; exact Iz)) as [Ab _].
    destruct (own_lengths _ _ _ _ S G Ab ltac:(intros r; apply NS; apply in_or_app; right; left; reflexivity) It) as (Wq & L0 & L1 & Ty).
    destruct (handed_from q frame p Wq Hs Hd) as (_ & Lq & _ & Tp & Sq).
    exists k, y, q. split; [exact Nk|]. split; [exact Iy|]. split; [exists s; exact It|]. split; [lia|]. split; [exact Tp|].
    split; [intros Aq; destruct (own_is_shown _ _ _ _ S It Aq) as (T1 & T2 & _); auto|].
    split; [exact Sq|]. split; [intros T0; unfold proper; rewrite T0; exact (L0 T0)|].
    split; [|exact Lt]. destruct Ty as [T|[T|T]]; [left; exact T|exfalso; specialize (L1 T); lia|right; exact T].
Qed.

(** A heartbeat of m, and an order of m that it did not learn from others, reach everybody. *)
Lemma oa_arrive y p i : In (m, y) tr -> originated y p -> ptype p = 0 \/ (about_effects p /\ ptype (GetSetEffect (after y)) = 2 /\ dlen (GetSetEffect (after y)) = 3) ->
  (i < N)%nat -> i <> m -> global w m y + D < stop ->
  exists c q, In (i, c) tr /\ accepted c q /\ says q p /\ global w m y <= global w i c <= global w m y + D.
Proof using All.
  intros I (s & O) Ty Ni Ne U. pose proof I as Iz. apply in_split in Iz as (a1 & b1 & E1).
  destruct (oa_hist a1 m y _ E1) as [(n & H) NS]. pose proof H as Hl. apply hist_last in Hl as (Hb & _ & G & _ & _ & _ & S).
  destruct (shown_proper _ _ _ _ Hb ltac:(intros z r Iz; apply NS; apply in_or_app; left; exact Iz)) as [Ab _].
  destruct (own_lengths _ _ _ _ S G Ab ltac:(intros r; apply NS; apply in_or_app; right; left; reflexivity) O) as (Wq & L0 & L1 & _).
  assert (Pr : proper p).
  { unfold proper. destruct Ty as [T|(A & T2 & T3)]; [rewrite T; exact (L0 T)|].
    destruct (own_is_shown _ _ _ _ S O A) as (E2 & E3 & _). rewrite <- E2, <- E3, T2. exact T3. }
  destruct (proper_sent p Wq Pr) as (frame & Hs & Lf).
  destruct (oa_reach _ _ _ _ _ _ _ _ OA y (Own s p) frame i I O Hs Lf Ni Ne U) as (c & q & Ic & Cc & Hd & Lc).
  exists c, q. split; [exact Ic|]. split.
  - apply in_split in Ic as (a2 & b2 & E2). apply (oa_accepts a2 i c b2 q E2 Cc).
  - split; [|exact Lc]. apply (handed_from p frame q Wq Hs Hd). exact Pr.
Qed.

(** What a node shows was told by the radio, and has length 0, or is its own. *)
Lemma oa_shown a i b n : tr = a ++ b -> hist (n_env w i) (n_start w i) (calls_at i a) n ->
  dlen (GetSetEffect n) = 0 \/ (ptype (GetSetEffect n) = 2 /\ dlen (GetSetEffect n) = 3).
Proof using All.
  intros E H.
  assert (In_tr : forall z, In z (calls_at i a) -> In (i, z) tr) by (intros z I; apply in_calls_at in I; rewrite E; apply in_or_app; left; exact I).
  revert In_tr. revert H. generalize (calls_at i a) as h. intros h H. pattern h, n. revert h n H. apply (hist_ind2 (n_env w i) (n_start w i)).
  - intros. right. split; reflexivity.
  - intros h ev H IH G O L1 L2 S It. specialize (IH ltac:(intros z I; apply It; apply in_or_app; left; exact I)).
    assert (Ie : In (i, ev) tr) by (apply It; apply in_or_app; right; left; reflexivity).
    destruct (shown_step _ _ S G) as [(E1 & E2 & E3)|[(p & Ac & A & Ep)|[(p & I & E1 & E2 & E3)|(q & C & Eq)]]].
    + rewrite E1, E2. exact IH.
    + rewrite Ep. left. apply (oa_empty i ev p Ie). apply Ac.
    + assert (X : ptype p = 2 /\ dlen p = 3).
      { destruct ev as [t o m' m'' out]; proj. destruct S as [inc out m'' T|q R|v|v]; proj; own_in I. destruct T; own_in I; split; reflexivity. }
      right. rewrite E1, E2. exact X.
    + exfalso. exact (NoSet i ev q Ie C).
Qed.

Lemma oa_genuine a i ev b p : tr = a ++ (i, ev) :: b -> accepted ev p ->
  exists k y q, k <> i /\ In (k, y) a /\ originated y q /\ says p q /\ global w k y <= global w i ev <= global w k y + D.
Proof using All.
  intros E [C _]. destruct (oa_prompt a i ev b p E C) as (k & y & q & Nk & Iy & Oy & Lq & Tp & Sh & Sq & P0 & Ty & Lt).
  exists k, y, q. split; [exact Nk|]. split; [exact Iy|]. split; [exact Oy|]. split; [|exact Lt]. apply Sq.
  destruct Ty as [Ty|Ty]; [exact (P0 Ty)|]. destruct (Sh Ty) as [T1 T2].
  apply in_split in Iy as (a1 & b1 & E1).
  assert (Ey : tr = (a1 ++ [(k, y)]) ++ (b1 ++ (i, ev) :: b)) by (rewrite E, E1, <- !app_assoc; reflexivity).
  destruct (oa_hist a1 k y (b1 ++ (i, ev) :: b) ltac:(rewrite Ey, <- app_assoc; reflexivity)) as [(n & H) _].
  pose proof H as Hl. apply hist_last in Hl as (_ & -> & _).
  destruct (oa_shown (a1 ++ [(k, y)]) k _ (after y) Ey) as [X|[X1 X2]].
  - rewrite calls_at_app, calls_at_one. exact H.
  - exfalso. congruence.
  - unfold proper. rewrite <- T1, <- T2, X1. exact X2.
Qed.
End Air.

Section FromPowerUp.
Variables (w : network) (N m : nat) (tr : run) (stop P D : Z).
Let first i := patience_ends (n_env w i) (n_start w i) - n_off w i.
Hypothesis (OA : on_air w N m tr (first m) stop P D).
Hypothesis (New : forall i, n_past w i = []).
Hypothesis (NoSet : forall i ev q, In (i, ev) tr -> call ev <> OSetEffect q).
Hypothesis (P0 : 0 <= P) (D0 : 0 <= D) (PD : 1000 + P + D <= 5000).
Hypothesis (Nm : (m < N)%nat).
Hypothesis (Margin : forall i, (i < N)%nat -> i <> m -> first m + P + D < first i).

(** If m accepted nothing so far, everybody is in range of m so far. *)
Lemma air_cut pre t : (exists post, tr = pre ++ post) -> t <= stop ->
  (forall i ev, In (i, ev) pre -> global w i ev <= t) ->
  (forall i ev, In (i, ev) tr -> global w i ev < t -> In (i, ev) pre) ->
  (forall y p, In (m, y) pre -> ~ accepted y p) ->
  in_range w N m pre (first m) t P D.
Proof using All.
  intros (post & E) Lt Bef Cut Na. pose proof OA as [R O Bd W Ti _ _ _].
  assert (Sub : forall z, In z pre -> In z tr) by (intros z I; rewrite E; apply in_or_app; auto).
  constructor.
  - rewrite E in R. eapply run_prefix. exact R.
  - intros a i u b j v c Ep. apply (O a i u b j v (c ++ post)). rewrite E, Ep, <- app_assoc. cbn. rewrite <- app_assoc. reflexivity.
  - intros i ev I. split; [apply (Bd i ev); auto|auto].
  - intros i ev I. rewrite New in I. destruct I.
  - intros i Ni. destruct (W i Ni) as [W1 W2]. split; [exact W1|]. intros z I. apply W2.
    rewrite E, calls_at_app. apply in_app_or in I as [I|I]; apply in_or_app; [left; exact I|right]. apply in_or_app; left; exact I.
  - intros x L U. destruct (Ti x L ltac:(lia)) as (y & inc & Iy & Cy & Ly).
    exists y, inc. split; [apply Cut; [exact Iy|lia]|auto].
  - intros y p i I Op Tp Ni Ne U.
    destruct (oa_arrive w N m tr (first m) stop P D OA New NoSet y p i) as (c & q & Ic & Ac & Sq & Lc); auto.
    + destruct Tp as [Tp|Tp]; [left; exact Tp|right; split; [exact Tp|]].
      apply in_split in I as (a & b & Ep).
      assert (Et : tr = a ++ (m, y) :: (b ++ post)) by (rewrite E, Ep, <- app_assoc; reflexivity).
      destruct (oa_hist w N m tr (first m) stop P D OA New NoSet a m y _ Et) as [(n & H) NS].
      pose proof H as Hl. apply hist_last in Hl as (_ & En & _). subst n.
      apply (shown_proper _ _ _ _ H NS). intros z q Iz Ac. apply (Na z q); [|exact Ac].
      rewrite Ep. apply in_app_or in Iz as [Iz|[<-|[]]]; apply in_or_app; [left; apply in_calls_at; exact Iz|right; left; reflexivity].
    + lia.
    + exists c, q. split; [apply Cut; [exact Ic|lia]|auto].
  - intros a i ev b p Ep Ac. apply (oa_genuine w N m tr (first m) stop P D OA New NoSet a i ev (b ++ post) p); auto.
    rewrite E, Ep, <- app_assoc. reflexivity.
Qed.

Lemma air_nothing pre post : tr = pre ++ post -> forall y p, In (m, y) pre -> ~ accepted y p.
Proof using All.
  revert post. induction pre as [|[i ev] pre IH] using rev_ind; intros post E; [intros ? ? []|].
  rewrite <- app_assoc in E. cbn [app] in E. specialize (IH _ E).
  intros y p I. apply in_app_or in I as [I|[I|[]]]; [auto|]. injection I as -> ->. intros Ac.
  destruct (oa_genuine w N m tr (first m) stop P D OA New NoSet pre m y post p E Ac) as (k & z & q & Nk & Iz & Oz & _).
  pose proof OA as [R O Bd W Ti _ _ _].
  assert (Ii : In (m, y) tr) by (rewrite E; apply in_or_app; right; left; reflexivity).
  assert (Sub : forall v, In v pre -> In v tr) by (intros v Iv; rewrite E; apply in_or_app; auto).
  assert (NoS : forall j u r, In (j, u) pre -> call u <> OSetEffect r) by (intros j u r Iu; apply (NoSet j); auto).
  assert (Ef : forall k, ends w k = patience_ends (n_env w k) (n_start w k)) by (intros j; apply ends_new; apply New).
  assert (IR : in_range w N m pre (ends w m - n_off w m) (global w m y) P D).
  { rewrite Ef. apply air_cut.
    - eauto.
    - apply (Bd m y Ii).
    - intros j u Iu. apply in_split in Iu as (a & b & Ep). apply (O a j u b m y post). rewrite E, Ep, <- app_assoc. reflexivity.
    - intros j u Iu Lu. eapply ordered_before; [rewrite <- E; exact O|rewrite <- E; exact Iu|exact Lu].
    - exact IH. }
  assert (Ll : leaderless w N) by (apply new_leaderless; exact New).
  assert (Mg : forall j, (j < N)%nat -> j <> m -> ends w m - n_off w m + P + D < ends w j - n_off w j).
  { intros j Nj Ne. rewrite !Ef. apply (Margin j Nj Ne). }
  assert (IT : in_touch w N m pre (ends w m - n_off w m) (global w m y) P D).
  { apply (us_cut w N m pre (global w m y) P D Ll IR NoS P0 D0 PD Nm Mg pre (global w m y)).
    - exists []. symmetry; apply app_nil_r.
    - lia.
    - intros j u Iu. apply (ir_times _ _ _ _ _ _ _ _ IR j u Iu).
    - intros j u Iu _. exact Iu.
    - exact IH. }
  destruct (others_slave w N m pre (global w m y) P D Ll IT NoS P0 D0 PD Nm Mg k z Iz Nk) as [S1 S2].
  pose proof (Sub _ Iz) as It. apply in_split in Iz as (a & b & Ea). pose proof R as R1. rewrite E, Ea, <- app_assoc in R1. cbn [app] in R1.
  destruct (run_split _ _ _ _ _ R1) as (n & H & _).
  destruct (slave_origin _ _ _ _ q (ex_intro _ _ H) S1 S2 Oz) as (r & Cr & _).
  exact (NoSet k z r It Cr).
Qed.

Lemma air_in_range : in_range w N m tr (first m) stop P D.
Proof using All.
  apply air_cut.
  - exists []. symmetry; apply app_nil_r.
  - lia.
  - intros i ev I. apply (oa_times _ _ _ _ _ _ _ _ OA i ev I).
  - auto.
  - apply (air_nothing tr []). symmetry; apply app_nil_r.
Qed.
End FromPowerUp.

(** C112.  New nodes with real radios, one of which, m, runs out of patience more
    than P + D ms before the others: it becomes and stays the only master, is
    never handed a packet, and all nodes draw its animation, at most D ms late. *)
Theorem C112_power_up_over_the_real_radio w N m tr stop P D :
  let first i := patience_ends (n_env w i) (n_start w i) - n_off w i in
  (forall i, n_past w i = []) ->
  on_air w N m tr (first m) stop P D ->
  (forall i ev q, In (i, ev) tr -> call ev <> OSetEffect q) ->
  0 <= P <= 1000 -> 0 <= D -> 1000 + P + D <= 5000 ->
  (m < N)%nat -> (forall i, (i < N)%nat -> i <> m -> first m + P + D < first i) ->
  (forall y p, In (m, y) tr -> call y <> OTick (Some p)) /\
  forall pre post t x, tr = pre ++ post ->
  first m + P <= x -> x + 2000 + 2 * P + 2 * D < t <= stop ->
  (forall i ev, In (i, ev) pre -> global w i ev <= t) -> (forall i ev, In (i, ev) post -> t < global w i ev) ->
  (forall y, In (m, y) pre -> x < global w m y -> ~ own_change y) ->
  forall i n nm, (i < N)%nat -> i <> m ->
    hist (n_env w i) (n_start w i) (calls_at i pre) n ->
    hist (n_env w m) (n_start w m) (calls_at m pre) nm ->
    GetCurrentState nm = Master /\ GetCurrentState n = Slave /\
    exists L, 0 <= L <= D /\
      forall fl md d o o' T delta buf,
      o = o' \/ (ptype (GetSetEffect nm) = 2 -> ~ per_node (nth 0 (pdata (GetSetEffect nm)) 0 mod 35)) ->
      Show Arduino fl md d o (GetSetEffect n) (fun r => GetNetworkMillis (u32 (T + L + delta r + n_off w i)) n) buf =
      Show Arduino fl md d o' (GetSetEffect nm) (fun r => GetNetworkMillis (u32 (T + delta r + n_off w m)) nm) buf.
Proof.
  intros first New OA NoSet P0 D0 PD Nm Margin.
  pose proof (air_in_range w N m tr stop P D OA New NoSet (proj1 P0) D0 PD Nm Margin) as IR. split.
  - intros y p I C. apply (air_nothing w N m tr stop P D OA New NoSet (proj1 P0) D0 PD Nm Margin tr [] (eq_sym (app_nil_r tr)) y p I).
    apply in_split in I as (a & b & E). apply (oa_accepts w N m tr _ stop P D OA New NoSet a m y b p E C).
  - apply (C106_from_power_up_to_one_animation w N m tr stop P D New IR NoSet P0 D0 PD Nm Margin).
Qed.
Print Assumptions C112_power_up_over_the_real_radio.

(** Finding: what the master itself learnt from the radio it cannot pass on.  A
    master that follows an order, and repeats it every two seconds, does not reach
    anybody with it: later than D ms after it accepted the order nobody accepts an
    order any more, and a node powered up then shows its power-up effect. *)
Section NotTold.
Variables (w : network) (m : nat) (tr : run) (D : Z) (a : run) (y0 : event) (q0 : packet) (b : run).
Hypothesis (R : is_run w tr) (O : ordered w tr) (HF : hears_frames w tr D).
Hypothesis (E : tr = a ++ (m, y0) :: b).
Hypothesis (Ac0 : accepted y0 q0) (Ab0 : about_effects q0).
Hypothesis (NoChg : forall y, In (m, y) b -> ~ own_change y).
Hypothesis (Slaves : forall k y, In (k, y) b -> k <> m -> role_before y = Slave /\ role_after y = Slave).
Hypothesis (NoSet : forall k y q, In (k, y) b -> call y <> OSetEffect q).

Lemma nt_hist k y : In (k, y) tr -> exists h n, hist (n_env w k) (n_start w k) (h ++ [y]) n.
Proof using All.
  intros I. apply in_split in I as (u & v & Et). rewrite Et in R. destruct (run_split _ _ _ _ _ R) as (n & H & _). eauto.
Qed.

Lemma nt_empty k y p : In (k, y) tr -> accepted y p -> dlen p = 0.
Proof using All.
  intros I [C _]. apply in_split in I as (u & v & Et).
  destruct (HF u k y v p Et C) as (k' & y' & t & frame & _ & _ & _ & _ & (p0 & _ & L0 & Hr) & _).
  rewrite (hw_read_dlen _ _ _ _ Hr). exact L0.
Qed.

(** From y0 on the master's packet has no length. *)
Lemma nt_master b1 b2 n : b = b1 ++ b2 ->
  hist (n_env w m) (n_start w m) (n_past w m ++ calls_at m (a ++ (m, y0) :: b1)) n ->
  dlen (GetSetEffect n) = 0 /\ about_effects (GetSetEffect n).
Proof using All.
  revert b2 n. induction b1 as [|[k y] b1 IH] using rev_ind; intros b2 n Eb H.
  - rewrite calls_at_app in H. change ((m, y0) :: []) with ([(m, y0)] ++ []) in H. rewrite calls_at_app, calls_at_one in H. cbn in H. rewrite app_assoc in H.
    assert (I0 : In (m, y0) tr) by (rewrite E; apply in_or_app; right; left; reflexivity).
    assert (Sh : GetSetEffect (after y0) = q0).
    { destruct Ab0 as [T|T]; [apply (C27_set_effect_adopted _ _ _ _ _ (ex_intro _ _ H) Ac0 T)|apply (C27_control_adopted _ _ _ _ _ (ex_intro _ _ H) Ac0 T)]. }
    apply hist_last in H as (_ & -> & _). rewrite Sh. split; [apply (nt_empty m y0 q0 I0 Ac0)|exact Ab0].
  - rewrite <- app_assoc in Eb. cbn [app] in Eb.
    assert (Ib : In (k, y) b) by (rewrite Eb; apply in_or_app; right; left; reflexivity).
    assert (It : In (k, y) tr) by (rewrite E; apply in_or_app; right; right; exact Ib).
    replace (a ++ (m, y0) :: b1 ++ [(k, y)]) with ((a ++ (m, y0) :: b1) ++ [(k, y)]) in H by (rewrite <- app_assoc; reflexivity).
    rewrite calls_at_app in H. destruct (PeanoNat.Nat.eq_dec k m) as [->|Nk].
    + rewrite calls_at_one, app_assoc in H. apply hist_last in H as (H & -> & G & _ & _ & _ & S).
      destruct (IH _ _ Eb H) as [I1 I2].
      destruct (shown_step _ _ S G) as [(E1 & E2 & E3)|[(p & Ac & A & Ep)|[(p & I & _)|(q & C & _)]]].
      * unfold about_effects. rewrite E1, E2. split; assumption.
      * rewrite Ep. split; [apply (nt_empty m y p It Ac)|exact A].
      * exfalso. apply (NoChg y Ib). exists p. exact I.
      * exfalso. exact (NoSet m y q Ib C).
    + rewrite (calls_at_other k m y) in H by auto. rewrite app_nil_r in H. apply (IH _ _ Eb H).
Qed.

Lemma nt_nothing i ev p : In (i, ev) tr -> global w m y0 + D < global w i ev -> call ev = OTick (Some p) -> ~ about_effects p.
Proof using All.
  intros I L C Ab. apply in_split in I as (u & v & Et).
  destruct (HF u i ev v p Et C) as (k & y & t & frame & Nk & Iy & It & Hs & Hd & Lt).
  assert (Iy' : In (k, y) tr) by (rewrite Et; apply in_or_app; left; exact Iy).
  assert (Lost : dlen (rtx_packet t) = 0 -> False).
  { intros Lq. destruct (empty_lost _ Lq) as (f & Hf & Hn). rewrite Hs in Hf. injection Hf as <-.
    destruct Hd as (p0 & _ & _ & Hr). rewrite Hn in Hr. discriminate. }
  assert (Ib : In (k, y) b).
  { rewrite E in Iy'. apply in_app_or in Iy' as [I|[I|I]]; [|injection I as <- <-; lia|exact I].
    apply in_split in I as (c & d & Ea). specialize (O c k y d m y0 b). rewrite E, Ea, <- app_assoc in O. specialize (O eq_refl). lia. }
  destruct (nt_hist k y Iy') as (h & n & H). pose proof H as Hl. apply hist_last in Hl as (_ & _ & G & _ & _ & _ & S).
  destruct t as [q|s q]; cbn [rtx_packet] in *.
  - apply Lost. apply (nt_empty k y q Iy'). apply (forwarded_accepted _ _ _ S It).
  - destruct (PeanoNat.Nat.eq_dec k m) as [->|Nm].
    + pose proof Ib as Ic. apply in_split in Ic as (b1 & b2 & Eb).
      assert (Hb : hist (n_env w m) (n_start w m) ((n_past w m ++ calls_at m (a ++ (m, y0) :: b1)) ++ [y]) (after y)).
      { rewrite E, Eb in R. replace (a ++ (m, y0) :: b1 ++ (m, y) :: b2) with ((a ++ (m, y0) :: b1) ++ (m, y) :: b2) in R by (rewrite <- app_assoc; reflexivity).
        destruct (run_split _ _ _ _ _ R) as (n1 & H1 & _). pose proof H1 as Hl. apply hist_last in Hl as (_ & -> & _). exact H1. }
      pose proof Hb as Hl. apply hist_last in Hl as (Hbef & _).
      destruct (nt_master b1 ((m, y) :: b2) _ Eb Hbef) as [_ Abef].
      destruct (own_lengths _ _ _ _ S G Abef ltac:(intros r; apply (NoSet m y r Ib)) It) as (Wq & L0 & L1 & Ty).
      destruct (handed_from q frame p Wq Hs Hd) as (_ & _ & _ & Tp & _).
      assert (Aq : about_effects q) by (unfold about_effects in *; rewrite <- Tp; exact Ab).
      destruct (own_is_shown _ _ _ _ S It Aq) as (_ & E2 & _). apply Lost. rewrite <- E2.
      apply (nt_master (b1 ++ [(m, y)]) b2 (after y)).
      * rewrite Eb, <- app_assoc. reflexivity.
      * replace (a ++ (m, y0) :: b1 ++ [(m, y)]) with ((a ++ (m, y0) :: b1) ++ [(m, y)]) by (rewrite <- app_assoc; reflexivity).
        rewrite calls_at_app, calls_at_one, app_assoc. exact Hb.
    + destruct (Slaves k y Ib Nm) as [R1 R2].
      destruct (slave_origin _ _ _ _ q (ex_intro _ _ H) R1 R2 (ex_intro _ s It)) as (r & Cr & _). exact (NoSet k y r Ib Cr).
Qed.

Lemma nt_newcomer i n : i <> m -> n_past w i = [] ->
  (forall ev, In (i, ev) tr -> global w m y0 + D < global w i ev) -> 0 <= D ->
  hist (n_env w i) (n_start w i) (calls_at i tr) n -> powerup_order (GetSetEffect n).
Proof using All.
  intros Ni Pi Late D0 H.
  assert (It : forall z, In z (calls_at i tr) -> In (i, z) tr) by (intros z I; apply in_calls_at; exact I).
  revert H It. generalize (calls_at i tr) as h. intros h H. pattern h, n. revert h n H. apply (hist_ind2 (n_env w i) (n_start w i)).
  - intros ty1 ty2 d1 d2 _ _ Wd _. split; [reflexivity|]. destruct Wd as (_ & _ & _ & Ld & _). cbn [pdata] in Ld.
    destruct d2 as [|x0 [|x1 [|x2 l]]]; try (exfalso; cbn in Ld; lia). reflexivity.
  - intros h ev H IH G Ok L1 L2 S It. specialize (IH ltac:(intros z I; apply It; apply in_or_app; left; exact I)).
    assert (Ie : In (i, ev) tr) by (apply It; apply in_or_app; right; left; reflexivity).
    pose proof (Late ev Ie) as Le.
    assert (Ib : In (i, ev) b).
    { pose proof Ie as Iy. rewrite E in Iy. apply in_app_or in Iy as [I|[I|I]]; [|injection I as <- <-; lia|exact I].
      apply in_split in I as (c & d & Ea). specialize (O c i ev d m y0 b). rewrite E, Ea, <- app_assoc in O. specialize (O eq_refl). lia. }
    destruct (shown_step _ _ S G) as [(E1 & E2 & E3)|[(p & [C _] & A & Ep)|[(p & I & _)|(q & C & _)]]].
    + unfold powerup_order, payload in *. rewrite E1, E3. exact IH.
    + exfalso. exact (nt_nothing i ev p Ie Le C A).
    + exfalso. destruct (nt_hist i ev Ie) as (h' & n' & H').
      pose proof (change_by_master _ _ _ _ (ex_intro _ _ H') (ex_intro _ p I)) as X. destruct (Slaves i ev Ib Ni) as [Y _]. congruence.
    + exfalso. exact (NoSet i ev q Ib C).
Qed.
End NotTold.

Theorem C112_newcomer_is_not_told w m tr D a y0 q0 b :
  is_run w tr -> ordered w tr -> hears_frames w tr D -> 0 <= D ->
  tr = a ++ (m, y0) :: b -> accepted y0 q0 -> about_effects q0 ->
  (forall y, In (m, y) b -> ~ own_change y) ->
  (forall k y, In (k, y) b -> k <> m -> role_before y = Slave /\ role_after y = Slave) ->
  (forall k y q, In (k, y) b -> call y <> OSetEffect q) ->
  (forall i ev p, In (i, ev) tr -> global w m y0 + D < global w i ev -> accepted ev p -> ~ about_effects p) /\
  (forall i n, i <> m -> n_past w i = [] -> (forall ev, In (i, ev) tr -> global w m y0 + D < global w i ev) ->
     hist (n_env w i) (n_start w i) (calls_at i tr) n -> powerup_order (GetSetEffect n)).
Proof.
  intros R O HF D0 E Ac Ab NoChg Sl NoSet. split.
  - intros i ev p I L [C _]. eapply nt_nothing; eauto.
  - intros i n Ni Pi Late H. eapply nt_newcomer; eauto.
Qed.
Print Assumptions C112_newcomer_is_not_told.

(** What the driver makes of an originated packet: the same content, length 0. *)
Definition as_heard (p : packet) : packet := mkPacket (pid p) (ptype p) 0 (pdata p).

Ltac was_handed := exists (mkPacket 0 0 0 zero58); split; [apply wf_packetb_ok; reflexivity|]; split; [reflexivity|vm_compute; reflexivity].

Ltac from_call y := eexists y, _, _; split; [discriminate|]; split; [cbn [In]; auto 30|]; split; [left; reflexivity|];
  split; [vm_compute; reflexivity|]; split; [was_handed|vm_compute; split; congruence].

Ltac in_order := intros a i u b j v c E;
    repeat (destruct a as [|? a]; [injection E as <- <- E;
       repeat (destruct b as [|? b]; [injection E as <- <- E; vm_compute; congruence|injection E as _ E]);
       try (destruct b; discriminate E)|injection E as _ E]); destruct a; discriminate E.

(** Non-vacuous: node 0 takes over at 5900, beacons every 1100 ms and repeats its
    effect; node 1, 500 ms ahead, hears all that 50 ms later. *)
Example C112_example : exists w tr n nm,
  let first i := patience_ends (n_env w i) (n_start w i) - n_off w i in
  (forall i, n_past w i = []) /\ first 0%nat = 5005 /\ first 1%nat = 7299 /\
  on_air w 2 0 tr 5005 10300 1000 100 /\
  (forall i ev q, In (i, ev) tr -> call ev <> OSetEffect q) /\
  6005 + 2000 + 2 * 1000 + 2 * 100 < 10300 /\
  (forall y, In (0%nat, y) tr -> 6005 < global w 0 y -> ~ own_change y) /\
  hist (n_env w 1%nat) (n_start w 1%nat) (calls_at 1 tr) n /\
  hist (n_env w 0%nat) (n_start w 0%nat) (calls_at 0 tr) nm /\
  n_off w 1%nat = 500 /\ GetEffectIndex n = 1 /\ GetNetworkMillis 10800 n = 10250 /\ GetNetworkMillis 10300 nm = 10300.
Proof.
  run_as H0 (env0 Arduino) 0 [(100, OTick None); (5900, OTick None);
    (6800, OTick None); (7000, OTick None); (7950, OTick None); (8100, OTick None); (9050, OTick None); (9200, OTick None);
    (10000, OTick None)].
  run_as H1 (env_const Arduino 1999%N) 800 [(6450, OTick (Some (as_heard (heartbeat_pkt 24 5900))));
    (7550, OTick (Some (as_heard (heartbeat_pkt 41 7000)))); (8500, OTick (Some (as_heard (effect_pkt 58 1 0 0))));
    (8650, OTick (Some (as_heard (heartbeat_pkt 75 8100)))); (9750, OTick (Some (as_heard (heartbeat_pkt 92 9200))));
    (10550, OTick (Some (as_heard (effect_pkt 109 1 0 0))))].
  run_as H2 (env0 Arduino) 0 (@nil (Z * op)).
  match type of H0 with hist _ _ [?z; ?a; ?c; ?d; ?f; ?g; ?h; ?i; ?j] ?nm =>
  match type of H1 with hist _ _ [?q; ?r; ?s; ?t; ?u; ?v] ?n =>
    set (Z0 := z) in *; set (A := a) in *; set (C := c) in *; set (D := d) in *; set (F := f) in *; set (G := g) in *;
    set (HH := h) in *; set (II := i) in *; set (JJ := j) in *;
    set (Q := q) in *; set (R := r) in *; set (S := s) in *; set (T := t) in *; set (U := u) in *; set (V := v) in *;
    exists (mkNetwork (fun w0 => match w0 with 1%nat => env_const Arduino 1999%N | _ => env0 Arduino end)
      (fun w0 => match w0 with 1%nat => 800 | _ => 0 end)
      (fun w0 => match w0 with 1%nat => 500 | _ => 0 end) (fun _ => [])),
      [(0%nat, Z0); (0%nat, A); (1%nat, Q); (0%nat, C); (0%nat, D); (1%nat, R); (0%nat, F); (1%nat, S); (0%nat, G);
       (1%nat, T); (0%nat, HH); (0%nat, II); (1%nat, U); (0%nat, JJ); (1%nat, V)], n, nm
  end end.
  cbv zeta.
  split; [reflexivity|]. split; [reflexivity|]. split; [reflexivity|].
  split; [constructor|].
  { intros [|[|i]].
    - split; [eexists; exact H0|]. intros x p I K. repeat (destruct I as [<-|I]; [discriminate K|]). destruct I.
    - split; [eexists; exact H1|]. intros x p I K. repeat (destruct I as [<-|I]; [discriminate K|]). destruct I.
    - split; [eexists; exact H2|]. intros x p []. }
  { in_order. }
  { intros i ev I. repeat (destruct I as [I|I]; [injection I as <- <-; split; [lia|vm_compute; congruence]|]). destruct I. }
  { intros [|[|i]] L; [| |lia]; (split; [reflexivity|]); intros x I; repeat (destruct I as [<-|I]; [reflexivity|]); destruct I. }
  { intros x L L2.
    assert (X : x < 5900 \/ 5900 <= x < 6800 \/ 6800 <= x < 7000 \/ 7000 <= x < 7950 \/ 7950 <= x < 8100 \/ 8100 <= x < 9050 \/ 9050 <= x < 9200 \/ 9200 <= x) by lia.
    destruct X as [X|[X|[X|[X|[X|[X|[X|X]]]]]]]; [exists A|exists C|exists D|exists F|exists G|exists HH|exists II|exists JJ]; exists None; (split; [cbn [In]; auto 30|]);
      (split; [reflexivity|]); unfold global; cbn; lia. }
  { intros y t frame i I It Hs Lf Ni Nm Ut. destruct i as [|[|i]]; [congruence| |lia].
    repeat (destruct I as [I|I]; [first [discriminate I|injection I as <-];
      cbn in It; first [destruct It; fail|destruct It as [<-|[]]]; vm_compute in Hs; injection Hs as <-;
      first [eexists Q, _; split; [cbn [In]; auto 30|]; split; [reflexivity|]; split; [was_handed|vm_compute; split; congruence]
            |eexists R, _; split; [cbn [In]; auto 30|]; split; [reflexivity|]; split; [was_handed|vm_compute; split; congruence]
            |eexists S, _; split; [cbn [In]; auto 30|]; split; [reflexivity|]; split; [was_handed|vm_compute; split; congruence]
            |eexists T, _; split; [cbn [In]; auto 30|]; split; [reflexivity|]; split; [was_handed|vm_compute; split; congruence]
            |eexists U, _; split; [cbn [In]; auto 30|]; split; [reflexivity|]; split; [was_handed|vm_compute; split; congruence]
            |eexists V, _; split; [cbn [In]; auto 30|]; split; [reflexivity|]; split; [was_handed|vm_compute; split; congruence]]|]).
    destruct I. }
  { intros a i ev b p E Ca. exists 0%nat.
    repeat (destruct a as [|? a]; [injection E as <- <- E; first [discriminate Ca|injection Ca as <-];
       first [from_call A|from_call D|from_call F|from_call G|from_call II|from_call JJ]
       |injection E as <- E]). all: destruct a; discriminate E. }
  { intros a i ev b p E Ca.
    repeat (destruct a as [|? a]; [injection E as <- <- E; first [discriminate Ca|injection Ca as <-]; vm_compute; intuition discriminate
       |injection E as <- E]). all: destruct a; discriminate E. }
  split.
  { intros i ev q I C0. repeat (destruct I as [I|I]; [injection I as <- <-; discriminate C0|]). destruct I. }
  split; [lia|].
  split.
  { intros y I L (p & Ip). repeat (destruct I as [I|I]; [first [discriminate I|injection I as <-]; cbn in Ip; intuition discriminate|]). destruct I. }
  split; [exact H1|]. split; [exact H0|]. repeat split.
Qed.

(** Non-vacuous: node 0 is the master and follows the order "effect 9 for 200 s"
    that node 2 gave at 8000; node 1, switched on at 9000, hears it for more than
    two seconds, and shows effect 0. *)
Example C112_newcomer_example : exists w tr a y0 q0 b n nm,
  is_run w tr /\ ordered w tr /\ hears_frames w tr 100 /\
  tr = a ++ (0%nat, y0) :: b /\ accepted y0 q0 /\ about_effects q0 /\ global w 0 y0 = 8020 /\
  (forall y, In (0%nat, y) b -> ~ own_change y) /\
  (forall k y, In (k, y) b -> k <> 0%nat -> role_before y = Slave /\ role_after y = Slave) /\
  (forall k y q, In (k, y) b -> call y <> OSetEffect q) /\
  n_past w 1%nat = [] /\ (forall ev, In (1%nat, ev) tr -> 8020 + 100 < global w 1 ev) /\
  hist (n_env w 1%nat) (n_start w 1%nat) (calls_at 1 tr) n /\
  hist (n_env w 0%nat) (n_start w 0%nat) (calls_at 0 tr) nm /\
  GetEffectIndex nm = 9 /\ GetEffectIndex n = 0 /\ length (calls_at 1 tr) = 3%nat /\ GetNetworkMillis 11500 n = 11450.
Proof.
  run_as H0 (env0 Arduino) 0 [(100, OTick None); (5900, OTick None);
    (6800, OTick None); (7000, OTick None); (7950, OTick None); (8020, OTick (Some (as_heard (effect_pkt 2001 9 200 0))));
    (8100, OTick None); (9200, OTick None); (10000, OTick None); (10300, OTick None); (11400, OTick None); (12100, OTick None)].
  run_as H1 (env_const Arduino 1999%N) 9000 [(9250, OTick (Some (as_heard (heartbeat_pkt 92 9200))));
    (10350, OTick (Some (as_heard (heartbeat_pkt 126 10300)))); (11450, OTick (Some (as_heard (heartbeat_pkt 143 11400))))].
  run_as H2 (env_const Arduino 1999%N) 800 [(6450, OTick (Some (as_heard (heartbeat_pkt 24 5900))));
    (7550, OTick (Some (as_heard (heartbeat_pkt 41 7000)))); (8500, OSetEffect (effect_pkt 0 9 200 0))].
  run_as H3 (env0 Arduino) 0 (@nil (Z * op)).
  match type of H0 with hist _ _ [?z; ?a; ?c; ?d; ?f; ?y; ?g; ?h; ?i; ?j; ?k; ?l] ?nm =>
  match type of H1 with hist _ _ [?q; ?r; ?s] ?n =>
  match type of H2 with hist _ _ [?t; ?u; ?v] _ =>
    set (Z0 := z) in *; set (A := a) in *; set (C := c) in *; set (D := d) in *; set (F := f) in *; set (Y := y) in *; set (G := g) in *;
    set (HH := h) in *; set (II := i) in *; set (JJ := j) in *; set (KK := k) in *; set (LL := l) in *;
    set (Q := q) in *; set (R := r) in *; set (S := s) in *; set (T := t) in *; set (U := u) in *; set (V := v) in *;
    exists (mkNetwork (fun w0 => match w0 with 1%nat | 2%nat => env_const Arduino 1999%N | _ => env0 Arduino end)
      (fun w0 => match w0 with 1%nat => 9000 | 2%nat => 800 | _ => 0 end)
      (fun w0 => match w0 with 2%nat => 500 | _ => 0 end) (fun _ => [])),
      [(0%nat, Z0); (0%nat, A); (2%nat, T); (0%nat, C); (0%nat, D); (2%nat, U); (0%nat, F); (2%nat, V); (0%nat, Y); (0%nat, G);
       (0%nat, HH); (1%nat, Q); (0%nat, II); (0%nat, JJ); (1%nat, R); (0%nat, KK); (1%nat, S); (0%nat, LL)],
      [(0%nat, Z0); (0%nat, A); (2%nat, T); (0%nat, C); (0%nat, D); (2%nat, U); (0%nat, F); (2%nat, V)], Y, (as_heard (effect_pkt 2001 9 200 0)),
      [(0%nat, G); (0%nat, HH); (1%nat, Q); (0%nat, II); (0%nat, JJ); (1%nat, R); (0%nat, KK); (1%nat, S); (0%nat, LL)], n, nm
  end end end.
  split.
  { intros [|[|[|i]]].
    - split; [eexists; exact H0|]. intros x p I K. repeat (destruct I as [<-|I]; [discriminate K|]). destruct I.
    - split; [eexists; exact H1|]. intros x p I K. repeat (destruct I as [<-|I]; [discriminate K|]). destruct I.
    - split; [eexists; exact H2|]. intros x p I K. repeat (destruct I as [<-|I]; [first [discriminate K|injection K as <-; cbn; auto]|]). destruct I.
    - split; [eexists; exact H3|]. intros x p []. }
  split; [in_order|].
  split.
  { intros a i ev b p E Ca.
    repeat (destruct a as [|? a]; [injection E as <- <- E; first [discriminate Ca|injection Ca as <-];
       first [exists 2%nat; from_call V|exists 0%nat; first [from_call A|from_call D|from_call HH|from_call JJ|from_call KK]]
       |injection E as <- E]). all: destruct a; discriminate E. }
  split; [reflexivity|]. split; [split; [reflexivity|left; reflexivity]|]. split; [left; reflexivity|]. split; [reflexivity|].
  split.
  { intros y I (p & Ip). repeat (destruct I as [I|I]; [first [discriminate I|injection I as <-]; cbn in Ip; intuition discriminate|]). destruct I. }
  split.
  { intros k y I Nk. repeat (destruct I as [I|I]; [injection I as <- <-; first [congruence|split; reflexivity]|]). destruct I. }
  split.
  { intros k y q I Ck. repeat (destruct I as [I|I]; [injection I as <- <-; discriminate Ck|]). destruct I. }
  split; [reflexivity|].
  split.
  { intros ev I. repeat (destruct I as [I|I]; [first [discriminate I|injection I as <-; reflexivity]|]). destruct I. }
  split; [exact H1|]. split; [exact H0|]. repeat split.
Qed.
