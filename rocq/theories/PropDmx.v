(** The DMX gateway: C83-C86. *)
From Coq Require Import ZArith Lia List Bool.
From Coq Require Import ZifyBool.
From Verif Require Import CInt CIntFacts Packet SpecPacket PacketFacts NetMgr NetHist SpecNet NetFacts Rsm RsmStep RsmEval RsmHist SpecRsm RsmFacts RsmTime RoleFacts EffectFacts RsmRun TakeFacts PropHold SpecEffect ControllerFacts Dmx SpecDmx.
Import ListNotations.
Open Scope Z_scope.
Ltac Zify.zify_post_hook ::= Z.div_mod_to_equations.

Lemma dmx_run_snoc xs x : forall s,
  dmx_run (xs ++ [x]) s =
  (fst (dmx_loop x (fst (dmx_run xs s))), snd (dmx_run xs s) ++ [snd (dmx_loop x (fst (dmx_run xs s)))]).
Proof.
  induction xs as [|y xs IH]; intros s; cbn [dmx_run app].
  - destruct (dmx_loop x s) eqn:E. cbn [fst snd app]. rewrite E. reflexivity.
  - destruct (dmx_loop y s) as [s1 o]. rewrite IH. destruct (dmx_run xs s1) as [s2 os]. reflexivity.
Qed.

Lemma dmx_run_length xs : forall s, length (snd (dmx_run xs s)) = length xs.
Proof.
  induction xs as [|y xs IH]; intros s; cbn [dmx_run]; [reflexivity|].
  destruct (dmx_loop y s) as [s1 o]. specialize (IH s1). destruct (dmx_run xs s1). cbn in *. congruence.
Qed.

Definition state (xs : list pass) : dmx := fst (dmx_run (inputs xs) dmx_init).
Definition emits (xs : list pass) (x : pass) : option packet := snd (dmx_loop (mkDmxIn (snd x) (u32 (fst x))) (state xs)).

Lemma state_snoc xs x : state (xs ++ [x]) = fst (dmx_loop (mkDmxIn (snd x) (u32 (fst x))) (state xs)).
Proof. unfold state, inputs. rewrite map_app. cbn [map]. rewrite dmx_run_snoc. reflexivity. Qed.

Lemma combine_snoc {A B} (l : list A) (m : list B) a b : length l = length m -> combine (l ++ [a]) (m ++ [b]) = combine l m ++ [(a, b)].
Proof. revert m. induction l as [|y l IH]; destruct m; intros E; try discriminate; [reflexivity|]. cbn. rewrite IH; [reflexivity|]. now injection E. Qed.

Lemma aired_snoc xs x : aired (xs ++ [x]) = aired xs ++ match emits xs x with Some p => [(fst x, p)] | None => [] end.
Proof.
  unfold aired, emits, state, inputs. rewrite !map_app. cbn [map]. rewrite dmx_run_snoc. cbn [fst snd].
  rewrite combine_snoc by (rewrite dmx_run_length, !map_length; reflexivity).
  rewrite flat_map_app. cbn [flat_map snd fst]. rewrite app_nil_r. reflexivity.
Qed.

Lemma last_time_snoc l t p : last_time (l ++ [(t, p)]) = t.
Proof. unfold last_time. rewrite map_app. apply last_last. Qed.

Lemma rgb_neqb_false a b : rgb_neqb a b = false <-> a = b.
Proof.
  unfold rgb_neqb. destruct a as [r g b0], b as [r2 g2 b2]; cbn. rewrite !orb_false_iff, !negb_false_iff, !Z.eqb_eq.
  split; [intros [[-> ->] ->]; reflexivity|intros H; injection H; auto].
Qed.

(** What a gateway packet for colour c looks like. *)
Definition for_colour (c : rgb) (p : packet) : Prop :=
  asks_for_colour Arduino p c /\ asks_for_colour Host p c /\ hold_seconds p = 5 /\ dlen p = 4.

Definition bytes (xs : list pass) : Prop := Forall (fun x => byte_rgb (snd x)) xs.

Lemma u16_step k : u16 (Z.of_nat k mod 65536 + 1) = Z.of_nat (S k) mod 65536.
Proof. unfold u16. rewrite Nat2Z.inj_succ. change (2 ^ 16) with 65536. lia. Qed.

Lemma loop_sends x s : snd (dmx_loop x s) = None <->
  d_colour x = d_last s /\ d_time x <= u32 (d_last_sent s + 1000).
Proof.
  unfold dmx_loop. cbv zeta. change (UPDATE_TIMEOUT_SECONDS * 1000) with 1000.
  destruct (rgb_neqb (d_colour x) (d_last s)) eqn:E.
  - cbn. split; [discriminate|]. intros [Q _]. apply rgb_neqb_false in Q. congruence.
  - apply rgb_neqb_false in E. cbn [orb]. destruct (Z.ltb_spec (u32 (d_last_sent s + 1000)) (d_time x)); cbn; split; try discriminate; auto; intros; lia.
Qed.

Lemma loop_packet t c s : wf_packet (d_packet s) -> byte_rgb c -> 0 <= d_next_id s < 65536 ->
  snd (dmx_loop (mkDmxIn c t) s) <> None ->
  exists p, dmx_loop (mkDmxIn c t) s = (mkDmx p (u16 (d_next_id s + 1)) t c, Some p) /\
    pid p = d_next_id s /\ for_colour c p /\ wf_packet p.
Proof.
  intros W B I N. unfold dmx_loop in *. cbv zeta in *. cbn [d_colour d_time] in *.
  destruct (_ || _) eqn:E in |- *; [|rewrite E in N; now destruct N]. clear N E.
  eexists. split; [reflexivity|]. split; [reflexivity|].
  destruct (write_control_shape 5 c (d_packet s) W ltac:(unfold is_byte; lia) B) as (T & L & P & U & U2 & U3).
  change RESERVATION_SECONDS with 5. set (q := writeControl 5 c (d_packet s)) in *.
  pose proof (writeControl_wf 5 c (d_packet s) W) as Wq. fold q in Wq.
  assert (WF : wf_packet (mkPacket (d_next_id s) (ptype q) (dlen q) (pdata q))).
  { destruct Wq as (_ & Q2 & Q3 & Q4 & Q5). unfold wf_packet. cbn [pid ptype dlen pdata]. auto. }
  split; [|exact WF]. unfold payload in P. destruct (pdata q) as [|x0 [|x1 [|x2 [|x3 l]]]] eqn:PD; cbn in P; try discriminate P.
  injection P as -> -> -> ->. unfold for_colour, asks_for_colour, hold_seconds. cbn [ptype dlen pdata nth]. rewrite T, L in *.
  change (3 =? 2) with false. cbv iota. tauto.
Qed.

(** The invariant: the packet is a value of its type, ids are counted, and the
    remembered time and colour are those of the last packet sent. *)
Lemma dmx_inv xs : bytes xs ->
  wf_packet (d_packet (state xs)) /\
  d_next_id (state xs) = Z.of_nat (length (aired xs)) mod 65536 /\
  d_last_sent (state xs) = u32 (last_time (aired xs)) /\
  d_last (state xs) = last (map snd xs) black /\
  (aired xs = [] -> forall x, In x xs -> snd x = black) /\
  (forall l t p, aired xs = l ++ [(t, p)] -> for_colour (last (map snd xs) black) p).
Proof.
  induction xs as [|x xs IH] using rev_ind; intros B.
  - split; [|split; [reflexivity|split; [reflexivity|split; [reflexivity|split]]]].
    + unfold wf_packet. cbn. repeat split; try lia; try (unfold is_byte; lia).
      repeat (apply Forall_cons; [unfold is_byte; lia|]). apply Forall_nil.
    + intros _ x [].
    + intros l t p E. destruct l; discriminate E.
  - apply Forall_app in B as [B Bx]. inversion Bx as [|? ? Bc _]; subst.
    destruct (IH B) as (W & N & S & L & Z0 & F). rewrite state_snoc, aired_snoc, map_app. cbn [map]. rewrite last_last.
    destruct x as [t c]. cbn [snd fst] in *. unfold emits. cbn [snd fst].
    destruct (snd (dmx_loop (mkDmxIn c (u32 t)) (state xs))) as [p|] eqn:E.
    + destruct (loop_packet (u32 t) c (state xs) W Bc) as (q & D & I & FC & Wq); [lia|congruence|].
      rewrite D in *. cbn [fst snd] in *. injection E as <-. cbn [d_packet d_next_id d_last_sent d_last].
      split; [exact Wq|]. split; [rewrite N, app_length, Nat.add_1_r; apply u16_step|].
      split; [rewrite last_time_snoc; reflexivity|]. split; [reflexivity|]. split; [intros E; destruct (aired xs); discriminate|].
      intros l t' p' EQ. apply app_inj_tail in EQ as [_ EQ]. injection EQ as _ <-. exact FC.
    + assert (SAME : fst (dmx_loop (mkDmxIn c (u32 t)) (state xs)) = state xs).
      { unfold dmx_loop in *. cbv zeta in *. destruct (_ || _); [discriminate E|reflexivity]. }
      rewrite SAME, app_nil_r. apply loop_sends in E as [EC _]. cbn [d_colour] in EC. rewrite L in EC.
      rewrite EC. split; [exact W|]. split; [exact N|]. split; [exact S|]. split; [exact L|]. split; [|exact F].
      intros A y I. apply in_app_or in I as [I|[<-|[]]]; [exact (Z0 A y I)|]. cbn [snd]. clear - A Z0.
      destruct xs as [|x' xs' _] using rev_ind; [reflexivity|]. rewrite map_app. cbn [map]. rewrite last_last.
      apply (Z0 A). apply in_or_app. right. left. reflexivity.
Qed.

(** C83: after every pass the last packet on the air carries the colour the
    console shows, for 5 s; or the console has been black since power-up and
    nothing was sent yet. *)
Theorem C83_console_colour_on_air : forall xs t c, bytes (xs ++ [(t, c)]) ->
  (exists l s p, aired (xs ++ [(t, c)]) = l ++ [(s, p)] /\ for_colour c p) \/
  (aired (xs ++ [(t, c)]) = [] /\ forall x, In x (xs ++ [(t, c)]) -> snd x = black).
Proof.
  intros xs t c B. destruct (dmx_inv _ B) as (_ & _ & _ & _ & Z0 & F). rewrite map_app in F. cbn [map snd] in F. rewrite last_last in F.
  destruct (aired (xs ++ [(t, c)])) as [|y l _] using rev_ind; [right; auto|]. left. destruct y as [s p].
  exists l, s, p. split; [reflexivity|]. apply (F l s p). reflexivity.
Qed.
Print Assumptions C83_console_colour_on_air.

(** A change of colour is sent in the very pass that sees it. *)
Theorem C83_change_sent_at_once : forall xs t0 c0 t c, bytes (xs ++ [(t0, c0); (t, c)]) -> c <> c0 ->
  exists p, aired (xs ++ [(t0, c0); (t, c)]) = aired (xs ++ [(t0, c0)]) ++ [(t, p)] /\ for_colour c p.
Proof.
  intros xs t0 c0 t c B N. change [(t0, c0); (t, c)] with ([(t0, c0)] ++ [(t, c)]) in *. rewrite app_assoc in *.
  pose proof (dmx_inv _ B) as (_ & _ & _ & _ & _ & F). rewrite map_app in F. cbn [map snd] in F. rewrite last_last in F.
  apply Forall_app in B as [B _]. destruct (dmx_inv _ B) as (_ & _ & _ & L & _).
  rewrite map_app in L. cbn [map snd] in L. rewrite last_last in L.
  rewrite aired_snoc in *. destruct (emits (xs ++ [(t0, c0)]) (t, c)) as [p|] eqn:E.
  - exists p. split; [reflexivity|]. apply (F _ _ _ eq_refl).
  - exfalso. apply loop_sends in E as [E _]. cbn [d_colour snd] in E. congruence.
Qed.
Print Assumptions C83_change_sent_at_once.

(** While the clock has not wrapped: a pass with nothing to change sends exactly
    when the last packet is more than a second old.  So the silence between two
    packets is at most one second plus one pass. *)
Theorem C83_keep_alive : forall xs t c, bytes (xs ++ [(t, c)]) -> last (map snd xs) black = c ->
  0 <= last_time (aired xs) <= t -> t < wrap -> last_time (aired xs) + 1000 < wrap ->
  (last_time (aired xs) + 1000 < t -> exists p, aired (xs ++ [(t, c)]) = aired xs ++ [(t, p)] /\ for_colour c p) /\
  (t <= last_time (aired xs) + 1000 -> aired (xs ++ [(t, c)]) = aired xs).
Proof.
  intros xs t c B C L T W. pose proof (dmx_inv _ B) as (_ & _ & _ & _ & _ & F). rewrite map_app in F. cbn [map snd] in F. rewrite last_last in F.
  apply Forall_app in B as [B _]. destruct (dmx_inv _ B) as (_ & _ & S & LC & _). unfold wrap in *.
  assert (U : u32 (d_last_sent (state xs) + 1000) = last_time (aired xs) + 1000).
  { rewrite S. unfold u32. change (2 ^ 32) with 4294967296. lia. }
  assert (U2 : u32 t = t) by (unfold u32; change (2 ^ 32) with 4294967296; lia).
  rewrite aired_snoc in *. unfold emits in *. cbn [fst snd] in *.
  destruct (snd (dmx_loop (mkDmxIn c (u32 t)) (state xs))) as [p|] eqn:E.
  - split; [intros _; exists p; split; [reflexivity|apply (F _ _ _ eq_refl)]|]. intros LE.
    assert (X : snd (dmx_loop (mkDmxIn c (u32 t)) (state xs)) = None); [|congruence].
    apply loop_sends. cbn [d_colour d_time]. split; [congruence|lia].
  - apply loop_sends in E as [_ E]. cbn [d_time] in E. split; [lia|]. intros _. apply app_nil_r.
Qed.
Print Assumptions C83_keep_alive.

(** A console that fades for three passes and then rests. *)
Definition demo : list pass :=
  [(1000, mkRGB 0 0 0); (1050, mkRGB 9 0 0); (1100, mkRGB 10 0 0); (1150, mkRGB 10 0 0); (2100, mkRGB 10 0 0); (2150, mkRGB 10 0 0)].
Example C83_example : bytes demo /\
  map (fun x => (fst x, pid (snd x), nth 1 (pdata (snd x)) 0)) (aired demo) = [(1050, 0, 9); (1100, 1, 10); (2150, 2, 10)].
Proof. split; [|vm_compute; reflexivity]. repeat (apply Forall_cons; [repeat split; cbn; lia|]). apply Forall_nil. Qed.

(** C84 (finding): if a packet happens to go out exactly 1001 ms before the
    32-bit clock wraps, the gateway never sends again until the console changes
    its colour: no keep-alive, for ever. *)
Theorem C84_keep_alives_stop : forall xs k c ys, bytes (xs ++ ys) ->
  0 <= k -> last_time (aired xs) = k * wrap + (wrap - 1001) -> last (map snd xs) black = c ->
  (forall y, In y ys -> snd y = c) -> aired (xs ++ ys) = aired xs.
Proof.
  intros xs k c ys. induction ys as [|y ys IH] using rev_ind; intros B K L C Y; [now rewrite app_nil_r|].
  rewrite app_assoc in *. pose proof B as B0. apply Forall_app in B0 as [B1 _].
  assert (IH' : aired (xs ++ ys) = aired xs) by (apply IH; auto; intros z I; apply Y; apply in_or_app; now left).
  rewrite aired_snoc, IH'. destruct (dmx_inv _ B1) as (_ & _ & S & LC & _). rewrite IH' in S.
  assert (U : u32 (d_last_sent (state (xs ++ ys)) + 1000) = 4294967295).
  { rewrite S, L. unfold wrap, u32. change (2 ^ 32) with 4294967296. lia. }
  assert (LAST : last (map snd (xs ++ ys)) black = c).
  { clear - C Y. destruct ys as [|z zs _] using rev_ind; [now rewrite app_nil_r|].
    rewrite app_assoc, map_app. cbn [map]. rewrite last_last. apply Y. apply in_or_app. left. apply in_or_app. right. now left. }
  assert (N : emits (xs ++ ys) y = None).
  { unfold emits. apply loop_sends. cbn [d_colour d_time]. rewrite U, LC, LAST. split; [apply Y; apply in_or_app; right; now left|].
    pose proof (u32_range (fst y)). lia. }
  rewrite N. apply app_nil_r.
Qed.
Print Assumptions C84_keep_alives_stop.

(** It can happen, with passes 50 ms apart. *)
Example C84_example : exists xs, bytes xs /\ last_time (aired xs) = 0 * wrap + (wrap - 1001) /\
  last (map snd xs) black = mkRGB 1 2 3 /\ aired (xs ++ [(wrap + 60000, mkRGB 1 2 3)]) = aired xs.
Proof.
  exists [(wrap - 1051, mkRGB 1 2 4); (wrap - 1001, mkRGB 1 2 3)]. split; [|vm_compute; auto].
  repeat (apply Forall_cons; [repeat split; cbn; lia|]). apply Forall_nil.
Qed.

(** C84 (finding): in the last second before the clock wraps every pass sends. *)
Theorem C84_last_second_floods : forall xs t c k, bytes (xs ++ [(t, c)]) -> 0 <= k ->
  k * wrap + (wrap - 1000) <= last_time (aired xs) -> last_time (aired xs) <= t -> t < (k + 1) * wrap ->
  exists p, aired (xs ++ [(t, c)]) = aired xs ++ [(t, p)] /\ for_colour c p.
Proof.
  intros xs t c k B K L1 L2 L3. pose proof (dmx_inv _ B) as (_ & _ & _ & _ & _ & F). rewrite map_app in F. cbn [map snd] in F. rewrite last_last in F.
  apply Forall_app in B as [B _]. destruct (dmx_inv _ B) as (_ & _ & S & _). unfold wrap in *.
  rewrite aired_snoc in *. destruct (emits xs (t, c)) as [p|] eqn:E; [exists p; split; [reflexivity|apply (F _ _ _ eq_refl)]|].
  exfalso. unfold emits in E. apply loop_sends in E as [_ E]. cbn [d_time fst] in E. rewrite S in E.
  assert (Q : exists j, last_time (aired xs) = k * 4294967296 + (4294967296 - 1000) + j /\ 0 <= j < 1000)
    by (exists (last_time (aired xs) - (k * 4294967296 + (4294967296 - 1000))); lia).
  destruct Q as (j & Q & J). unfold u32 in E. change (2 ^ 32) with 4294967296 in E. rewrite Q in E.
  assert (M1 : (k * 4294967296 + (4294967296 - 1000) + j) mod 4294967296 = 4294966296 + j)
    by (symmetry; apply (Z.mod_unique_pos _ _ k); lia).
  rewrite M1 in E. assert (M2 : t mod 4294967296 = t - k * 4294967296) by (symmetry; apply (Z.mod_unique_pos _ _ k); lia).
  rewrite M2 in E. assert (M3 : (4294966296 + j + 1000) mod 4294967296 = j) by (symmetry; apply (Z.mod_unique_pos _ _ 1); lia).
  rewrite M3 in E. lia.
Qed.
Print Assumptions C84_last_second_floods.

(** C85: the packets are numbered 0, 1, 2, ..., starting again after 65535. *)
Theorem C85_ids_count_up : forall xs, bytes xs -> map (fun x => pid (snd x)) (aired xs) = counted (length (aired xs)).
Proof.
  induction xs as [|x xs IH] using rev_ind; intros B; [reflexivity|].
  apply Forall_app in B as [B Bx]. inversion Bx as [|? ? Bc _]; subst.
  destruct (dmx_inv _ B) as (W & N & _). rewrite aired_snoc, map_app, app_length, (IH B).
  destruct (emits xs x) as [p|] eqn:E; cbn [map length]; [|now rewrite app_nil_r, Nat.add_0_r].
  unfold emits in E. destruct (loop_packet (u32 (fst x)) (snd x) (state xs) W Bc) as (q & D & I & _); [lia|congruence|].
  rewrite D in E. injection E as <-. cbn [snd]. rewrite I, N.
  unfold counted. rewrite Nat.add_1_r, seq_S, map_app. reflexivity.
Qed.
Print Assumptions C85_ids_count_up.

Lemma last5_In ids x : In x (last5 ids) -> In x (skipn (length ids - 5) ids) \/ (length ids < 5)%nat /\ x = 0.
Proof.
  unfold last5. rewrite skipn_app. intros I. apply in_app_or in I as [I|I].
  - destruct (Nat.lt_ge_cases (length ids) 5) as [LT|GE].
    + right. split; [exact LT|]. assert (J : In x [0;0;0;0;0]).
      { rewrite <- (firstn_skipn (length ids) [0;0;0;0;0]). apply in_or_app. now right. }
      cbn in J. intuition congruence.
    + rewrite skipn_all2 in I by (cbn; lia). destruct I.
  - left. exact I.
Qed.

Lemma hears_counted ps : forall j m sent, nm_inv m sent ->
  (1 <= j)%nat -> ids_of sent = map (fun j => Z.of_nat j mod 65536) (seq 1 (j - 1)) ->
  map pid ps = map (fun j => Z.of_nat j mod 65536) (seq j (length ps)) ->
  hears m ps = Ok ps.
Proof.
  induction ps as [|p ps IH]; intros j m sent I J SQ P; [reflexivity|].
  cbn [hears]. cbn [map length seq] in P. injection P as Pp P.
  destruct (nm_receive_inv m sent (Some p) I) as (r & m' & out & E & I' & [(D & _)|(D & -> & ->)]).
  - exfalso. rewrite Pp, SQ in D. apply last5_In in D. rewrite map_length, seq_length in D. destruct D as [D|[D1 D2]]; [|lia].
    rewrite skipn_map in D. apply in_map_iff in D as (i & Q & D).
    assert (R : (i < j /\ j - 5 <= i)%nat).
    { assert (X : skipn (j - 1 - 5) (seq 1 (j - 1)) = seq (1 + (j - 1 - 5)) (j - 1 - (j - 1 - 5))).
      { replace (j - 1)%nat with ((j - 1 - 5) + (j - 1 - (j - 1 - 5)))%nat at 2 by lia.
        rewrite seq_app, skipn_app, seq_length, skipn_all2 by (rewrite seq_length; lia).
        rewrite Nat.sub_diag. reflexivity. }
      rewrite X in D. apply in_seq in D. lia. }
    lia.
  - rewrite E. cbn [obind]. rewrite (IH (S j) m' (sent ++ [Relay p])); [reflexivity|exact I'|lia| |exact P].
    rewrite ids_of_app, SQ. replace (S j - 1)%nat with (S (j - 1)) by lia. rewrite seq_S, map_app.
    change (ids_of [Relay p]) with [pid p]. cbn [map]. rewrite Pp. replace (1 + (j - 1))%nat with j by lia. reflexivity.
Qed.

(** A node that was just switched on and hears only the gateway accepts all of
    its packets except the very first, whose id is 0 (finding: the cache of recent
    ids starts out full of zeros). *)
Theorem C85_fresh_node_misses_only_the_first : forall xs, bytes xs ->
  hears nm_init (map snd (aired xs)) = Ok (tl (map snd (aired xs))).
Proof.
  intros xs B. pose proof (C85_ids_count_up xs B) as I. destruct (aired xs) as [|x l]; [reflexivity|].
  cbn [map tl hears]. unfold counted in I. cbn [length seq map] in I. injection I as I0 I.
  destruct (nm_receive_inv nm_init [] (Some (snd x)) nm_inv_init) as (r & m' & out & E & I' & [(D & -> & -> & ->)|(D & _)]).
  - rewrite E. cbn [obind]. rewrite (hears_counted (map snd l) 1 nm_init [] nm_inv_init); [reflexivity|lia|reflexivity|].
    rewrite map_map, map_length. exact I.
  - destruct D. rewrite I0. left. reflexivity.
Qed.
Print Assumptions C85_fresh_node_misses_only_the_first.

Example C85_example : exists xs, bytes xs /\ length (aired xs) = 4%nat /\
  exists a b c, hears nm_init (map snd (aired xs)) = Ok [a; b; c] /\ nth 1 (pdata a) 0 = 8.
Proof.
  exists [(0, mkRGB 9 0 0); (50, mkRGB 8 0 0); (100, mkRGB 7 0 0); (1101, mkRGB 7 0 0)]. split.
  { repeat (apply Forall_cons; [repeat split; cbn; lia|]). apply Forall_nil. }
  split; [reflexivity|]. do 3 eexists. split; vm_compute; reflexivity.
Qed.

(** C86: a master that keeps hearing colours or effects in time never changes the
    effect by itself: from the first such packet on, as long as at each moment the
    latest one is at most d seconds old and each asks for at least d seconds. *)
Theorem C86_fed_master_never_changes : forall e t0 h0 h d, history e t0 (h0 ++ h) ->
  all_before (wrap - 255001) t0 (h0 ++ h) -> 0 < d -> fed hold_seconds d h ->
  (forall ev, In ev h -> role_before ev = Master /\ role_after ev = Master /\ forall p, call ev <> OSetEffect p) ->
  forall ev, In ev h -> ~ own_change ev.
Proof.
  intros e t0 h0 h d HH AB D [F1 F2] R.
  assert (G : forall h1 h2, h = h1 ++ h2 -> (forall ev, In ev h1 -> ~ own_change ev) /\
    (forall ev0, In ev0 h1 -> takes ev0 -> exists a y b p, h1 = a ++ y :: b /\ accepted y p /\ (ptype p = 2 \/ ptype p = 3) /\
       at_ ev0 <= at_ y /\ (forall x, In x b -> ~ takes x))).
  { intros h1. induction h1 as [|ev h1 IH] using rev_ind; intros h2 E; [split; [intros ? []|intros ? []]|].
    rewrite <- app_assoc in E. cbn [app] in E. destruct (IH _ E) as [NC LAST].
    assert (H1 : history e t0 ((h0 ++ h1) ++ [ev])).
    { destruct HH as [n HH]. rewrite E in HH. replace (h0 ++ h1 ++ ev :: h2) with (((h0 ++ h1) ++ [ev]) ++ h2) in HH by (rewrite <- !app_assoc; reflexivity).
      apply hist_prefix in HH. exact HH. }
    pose proof H1 as H1'. destruct H1' as [n H1']. apply hist_last in H1' as (HP & _ & G & O & L1 & L2 & S).
    assert (IN : In ev h) by (rewrite E; apply in_or_app; right; now left).
    destruct (takes_dec e ev S) as [TK|NT].
    - split.
      + intros x I. apply in_app_or in I as [I|[<-|[]]]; [exact (NC x I)|exact (takes_no_change e ev S TK)].
      + intros ev0 I _. destruct TK as (p & A & P). exists h1, ev, [], p. split; [reflexivity|]. split; [exact A|]. split; [exact P|].
        split; [|intros ? []]. apply in_app_or in I as [I|[<-|[]]]; [|lia]. apply L2. apply in_or_app. now right.
    - split.
      + intros x I. apply in_app_or in I as [I|[<-|[]]]; [exact (NC x I)|].
        destruct (F2 h1 ev h2 E) as (ev0 & p0 & I0 & A0 & P0 & T0). apply in_app_or in I0 as [I0|[<-|[]]]; [|destruct NT; exists p0; auto].
        destruct (LAST ev0 I0) as (a & y & b & p & EQ & A & P & Y & NB); [exists p0; auto|].
        assert (YIN : In y h) by (rewrite E, EQ; apply in_or_app; left; apply in_or_app; right; now left).
        destruct (R y YIN) as (RY & RY' & _). pose proof (F1 y p YIN A P) as HD.
        assert (HY : history e t0 ((h0 ++ a) ++ [y])).
        { destruct HH as [n' HH]. rewrite E, EQ in HH.
          replace (h0 ++ (a ++ y :: b) ++ ev :: h2) with (((h0 ++ a) ++ [y]) ++ b ++ ev :: h2) in HH by (rewrite <- !app_assoc; reflexivity).
          apply hist_prefix in HH. exact HH. }
        assert (HB : hold_seconds p <= 255).
        { destruct HY as [ny HY]. apply hist_last in HY as (_ & _ & _ & OY & _). destruct A as [CY _]. rewrite CY in OY. cbn in OY.
          destruct OY as (_ & _ & _ & LL & FB). unfold hold_seconds. rewrite Forall_forall in FB.
          destruct (ptype p =? 2); [assert (Q : is_byte (nth 1 (pdata p) 0)) by (apply FB, nth_In; lia)|assert (Q : is_byte (nth 0 (pdata p) 0)) by (apply FB, nth_In; lia)]; unfold is_byte in Q; lia. }
        destruct (C30_hold_time_honoured e t0 (h0 ++ a) y p HY RY A P) as [_ CS]; [lia| |].
        { destruct AB as [_ AB]. specialize (AB y ltac:(apply in_or_app; now right)). unfold wrap in *. lia. }
        destruct (CS b ev) as [CS1 _].
        * destruct H1 as [n1 H1]. exists n1. rewrite EQ in H1. replace (((h0 ++ a) ++ [y]) ++ b ++ [ev]) with ((h0 ++ a ++ y :: b) ++ [ev]) by (rewrite <- !app_assoc; reflexivity). exact H1.
        * destruct AB as [AB0 AB]. unfold wrap in *. split; [lia|]. intros z I. assert (Z1 : at_ z < 4294967296 - 255001); [|lia].
          apply AB. rewrite E, EQ. rewrite !in_app_iff in *. cbn [In] in *. tauto.
        * intros z I. assert (ZI : In z h) by (rewrite E, EQ; rewrite !in_app_iff in *; cbn [In] in *; tauto).
          destruct (R z ZI) as (RZ & RZ' & NZ). split; [exact RZ|]. split; [exact RZ'|]. split; [|exact NZ].
          intros q AQ. assert (NTZ : ~ takes z) by (apply in_app_or in I as [I|[<-|[]]]; [exact (NB z I)|exact NT]).
          split; intros QT; apply NTZ; exists q; auto.
        * intros z I. apply NC. rewrite EQ. apply in_or_app. right. now right.
        * apply CS1. nia.
      + intros ev0 I TK. apply in_app_or in I as [I|[<-|[]]]; [|contradiction].
        destruct (LAST ev0 I TK) as (a & y & b & p & EQ & A & P & Y & NB). exists a, y, (b ++ [ev]), p.
        split; [rewrite EQ, <- app_assoc; reflexivity|]. split; [exact A|]. split; [exact P|]. split; [exact Y|].
        intros x J. apply in_app_or in J as [J|[<-|[]]]; auto. }
  intros ev I. apply (proj1 (G h [] ltac:(now rewrite app_nil_r))). exact I.
Qed.
Print Assumptions C86_fed_master_never_changes.

(** A master fed with 5 s colours at 7010, 11000 and 16000; at 15900 the second
    one still holds. *)
Example C86_example : exists h0 h, history (env0 Arduino) 0 (h0 ++ h) /\ all_before (wrap - 255001) 0 (h0 ++ h) /\
  length h = 5%nat /\ fed hold_seconds 5 h /\
  (forall ev, In ev h -> role_before ev = Master /\ role_after ev = Master /\ forall p, call ev <> OSetEffect p).
Proof.
  run_as H (env0 Arduino) 0 [(7000, OTick None); (7010, OTick (Some (control_pkt 50 5 1 2 3))); (11000, OTick (Some (control_pkt 51 5 1 2 4)));
    (15900, OTick None); (15950, OTick None); (16000, OTick (Some (control_pkt 52 5 1 2 4)))].
  match type of H with hist _ _ [?a; ?b; ?c; ?d; ?f; ?g] _ => exists [a], [b; c; d; f; g] end.
  split; [eexists; exact H|]. split; [split; [reflexivity|]; in_all; reflexivity|]. split; [reflexivity|]. split; [split|].
  - intros ev p I [C _] _. repeat (destruct I as [<-|I]; [try discriminate C; injection C as <-; vm_compute; discriminate|]). destruct I.
  - intros h1 ev h2 E. 
    destruct h1 as [|? h1]; [injection E as <- _; do 2 eexists; (split; [left; reflexivity|]); (split; [split; [reflexivity|left; reflexivity]|]); (split; [right; reflexivity|vm_compute; discriminate])|injection E as <- E].
    destruct h1 as [|? h1]; [injection E as <- _; do 2 eexists; (split; [right; left; reflexivity|]); (split; [split; [reflexivity|left; reflexivity]|]); (split; [right; reflexivity|vm_compute; discriminate])|injection E as <- E].
    destruct h1 as [|? h1]; [injection E as <- _; do 2 eexists; (split; [right; left; reflexivity|]); (split; [split; [reflexivity|left; reflexivity]|]); (split; [right; reflexivity|vm_compute; discriminate])|injection E as <- E].
    destruct h1 as [|? h1]; [injection E as <- _; do 2 eexists; (split; [right; left; reflexivity|]); (split; [split; [reflexivity|left; reflexivity]|]); (split; [right; reflexivity|vm_compute; discriminate])|injection E as <- E].
    destruct h1 as [|? h1]; [injection E as <- _; do 2 eexists; (split; [do 4 right; left; reflexivity|]); (split; [split; [reflexivity|left; reflexivity]|]); (split; [right; reflexivity|vm_compute; discriminate])|injection E as <- E].
    destruct h1; discriminate E.
  - in_all; (split; [reflexivity|split; [reflexivity|discriminate]]).
Qed.
