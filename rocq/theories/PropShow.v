(** C57-C60, C64: what the built-in effects show. *)
From Coq Require Import ZArith Lia List Bool.
From Coq Require Import ZifyBool.
From Verif Require Import CInt CIntFacts Packet SpecPacket PacketFacts NetMgr NetHist SpecNet NetFacts Rsm RsmStep RsmEval RsmHist SpecRsm RsmFacts RsmTime RoleFacts EffectFacts RsmRun PropEffect PropHeartbeat PropNetTime PropMath.
From Verif Require Import Fastled Maths Palette SpecColor PaletteFacts Device LedMgr SpecLed LedFacts RenderFacts PropRender
  Effects SpecEffect RgbFacts Show ShowFacts.
Import ListNotations.
Open Scope Z_scope.
Ltac Zify.zify_post_hook ::= Z.div_mod_to_equations.

(** ** C57: palette numbers are not checked *)

(** Effect numbers of the built-in table whose colours come from the palette on
    every strip: all but fire (4), firefly (5, 6; depends on the strip), pride
    (8), stop light (28), the blinking ones (29-32; depends on the time) and
    dark (34). *)
Definition always_reads_palette (i : Z) : Prop :=
  0 <= i <= 3 \/ i = 7 \/ 9 <= i <= 27 \/ i = 33.

Lemma bad_palette pl fl o p i k n s j t :
  asks_for pl p i k -> number_of_palettes <= k -> wf_strip s -> 0 <= j < led_count s ->
  always_reads_palette n -> GetRGB pl fl (effect_number o n) j t s p = Undef.
Proof.
  intros A K [WC _] J I. pose proof (packet_palette_bad pl p i k A K) as B.
  assert (SW : Swinging_GetRGB pl fl j t s p = Undef).
  { unfold Swinging_GetRGB.
    assert (X : forall j' n, n <> 0 -> (
       led_pos <- udiv (u32 (j' * MAX_UINT16)) n ;;
       let led_pos := u16 led_pos in
       palette <- packet_palette pl p ;;
       swing_loop fl (Z.to_nat (Size palette)) 0 palette (u16 (u32 (t mod kPeriod * MAX_UINT16) / kPeriod)) led_pos (mkRGB 0 0 0)) = Undef).
    { intros j' n' N. unfold udiv. destruct (n' =? 0) eqn:E; [lia|]. cbn [obind]. rewrite B. reflexivity. }
    destruct (FlagEnabled s Tiny && _); [cbn [obind]; apply X; lia|].
    unfold maybe_mirror. destruct (FlagEnabled s Mirrored); [|cbn [obind]; apply X; lia].
    rewrite PropMath.C43_mirror_is_distance_to_nearer_end by lia. cbn [obind]. apply X. lia. }
  assert (R : 0 <= n < 35) by (unfold always_reads_palette in I; lia).
  revert n R I. apply (below35 (fun n => always_reads_palette n -> GetRGB pl fl (effect_number o n) j t s p = Undef)).
  unfold always_reads_palette.
  repeat (apply Forall_cons; [|]); try apply Forall_nil; intros I; try (exfalso; lia); clear I;
  unfold GetRGB, effect_number; cbn [map seq Z.of_nat Z.to_nat Pos.to_nat Pos.iter_op Nat.add nth app].
  all: first
    [ exact SW
    | unfold ColorCycle_GetRGB; rewrite B; reflexivity
    | unfold ContrastBumps_GetRGB; rewrite B; reflexivity
    | unfold Lightning_GetRGB; rewrite B; reflexivity
    | unfold RainbowBumps_GetRGB; rewrite B; reflexivity
    | unfold Rainbow_GetRGB; cbv zeta; rewrite B; reflexivity
    | unfold Rorschach_GetRGB; rewrite B; reflexivity
    | unfold Spark_GetRGB; rewrite B; reflexivity
    | unfold DisplayColorPalette_GetRGB; rewrite B; reflexivity ].
Qed.

Theorem C57_invalid_palette_undefined : forall pl fl o p i k n s j t,
  asks_for pl p i k -> number_of_palettes <= k -> selects pl i n -> always_reads_palette n ->
  wf_strip s -> 0 <= j < led_count s ->
  current_pixel pl fl (built (builtin o)) p s j t = Undef.
Proof.
  intros pl fl o p i k n s j t A K Se I W J. unfold current_pixel.
  destruct (current_selected pl o p i k n A Se) as [-> N]. cbn [obind]. eapply bad_palette; eauto.
Qed.
Print Assumptions C57_invalid_palette_undefined.

(** The others: firefly except on odd LEDs of controller strips, and the
    blinking effects (60, 30, 12 and 300 ms) in their lit third. *)
Definition blink_speed (n : Z) : Z := nth (Z.to_nat (n - 29)) [60; 30; 12; 300] 1.
Theorem C57_invalid_palette_undefined_sometimes : forall pl fl o p i k n s j t,
  asks_for pl p i k -> number_of_palettes <= k -> selects pl i n ->
  wf_strip s -> 0 <= j < led_count s ->
  ((n = 5 \/ n = 6) /\ (FlagEnabled s Controller = false \/ j mod 2 = 0)) \/
  (29 <= n <= 32 /\ t / blink_speed n mod 3 = 0) ->
  current_pixel pl fl (built (builtin o)) p s j t = Undef.
Proof.
  intros pl fl o p i k n s j t A K Se W J Q. unfold current_pixel.
  destruct (current_selected pl o p i k n A Se) as [-> N]. cbn [obind].
  pose proof (packet_palette_bad pl p i k A K) as B.
  assert (FF : FlagEnabled s Controller = false \/ j mod 2 = 0 ->
            Firefly_GetRGB pl fl (firefly_offset o) j t s p = Undef).
  { intros F. unfold Firefly_GetRGB. destruct (FlagEnabled s Controller && (j mod 2 =? 1)) eqn:E.
    { apply andb_prop in E as [E1 E2]. destruct F; [congruence | lia]. }
    destruct (FlagEnabled s Controller); [|cbn [obind]; rewrite B; reflexivity].
    unfold shl32. destruct (32 <=? j); [reflexivity|]. cbn [obind]. rewrite B. reflexivity. }
  assert (BL : forall v, 0 < v -> t / v mod 3 = 0 -> SimpleBlink_GetRGB pl fl v j t s p = Undef).
  { intros v V M. unfold SimpleBlink_GetRGB, udiv. destruct (v =? 0) eqn:E; [lia|]. cbn [obind]. rewrite M.
    change (0 =? 0) with true. cbv iota. rewrite B. reflexivity. }
  destruct Q as [[C F]|[C M]].
  - destruct C as [->| ->]; exact (FF F).
  - assert (D : n = 29 \/ n = 30 \/ n = 31 \/ n = 32) by lia.
    destruct D as [->|[->|[->| ->]]]; (apply BL; [lia | exact M]).
Qed.
Print Assumptions C57_invalid_palette_undefined_sometimes.

(** In all remaining cases a wrong palette number is harmless. *)
Theorem C57_otherwise_harmless : forall pl fl o p i k n s j t, fl_ok fl ->
  asks_for pl p i k -> number_of_palettes <= k -> selects pl i n ->
  wf_strip s -> 0 <= j < led_count s ->
  n = 4 \/ n = 8 \/ n = 28 \/ n = 34 \/
  ((n = 5 \/ n = 6) /\ FlagEnabled s Controller = true /\ j mod 2 = 1) \/
  (29 <= n <= 32 /\ t / blink_speed n mod 3 <> 0) ->
  exists c, current_pixel pl fl (built (builtin o)) p s j t = Ok c /\ wf_rgb c.
Proof.
  intros pl fl o p i k n s j t OK A K Se W J Q. unfold current_pixel.
  destruct (current_selected pl o p i k n A Se) as [-> N]. cbn [obind].
  assert (BL : forall v, 0 < v -> t / v mod 3 <> 0 -> fine (SimpleBlink_GetRGB pl fl v j t s p)).
  { intros v V M. unfold SimpleBlink_GetRGB, udiv. destruct (v =? 0) eqn:E; [lia|]. cbn [obind].
    destruct (t / v mod 3 =? 0) eqn:E3; [lia|]. apply fine_black. }
  destruct Q as [->|[->|[->|[->|[[C [F M]]|[C M]]]]]].
  - exact (fine_Fire fl OK s j t W J _).
  - exact (fine_Pride fl OK s j t W J).
  - exact (fine_StopLight fl OK s j t).
  - exact fine_black.
  - assert (FF : fine (Firefly_GetRGB pl fl (firefly_offset o) j t s p)).
    { unfold Firefly_GetRGB. rewrite F, M. apply fine_black. }
    destruct C as [->| ->]; exact FF.
  - assert (D : n = 29 \/ n = 30 \/ n = 31 \/ n = 32) by lia.
    destruct D as [->|[->|[->| ->]]]; (apply BL; [lia | exact M]).
Qed.
Print Assumptions C57_otherwise_harmless.

(** A device with at least one LED that is not switched off. *)
Definition draws_something (d : device) : Prop :=
  Forall wf_strip (strips d) /\ exists s, In s (strips d) /\ 0 < led_count s /\ FlagEnabled s Off = false.

(** A whole picture: never completed. *)
Theorem C57_picture_undefined : forall pl fl m d o p i k clock buf,
  asks_for pl p i k -> number_of_palettes <= k -> always_reads_palette (i mod 35) -> draws_something d ->
  forall buf', Show pl fl m d o p clock buf <> Ok buf'.
Proof.
  intros pl fl m d o p i k clock buf A K I (W & s & Is & C & NO) buf' E. rewrite Show_eval in E.
  apply in_split in Is as (pre & post & D).
  assert (Ws : wf_strip s).
  { rewrite Forall_forall in W. apply W. rewrite D. apply in_or_app. right. left. reflexivity. }
  pose proof Ws as [WC _].
  destruct (C55_nothing_skipped _ _ _ _ _ _ _ W E pre s post 0 D ltac:(lia) NO) as (c & Hc).
  assert (PX : forall j t c', 0 <= j < led_count s -> current_pixel pl fl (built (builtin o)) p s j t <> Ok c').
  { intros j t c' J X. unfold current_pixel in X. rewrite (current_effect pl o p i k A) in X.
    destruct (asked_bytes pl p i k A) as [[I1 I2] _].
    assert (B : forall n, always_reads_palette n -> GetRGB pl fl (effect_number o n) j t s p = Undef)
      by (intros; eapply bad_palette; eauto).
    destruct pl.
    - destruct (i <? 35) eqn:L; [|discriminate]. cbn [obind] in X. rewrite Z.mod_small in I by lia.
      rewrite B in X by assumption. discriminate.
    - cbn [obind] in X. rewrite B in X by assumption. discriminate. }
  destruct (FlagEnabled s Reversed); (eapply PX; [|exact Hc]; lia).
Qed.
Print Assumptions C57_picture_undefined.

(** Every node adopts such a packet from the radio, and then cannot draw. *)
Theorem C57_accepted_from_the_radio : forall e t0 h ev p i k fl m d o clock buf,
  history e t0 (h ++ [ev]) -> accepted ev p ->
  asks_for (plat e) p i k -> number_of_palettes <= k -> always_reads_palette (i mod 35) -> draws_something d ->
  GetSetEffect (after ev) = p /\
  forall buf', Show (plat e) fl m d o (GetSetEffect (after ev)) clock buf <> Ok buf'.
Proof.
  intros e t0 h ev p i k fl m d o clock buf H Ac A K I D.
  destruct (C27_set_effect_adopted e t0 h ev p H Ac (proj1 (proj2 A))) as [E _]. rewrite E.
  split; [reflexivity|]. eapply C57_picture_undefined; eauto.
Qed.
Print Assumptions C57_accepted_from_the_radio.

Definition one_strip : device := DeviceDescription 500 [StripDescription 10 [Bright]].
Lemma one_strip_draws : draws_something one_strip.
Proof. split; [wf_strips|]. eexists. split; [left; reflexivity|]. split; vm_compute; reflexivity. Qed.
Lemma effect_pkt_asks pl id i d k : 0 <= id < 65536 -> is_byte i -> is_byte k ->
  asks_for pl (effect_pkt id i d k) i k.
Proof.
  intros B I K. unfold is_byte in *.
  assert (E : effect_pkt id i d k = mkPacket id SET_EFFECT 3 (i :: u8 d :: k :: skipn 3 zero58)).
  { unfold effect_pkt, writeSetEffect. rewrite (u8_id i), (u8_id k) by lia. reflexivity. }
  rewrite E. unfold asks_for, wf_packet, is_byte. cbn [pid ptype dlen pdata nth].
  pose proof (u8_range d). unfold is_byte in *.
  repeat match goal with |- _ /\ _ => split end; try reflexivity; unfold SET_EFFECT; try lia.
  repeat (apply Forall_cons; [lia|]). vm_compute skipn.
  repeat (apply Forall_cons; [lia|]). apply Forall_nil.
Qed.
Lemma control_pkt_asks pl id d c : 0 <= id < 65536 -> wf_rgb c ->
  asks_for_colour pl (control_pkt id d (red c) (green c) (blue c)) c.
Proof.
  intros B (R & G & Bl). unfold is_byte in *.
  assert (E : control_pkt id d (red c) (green c) (blue c) =
     mkPacket id SET_CONTROL 4 (u8 d :: red c :: green c :: blue c :: skipn 4 zero58)).
  { unfold control_pkt, writeControl. cbn [red green blue].
    rewrite (u8_id (red c)), (u8_id (green c)), (u8_id (blue c)) by lia. reflexivity. }
  rewrite E. unfold asks_for_colour, wf_packet, is_byte. cbn [pid ptype dlen pdata nth].
  pose proof (u8_range d). unfold is_byte in *.
  repeat match goal with |- _ /\ _ => split end; try reflexivity; unfold SET_CONTROL; try lia.
  repeat (apply Forall_cons; [lia|]). vm_compute skipn.
  repeat (apply Forall_cons; [lia|]). apply Forall_nil.
Qed.

Example C57_example : exists h ev p,
  history (env0 Arduino) 0 (h ++ [ev]) /\ accepted ev p /\
  asks_for Arduino p 13 200 /\ number_of_palettes <= 200 /\ always_reads_palette (13 mod 35) /\ draws_something one_strip.
Proof.
  run_as H (env0 Arduino) 0 [(7, OTick (Some (effect_pkt 50 13 1 200)))].
  match type of H with hist _ _ [?a] _ => exists [], a end.
  exists (effect_pkt 50 13 1 200). split; [eexists; exact H|]. split; [repeat split; left; reflexivity|].
  split; [apply effect_pkt_asks; unfold is_byte; lia|]. split; [unfold number_of_palettes; lia|].
  split; [unfold always_reads_palette; vm_compute; intuition discriminate|]. apply one_strip_draws.
Qed.

(** ** C58: valid requests are always drawn *)

(** The one exception: the firefly effect shifts by the LED's index on
    controller strips. *)
Definition oversized_shift (n : Z) (s : strip) (j : Z) : Prop :=
  (n = 5 \/ n = 6) /\ FlagEnabled s Controller = true /\ j mod 2 = 0 /\ 32 <= j.

Theorem C58_effects_never_trap : forall pl fl o p i k n s j t, fl_ok fl ->
  asks_for pl p i k -> k < number_of_palettes -> selects pl i n ->
  wf_strip s -> 0 <= j < led_count s -> ~ oversized_shift n s j ->
  exists c, current_pixel pl fl (built (builtin o)) p s j t = Ok c /\ wf_rgb c.
Proof.
  intros pl fl o p i k n s j t OK A K Se W J NS. unfold current_pixel. unfold number_of_palettes in K.
  destruct (current_selected pl o p i k n A Se) as [-> N]. cbn [obind].
  change (fine (GetRGB pl fl (effect_number o n) j t s p)). clear Se.
  assert (FF : n = 5 \/ n = 6 -> fine (Firefly_GetRGB pl fl (firefly_offset o) j t s p)).
  { intros Q. eapply fine_Firefly; eauto. destruct (FlagEnabled s Controller) eqn:E; [right|left; reflexivity].
    destruct (Z.eq_dec (j mod 2) 1); [left; assumption|right].
    destruct (Z.lt_ge_cases j 32); [assumption|]. exfalso. apply NS. repeat split; auto. lia. }
  clear NS. revert n N FF.
  apply (below35 (fun n => (n = 5 \/ n = 6 -> fine (Firefly_GetRGB pl fl (firefly_offset o) j t s p)) ->
                           fine (GetRGB pl fl (effect_number o n) j t s p))).
  repeat (apply Forall_cons; [|]); try apply Forall_nil; intros FF;
    unfold GetRGB, effect_number; cbn [map seq Z.of_nat Z.to_nat Pos.to_nat Pos.iter_op Nat.add nth app].
  all: first
    [ eapply fine_ColorCycle; eassumption
    | eapply fine_ContrastBumps; eassumption
    | eapply fine_Fire; eassumption
    | apply FF; lia
    | eapply fine_Lightning; eassumption
    | eapply fine_Pride; eassumption
    | eapply fine_RainbowBumps; eassumption
    | eapply fine_Rainbow; eassumption
    | eapply fine_Rorschach; eassumption
    | eapply fine_Spark; eassumption
    | eapply fine_Swinging; eassumption
    | eapply fine_StopLight; eassumption
    | eapply fine_SimpleBlink; [eassumption..|lia]
    | eapply fine_DisplayColorPalette; eassumption
    | apply fine_black ].
Qed.
Print Assumptions C58_effects_never_trap.

(** The exception is real. *)
Theorem C58_oversized_shift : forall pl fl o p i k n s j t,
  asks_for pl p i k -> selects pl i n -> oversized_shift n s j ->
  current_pixel pl fl (built (builtin o)) p s j t = Undef.
Proof.
  intros pl fl o p i k n s j t A Se (C & F & M & L). unfold current_pixel.
  destruct (current_selected pl o p i k n A Se) as [-> N]. cbn [obind].
  assert (X : Firefly_GetRGB pl fl (firefly_offset o) j t s p = Undef).
  { unfold Firefly_GetRGB. rewrite F, M. cbn [andb]. change (0 =? 1) with false. cbv iota.
    unfold shl32. destruct (32 <=? j) eqn:E; [reflexivity|lia]. }
  destruct C as [->| ->]; exact X.
Qed.
Print Assumptions C58_oversized_shift.

(** So a whole picture is drawn, and every LED shows a colour. *)
Theorem C58_whole_picture : forall pl fl m d o p i k n clock buf, fl_ok fl ->
  asks_for pl p i k -> k < number_of_palettes -> selects pl i n ->
  Forall wf_strip (strips d) -> leds_in (strips d) <= 255 -> Z.of_nat (length buf) = buffer_size m d ->
  (forall s j, In s (strips d) -> 0 <= j < led_count s -> ~ oversized_shift n s j) ->
  exists buf', Show pl fl m d o p clock buf = Ok buf' /\ length buf' = length buf.
Proof.
  intros pl fl m d o p i k n clock buf OK A K Se W L B NS. rewrite Show_eval.
  set (picture := fun s j t => match current_pixel pl fl (built (builtin o)) p s j t with Ok c => c | _ => mkRGB 0 0 0 end).
  destruct (C55_every_led_right pl m d (current_pixel pl fl (built (builtin o)) p) picture clock buf W L B) as (b & E & Lb & _).
  - intros s j t I J. unfold picture. rewrite Forall_forall in W.
    destruct (C58_effects_never_trap pl fl o p i k n s j t OK A K Se (W _ I) J (NS _ _ I J)) as (c & -> & _). reflexivity.
  - eauto.
Qed.
Print Assumptions C58_whole_picture.

Example C58_example :
  asks_for Host (effect_pkt 50 19 1 21) 19 21 /\ 21 < number_of_palettes /\ selects Host 19 19 /\
  Forall wf_strip (strips one_strip) /\ leds_in (strips one_strip) = 10 /\
  (forall s j, In s (strips one_strip) -> 0 <= j < led_count s -> ~ oversized_shift 19 s j) /\
  selects Arduino 54 19.
Proof.
  split; [apply effect_pkt_asks; unfold is_byte; lia|]. split; [reflexivity|].
  split; [split; [reflexivity|lia]|]. split; [wf_strips|]. split; [reflexivity|].
  split; [|split; [reflexivity|discriminate]].
  intros s j _ _ ([X|X] & _); discriminate.
Qed.

(** ** C59: nodes in sync show the same *)

(** Effect numbers whose picture depends on a random offset of the node: fire,
    firefly, rorschach. *)
Definition per_node (n : Z) : Prop := n = 4 \/ n = 5 \/ n = 6 \/ n = 17 \/ n = 18.

(** Two packets that ask for the same: same effect and palette number, or same
    colour; identifiers and hold times may differ. *)
Definition same_request (pl : platform) (p q : packet) : Prop :=
  (exists i k, asks_for pl p i k /\ asks_for pl q i k) \/
  (exists c, asks_for_colour pl p c /\ asks_for_colour pl q c).

Lemma offset_free o o' n : 0 <= n < 35 -> ~ per_node n -> effect_number o n = effect_number o' n.
Proof.
  intros N. revert n N. unfold per_node.
  apply (below35 (fun n => ~ (n = 4 \/ n = 5 \/ n = 6 \/ n = 17 \/ n = 18) -> effect_number o n = effect_number o' n)).
  repeat (apply Forall_cons; [|]); try apply Forall_nil; intros Q; try (exfalso; apply Q; cbn; lia); reflexivity.
Qed.

Lemma pixel_same pl fl o o' p q s j t : same_request pl p q ->
  (o = o' \/ forall i k, asks_for pl p i k -> ~ per_node (i mod 35)) ->
  current_pixel pl fl (built (builtin o)) p s j t = current_pixel pl fl (built (builtin o')) q s j t.
Proof.
  intros R Off. unfold current_pixel. destruct R as [(i & k & A & B)|(c & A & B)].
  - assert (P : packet_palette pl p = packet_palette pl q).
    { unfold packet_palette. rewrite (palette_read pl p i k A), (palette_read pl q i k B). reflexivity. }
    rewrite (current_effect pl o p i k A), (current_effect pl o' q i k B).
    destruct (asked_bytes pl p i k A) as [[I1 I2] _].
    assert (X : effect_number o (i mod 35) = effect_number o' (i mod 35)).
    { destruct Off as [->|Off]; [reflexivity|]. apply offset_free; [lia|]. eapply Off. exact A. }
    assert (NC : forall n, 0 <= n < 35 -> effect_number o' n <> ControlEffect).
    { apply (below35 (fun n => effect_number o' n <> ControlEffect)).
      repeat (apply Forall_cons; [discriminate|]). apply Forall_nil. }
    assert (Y : GetRGB pl fl (effect_number o (i mod 35)) j t s p = GetRGB pl fl (effect_number o' (i mod 35)) j t s q).
    { rewrite X. apply GetRGB_ext_effect; auto. apply NC. lia. }
    destruct pl; cbn [obind]; [|exact Y].
    destruct (i <? 35) eqn:E; [|reflexivity]. cbn [obind]. rewrite Z.mod_small in Y by lia. exact Y.
  - rewrite (current_control pl o p c A), (current_control pl o' q c B). cbn [obind GetRGB]. unfold Control_GetRGB.
    rewrite (colour_read pl p c A), (colour_read pl q c B). reflexivity.
Qed.

(** Two nodes with the same device and equal clocks draw the same picture, when
    they hold equal requests and either drew equal random offsets or the effect
    does not use them. *)
Theorem C59_same_picture : forall pl fl m d o o' p q clock clock' buf,
  same_request pl p q ->
  (forall r, clock r = clock' r) ->
  o = o' \/ (forall i k, asks_for pl p i k -> ~ per_node (i mod 35)) ->
  Show pl fl m d o p clock buf = Show pl fl m d o' q clock' buf.
Proof.
  intros pl fl m d o o' p q clock clock' buf R C Off. rewrite !Show_eval. apply RunEffect_ext.
  intros s j r _. rewrite C. apply pixel_same; assumption.
Qed.
Print Assumptions C59_same_picture.

(** Nodes on the radio: once their network times agree they agree for ever
    (without further packets), hence so do their pictures.  [delta r] is when the
    r-th LED of the picture is computed. *)
Theorem C59_nodes_in_sync : forall pl fl m d o o' n1 n2 t1 t2 delta buf,
  same_request pl (GetSetEffect n1) (GetSetEffect n2) ->
  GetNetworkMillis (u32 t1) n1 = GetNetworkMillis (u32 t2) n2 ->
  o = o' \/ (forall i k, asks_for pl (GetSetEffect n1) i k -> ~ per_node (i mod 35)) ->
  Show pl fl m d o (GetSetEffect n1) (fun r => GetNetworkMillis (u32 (t1 + delta r)) n1) buf =
  Show pl fl m d o' (GetSetEffect n2) (fun r => GetNetworkMillis (u32 (t2 + delta r)) n2) buf.
Proof.
  intros pl fl m d o o' n1 n2 t1 t2 delta buf R T Off. apply C59_same_picture; auto.
  intros r. unfold GetNetworkMillis, u32 in *.
  generalize dependent (millis_offset n1). generalize dependent (millis_offset n2). intros. lia.
Qed.
Print Assumptions C59_nodes_in_sync.

(** With a heartbeat delivered after [L] ms the slave runs exactly [L] ms behind:
    its picture at global time T + L is the master's of time T.  [offm] and
    [offs] are the differences between the nodes' clocks and global time. *)
Theorem C59_slave_follows_master : forall es t0s hs evs er t0r hr evr p q offm offs L fl m d o o' T delta buf,
  history es t0s (hs ++ [evs]) -> api_ok (hs ++ [evs]) ->
  history er t0r (hr ++ [evr]) ->
  originated evs p -> ptype p = 0 ->
  role_before evr = Slave -> accepted evr q -> ptype q = 0 -> pdata q = pdata p ->
  at_ evr - offs = at_ evs - offm + L ->
  plat es = plat er ->
  same_request (plat es) (GetSetEffect (after evs)) (GetSetEffect (after evr)) ->
  o = o' \/ (forall i k, asks_for (plat es) (GetSetEffect (after evs)) i k -> ~ per_node (i mod 35)) ->
  Show (plat es) fl m d o (GetSetEffect (after evs))
    (fun r => GetNetworkMillis (u32 (T + delta r + offm)) (after evs)) buf =
  Show (plat er) fl m d o' (GetSetEffect (after evr))
    (fun r => GetNetworkMillis (u32 (T + L + delta r + offs)) (after evr)) buf.
Proof.
  intros es t0s hs evs er t0r hr evr p q offm offs L fl m d o o' T delta buf Hs As Hr Op P R Ac Q Eq D PL SR Off.
  rewrite <- PL. apply C59_same_picture; auto. intros r.
  pose proof (C26_lag_is_latency es t0s hs evs er t0r hr evr p q offm offs L Hs As Hr Op P R Ac Q Eq D (T + delta r)) as E.
  unfold GetNetworkMillis, u32 in *.
  generalize dependent (millis_offset (after evs)). generalize dependent (millis_offset (after evr)). intros. lia.
Qed.
Print Assumptions C59_slave_follows_master.

Example C59_example :
  same_request Host (effect_pkt 50 13 1 7) (effect_pkt 9 13 200 7) /\
  (forall i k, asks_for Host (effect_pkt 50 13 1 7) i k -> ~ per_node (i mod 35)).
Proof.
  split.
  - left. exists 13, 7. split; apply effect_pkt_asks; unfold is_byte; lia.
  - intros i k (_ & _ & _ & E & _). vm_compute in E. subst i. unfold per_node. vm_compute. intuition discriminate.
Qed.

(** ** C60: fixed colours *)

(** The colour every LED of a strip shows when [c] is asked for. *)
Definition fixed (c : rgb) (s : strip) : rgb :=
  if FlagEnabled s Off then mkRGB 0 0 0
  else if FlagEnabled s Dim then mkRGB (red c / 8) (green c / 8) (blue c / 8)
  else c.

Theorem C60_control_colour_everywhere : forall pl fl m d o p c clock buf,
  asks_for_colour pl p c ->
  Forall wf_strip (strips d) -> leds_in (strips d) <= 255 -> Z.of_nat (length buf) = buffer_size m d ->
  exists buf', Show pl fl m d o p clock buf = Ok buf' /\
    forall pre s post j, strips d = pre ++ s :: post -> 0 <= j < led_count s ->
      aget buf' (device_starts_at m + leds_in pre + j) = Ok (fixed c s).
Proof.
  intros pl fl m d o p c clock buf A W L B. rewrite Show_eval.
  destruct (C55_every_led_right pl m d (current_pixel pl fl (built (builtin o)) p) (fun _ _ _ => c) clock buf W L B)
    as (b & E & _ & X & _).
  - intros s j t _ _. unfold current_pixel. rewrite (current_control pl o p c A). cbn [obind GetRGB].
    unfold Control_GetRGB. apply colour_read. assumption.
  - exists b. split; [assumption|]. intros pre s post j D J. specialize (X pre s post j D J).
    cbv zeta in X. rewrite Z.add_assoc in X. exact X.
Qed.
Print Assumptions C60_control_colour_everywhere.

Theorem C60_dark_everywhere : forall pl fl m d o p i k clock buf,
  asks_for pl p i k -> selects pl i 34 ->
  Forall wf_strip (strips d) -> leds_in (strips d) <= 255 -> Z.of_nat (length buf) = buffer_size m d ->
  exists buf', Show pl fl m d o p clock buf = Ok buf' /\
    forall pre s post j, strips d = pre ++ s :: post -> 0 <= j < led_count s ->
      aget buf' (device_starts_at m + leds_in pre + j) = Ok (mkRGB 0 0 0).
Proof.
  intros pl fl m d o p i k clock buf A Se W L B. rewrite Show_eval.
  destruct (C55_every_led_right pl m d (current_pixel pl fl (built (builtin o)) p) (fun _ _ _ => mkRGB 0 0 0) clock buf W L B)
    as (b & E & _ & X & _).
  - intros s j t _ _. unfold current_pixel. destruct (current_selected pl o p i k 34 A Se) as [-> _]. reflexivity.
  - exists b. split; [assumption|]. intros pre s post j D J. specialize (X pre s post j D J).
    cbv zeta in X. rewrite Z.add_assoc in X. rewrite X. unfold shown. cbn [red green blue].
    change (0 / 8) with 0. destruct (FlagEnabled s Off), (FlagEnabled s Dim); reflexivity.
Qed.
Print Assumptions C60_dark_everywhere.

(** Colour cycle: at any time all LEDs of all strips with the same Bright flag
    have the same colour (Dim and Off apart, which rendering applies on top). *)
Theorem C60_colour_cycle_uniform : forall pl fl o p i k n s s' j j' t,
  asks_for pl p i k -> selects pl i n -> n = 0 \/ n = 1 ->
  FlagEnabled s Bright = FlagEnabled s' Bright ->
  current_pixel pl fl (built (builtin o)) p s j t = current_pixel pl fl (built (builtin o)) p s' j' t.
Proof.
  intros pl fl o p i k n s s' j j' t A Se C F. unfold current_pixel.
  destruct (current_selected pl o p i k n A Se) as [-> _]. cbn [obind].
  assert (X : ColorCycle_GetRGB pl fl j t s p = ColorCycle_GetRGB pl fl j' t s' p)
    by (unfold ColorCycle_GetRGB; rewrite F; reflexivity).
  destruct C as [->| ->]; exact X.
Qed.
Print Assumptions C60_colour_cycle_uniform.

Example C60_example :
  let c := mkRGB 10 200 77 in
  asks_for_colour Arduino (control_pkt 50 1 10 200 77) c /\
  asks_for Arduino (effect_pkt 50 34 1 99) 34 99 /\ selects Arduino 34 34 /\ selects Arduino 35 0 /\
  Forall wf_strip (strips one_strip) /\ leds_in (strips one_strip) = 10.
Proof.
  cbv zeta. split; [apply (control_pkt_asks Arduino 50 1 (mkRGB 10 200 77)); [lia|]; unfold wf_rgb, is_byte; cbn; lia|].
  split; [apply effect_pkt_asks; unfold is_byte; lia|].
  split; [split; [reflexivity|discriminate]|]. split; [split; [reflexivity|discriminate]|].
  split; [wf_strips|reflexivity].
Qed.

(** ** C64: random changes pick ordinary effects only *)

(** [h] configures the numbers the LED manager announces. *)
Definition configured_as_announced (h : list event) : Prop :=
  configured_effects h = announced_effects (built (builtin (mkOffsets 0 0 0))) /\
  configured_palettes h = announced_palettes.

Theorem C64_own_changes_are_ordinary_and_valid : forall e t0 h ev p,
  history e t0 (h ++ [ev]) -> configured_as_announced h -> In (Own ByChange p) (sent ev) ->
  exists i k, asks_for (plat e) p i k /\ 0 <= i <= 26 /\ selects (plat e) i i /\ k < number_of_palettes /\
    forall o, exists eff share, GetCurrentEffect (plat e) (built (builtin o)) p = Ok eff /\
      0 < share /\ In (eff, share) (builtin o).
Proof.
  intros e t0 h ev p H [C1 C2] I.
  change (configured_effects h = 27) in C1. change (configured_palettes h = 22) in C2.
  destruct (C29_own_changes_in_range e t0 h ev p H I ltac:(lia) ltac:(lia)) as (P & L & R1 & _ & R2 & _ & SC & _).
  assert (A : asks_for (plat e) p (nth 0 (pdata p) 0) (nth 2 (pdata p) 0)).
  { split; [|repeat split; auto]. destruct H as [n H]. apply hist_last in H as (H & -> & G & O & L1 & L2 & S).
    destruct ev as [t op m m' out]; proj. pose proof G as [].
    destruct S as [inc out m' T|q R|v|v]; proj; own_in I. destruct T; own_in I.
    unfold pick_packet, pick_id, fresh. repeat gd. }
  exists (nth 0 (pdata p) 0), (nth 2 (pdata p) 0). split; [exact A|]. split; [lia|].
  assert (Se : selects (plat e) (nth 0 (pdata p) 0) (nth 0 (pdata p) 0)) by (split; [rewrite Z.mod_small; lia|lia]).
  split; [exact Se|]. split; [unfold number_of_palettes; lia|]. intros o.
  destruct (current_selected (plat e) o p _ _ _ A Se) as [-> _].
  assert (X : forall n, 0 <= n < 35 -> n < 27 -> exists share, 0 < share /\ In (effect_number o n, share) (builtin o)).
  { apply (below35 (fun n => n < 27 -> exists share, 0 < share /\ In (effect_number o n, share) (builtin o))).
    repeat (apply Forall_cons; [intros Q; try lia; eexists; (split; [|cbn; repeat (first [left; reflexivity | right])]); lia|]).
    apply Forall_nil. }
  destruct (X (nth 0 (pdata p) 0) ltac:(lia) ltac:(lia)) as (sh & S1 & S2). exists (effect_number o (nth 0 (pdata p) 0)), sh. auto.
Qed.
Print Assumptions C64_own_changes_are_ordinary_and_valid.

(** Conversely every ordinary index with every palette is picked for some random
    numbers. *)
Definition two_draws (pl : platform) (i k : Z) : env :=
  mkEnv pl (fun r => if Nat.even r then Z.to_N i else Z.to_N k).
Definition first_change : list (Z * op) :=
  [(1, OSetNumEffects 27); (2, OSetNumPalettes 22); (61000, OTick None); (61003, OTick None)].
Definition changes_to (pl : platform) (i k : Z) (flip : bool) : bool :=
  match execute (if flip then two_draws pl k i else two_draws pl i k) 0 first_change with
  | Some ([a; b; c; ev], _) =>
      (configured_effects [a; b; c] =? 27) && (configured_palettes [a; b; c] =? 22) &&
      match sent ev with
      | [Own ByChange p] =>
          wf_packetb p && (ptype p =? 2) && (dlen p =? 3) && (nth 0 (pdata p) 0 =? i) && (nth 2 (pdata p) 0 =? k)
      | _ => false
      end
  | _ => false
  end.
Lemma all_changes : forallb (fun pl => forallb (fun i => forallb (fun k =>
    changes_to pl i k false || changes_to pl i k true)
    (map Z.of_nat (seq 0 22))) (map Z.of_nat (seq 0 27))) [Host; Arduino] = true.
Proof. vm_compute. reflexivity. Qed.

Theorem C64_every_ordinary_effect_reachable : forall pl i k, 0 <= i <= 26 -> 0 <= k < number_of_palettes ->
  exists e t0 h ev p, plat e = pl /\ history e t0 (h ++ [ev]) /\ configured_as_announced h /\
    In (Own ByChange p) (sent ev) /\ asks_for pl p i k.
Proof.
  intros pl i k I K. unfold number_of_palettes in K. pose proof all_changes as A.
  rewrite forallb_forall in A. specialize (A pl ltac:(destruct pl; cbn; auto)).
  rewrite forallb_forall in A.
  assert (Ii : In i (map Z.of_nat (seq 0 27))) by (apply in_map_iff; exists (Z.to_nat i); split; [lia|apply in_seq; lia]).
  assert (Ik : In k (map Z.of_nat (seq 0 22))) by (apply in_map_iff; exists (Z.to_nat k); split; [lia|apply in_seq; lia]).
  specialize (A i Ii). rewrite forallb_forall in A. specialize (A k Ik).
  assert (X : forall f, changes_to pl i k f = true ->
    exists e t0 h ev p, plat e = pl /\ history e t0 (h ++ [ev]) /\ configured_as_announced h /\
    In (Own ByChange p) (sent ev) /\ asks_for pl p i k).
  { intros f P. unfold changes_to in P. set (e := if f then two_draws pl k i else two_draws pl i k) in P.
    destruct (execute e 0 first_change) as [[h n]|] eqn:E; [|discriminate].
    apply execute_hist in E; [|lia].
    destruct h as [|a [|b [|c [|ev [|]]]]]; try discriminate.
    rewrite !andb_true_iff in P. destruct P as [[P1 P2] P3].
    destruct (sent ev) as [|[q|[] q] [|]] eqn:S; try discriminate.
    rewrite !andb_true_iff in P3. destruct P3 as [[[[W T] D] N0] N2].
    exists e, 0, [a; b; c], ev, q. split; [unfold e; destruct f; reflexivity|].
    split; [exists n; exact E|]. split; [split; [change (configured_effects [a; b; c] = 27)|change (configured_palettes [a; b; c] = 22)]; lia|].
    split; [rewrite S; left; reflexivity|].
    split; [apply wf_packetb_ok; exact W|]. change SET_EFFECT with 2.
    repeat match goal with |- _ /\ _ => split end; lia. }
  apply orb_prop in A as [A|A]; eapply X; exact A.
Qed.
Print Assumptions C64_every_ordinary_effect_reachable.

Example C64_example : exists e t0 h ev p, history e t0 (h ++ [ev]) /\ configured_as_announced h /\
  In (Own ByChange p) (sent ev).
Proof.
  destruct (C64_every_ordinary_effect_reachable Arduino 26 21) as (e & t0 & h & ev & p & _ & H & C & I & _);
    [lia | unfold number_of_palettes; lia|]. eauto 8.
Qed.
