(** C89: the program of a plain node. *)
From Coq Require Import ZArith Lia List Bool.
From Coq Require Import ZifyBool.
From Verif Require Import CInt CIntFacts Packet SpecPacket PacketFacts NetMgr NetFacts Fastled Palette Device LedMgr SpecLed LedFacts RenderFacts PropRender Effects SpecEffect RgbFacts Show ShowFacts Rsm RsmStep RsmEval RsmHist RsmFacts RsmRun EffectFacts PropEffect PropShow PropController Boot PropBoot Node.
Import ListNotations.
Open Scope Z_scope.
Ltac Zify.zify_post_hook ::= Z.div_mod_to_equations.

(** A device that can be drawn: 1 to 255 LEDs, and none of its strips is marked
    as the controller's. *)
Definition drawable (d : device) : Prop :=
  Forall wf_strip (strips d) /\ 1 <= leds_in (strips d) <= 255 /\
  Forall (fun s => FlagEnabled s Controller = false) (strips d).

(** What the radio may deliver: any packet whatsoever, except a set-effect packet
    whose palette number does not exist. *)
Definition harmless (inc : option packet) : Prop :=
  match inc with
  | None => True
  | Some p => wf_packet p /\ (ptype p = SET_EFFECT -> nth 2 (pdata p) 0 < number_of_palettes)
  end.

Definition harmless_pass (w : pass) : Prop := harmless (inc1 w) /\ harmless (inc2 w).

(** ** The effect shown is always one that can be drawn *)

Definition valid_effect (p : packet) : Prop :=
  ptype p = SET_CONTROL \/ (ptype p = SET_EFFECT /\ nth 2 (pdata p) 0 < number_of_palettes).

Record ready (n : node) : Prop := mkReady {
  r_good : RsmStep.good n;
  r_ne : num_effects n = 27;
  r_np : num_palettes n = 22;
  r_se : valid_effect (set_effect_packet n)
}.

Lemma heard_inc n inc p : heard n inc = Some p -> inc = Some p.
Proof. destruct inc as [q|]; [intros H; rewrite (heard_some _ _ _ H); reflexivity | discriminate]. Qed.

Lemma tick_ready e now n inc out n' : 0 <= now < 4294967296 -> ready n -> harmless inc ->
  tick e now n inc out n' -> ready n'.
Proof.
  intros N [G E1 E2 V] I T.
  assert (IO : inc_ok inc) by (destruct inc; [apply I | exact Logic.I]).
  assert (G' : RsmStep.good n') by (eapply tick_good; eauto).
  assert (VP : forall p, heard n inc = Some p -> ptype p = SET_EFFECT \/ ptype p = SET_CONTROL -> valid_effect p).
  { intros p H [Q|Q]; [right|left; exact Q]. split; [exact Q|].
    apply heard_inc in H. subst inc. destruct I as [_ I]. apply I; exact Q. }
  destruct T; constructor; cbn; auto.
  (* own change *)
  right. split; [reflexivity|]. destruct (pick_packet_bytes e n G) as (_ & _ & Y2). rewrite Y2.
  pose proof (picked_range (plat e) (num_palettes n) (draw e (S (rng n))) ltac:(lia)) as B2.
  fold (pick_palette e n) in B2. unfold number_of_palettes. rewrite u8_id; lia.
Qed.

Lemma radio_tick_ready e now inc n : plat e = Arduino -> 0 <= now < 4294967296 -> ready n -> harmless inc ->
  exists n' out, RadioTick e now inc n = Ok (tt, n', out) /\ ready n'.
Proof.
  intros A N R I. pose proof R as [G _ _ _].
  assert (IO : inc_ok inc) by (destruct inc; [apply I | exact Logic.I]).
  destruct (tick_total e now n inc G IO) as [X|[[_ X]|[_ X]]].
  - destruct X as (n' & out & E & T). exists n', out. split; [exact E|]. eapply tick_ready; eauto.
  - destruct X as (p & _ & Hp & _). congruence.
  - destruct X as (_ & _ & _ & _ & X). exfalso. apply X. left; exact A.
Qed.

Lemma tick_run_ready b n : ready n -> ready (with_tick_run b n).
Proof. intros [G E1 E2 V]. constructor; auto. apply with_tick_run_good; exact G. Qed.

Lemma tick_twice_ready e w n : plat e = Arduino -> ready n -> harmless_pass w ->
  exists n' out, Tick e (u32 (now1 w)) (inc1 w) (u32 (now2 w)) (inc2 w) n = Ok (tt, n', out) /\ ready n'.
Proof.
  intros A R [I1 I2]. unfold Tick.
  destruct (radio_tick_ready e _ (inc1 w) n A (u32_range (now1 w)) R I1) as (n1 & o1 & E1 & R1).
  rewrite (mbind_ok _ _ _ _ _ _ E1).
  rewrite (mbind_ok (mget tick_run) _ n1 (tick_run n1) n1 []) by reflexivity.
  destruct (tick_run n1).
  - destruct (radio_tick_ready e _ (inc2 w) n1 A (u32_range (now2 w)) R1 I2) as (n2 & o2 & E2 & R2).
    rewrite (mbind_ok _ _ _ _ _ _ E2). cbn. eexists _, _. split; [reflexivity|]. apply tick_run_ready; exact R2.
  - cbn. eexists _, _. split; [reflexivity|]. apply tick_run_ready; exact R1.
Qed.

(** ** Drawing *)

Lemma valid_effect_drawn fl d o p clock buf : fl_ok fl -> drawable d -> wf_packet p -> valid_effect p ->
  Z.of_nat (length buf) = buffer_size FastLed d ->
  exists buf', Show Arduino fl FastLed d o p clock buf = Ok buf' /\ length buf' = length buf.
Proof.
  intros OK (W & L & NC) WP [C|[P K]] B.
  - assert (A : asks_for_colour Arduino p (mkRGB (nth 1 (pdata p) 0) (nth 2 (pdata p) 0) (nth 3 (pdata p) 0))).
    { split; [exact WP|]. split; [exact C|]. split; [discriminate|]. cbn [red green blue]. auto. }
    rewrite Show_eval.
    destruct (C55_every_led_right Arduino FastLed d (current_pixel Arduino fl (built (builtin o)) p) (fun _ _ _ => mkRGB (nth 1 (pdata p) 0) (nth 2 (pdata p) 0) (nth 3 (pdata p) 0)) clock buf W (proj2 L) B)
      as (b & E & LB & _); [|eauto].
    intros s j t _ _. unfold current_pixel. rewrite (current_control Arduino o p _ A). cbn [obind GetRGB].
    unfold Control_GetRGB. apply colour_read. assumption.
  - apply (C58_whole_picture Arduino fl FastLed d o p (nth 0 (pdata p) 0) (nth 2 (pdata p) 0) (nth 0 (pdata p) 0 mod 35)); auto.
    + split; [exact WP|]. split; [exact P|]. split; [discriminate|]. auto.
    + split; [reflexivity|discriminate].
    + lia.
    + intros s j I J (_ & F & _). rewrite Forall_forall in NC. rewrite (NC s I) in F. discriminate F.
Qed.

Lemma count_is d : drawable d -> GetLedCount d = leds_in (strips d).
Proof.
  intros (W & L & _). pose proof (C56_reported_count d W) as R. rewrite R. apply Z.mod_small. lia.
Qed.

(** ** Start-up *)

Lemma setled_ok d i c buf : drawable d -> 0 <= i < GetLedCount d -> Z.of_nat (length buf) = buffer_size FastLed d ->
  exists b, SetLed Arduino FastLed d i c buf = Ok b /\ length b = length buf.
Proof.
  intros D I B. unfold SetLed, buffer_size in *.
  assert (S : forall b j, length b = length buf -> 0 <= j <= GetLedCount d -> exists b', aset b j c = Ok b' /\ length b' = length b).
  { intros b j L J. exists (list_set b (Z.to_nat j) c). split; [|apply list_set_length].
    unfold aset. destruct (j <? 0) eqn:E; [lia|]. destruct (Nat.ltb_spec (Z.to_nat j) (length b)); [reflexivity|lia]. }
  destruct ((GetLedCount d =? 1) && (i =? 0)) eqn:E.
  - destruct (S buf 0 eq_refl ltac:(lia)) as (b & -> & L). cbn [obind].
    destruct (S b (i + 1) L ltac:(lia)) as (b' & -> & L'). exists b'. split; [reflexivity|lia].
  - cbn [obind]. destruct (S buf (i + 1) eq_refl ltac:(lia)) as (b' & -> & L'). eauto.
Qed.

Lemma clear_len buf : length (clear buf) = length buf.
Proof. apply map_length. Qed.

Lemma sweeps_ok d pause : drawable d -> forall is buf, (forall i, In i is -> 0 <= i < GetLedCount d) ->
  Z.of_nat (length buf) = buffer_size FastLed d ->
  exists b fs, sweeps d pause is buf = Ok (b, fs) /\ length b = length buf.
Proof.
  intros D. assert (C : GetLedCount d <= 255) by (rewrite count_is by exact D; destruct D as (_ & L & _); lia).
  induction is as [|i is IH]; intros buf I B; [exists buf, []; auto|].
  cbn [sweeps]. unfold sweep. pose proof (I i (or_introl eq_refl)).
  destruct (setled_ok d (u8 i) (mkRGB 128 128 128) (clear buf) D) as (b & -> & L); [rewrite u8_id; lia|rewrite clear_len; exact B|].
  rewrite clear_len in L. cbn [obind].
  destruct (IH b ltac:(intros; apply I; now right) ltac:(lia)) as (b' & fs & -> & L'). cbn [obind]. eexists _, _. split; [reflexivity|lia].
Qed.

Lemma hues_ok fl d pause : drawable d -> forall is buf, Z.of_nat (length buf) = buffer_size FastLed d ->
  exists b fs, hues fl d pause is buf = Ok (b, fs) /\ length b = length buf.
Proof.
  intros D. assert (C : 1 <= GetLedCount d <= 255) by (rewrite count_is by exact D; destruct D as (_ & L & _); lia).
  induction is as [|i is IH]; intros buf B; [exists buf, []; auto|].
  cbn [hues].
  destruct (setled_ok d (u8 (GetLedCount d - 1)) (fl_hsv2rgb fl (mkHSV (u8 i) 255 128)) buf D) as (b & -> & L); [rewrite u8_id; lia|exact B|].
  cbn [obind]. destruct (IH b ltac:(lia)) as (b' & fs & -> & L'). cbn [obind]. eexists _, _. split; [reflexivity|lia].
Qed.

Lemma startup_ok fl d : drawable d ->
  exists b fs, PlayStartupAnimation fl d (new_leds d) = Ok (b, fs) /\ Z.of_nat (length b) = buffer_size FastLed d.
Proof.
  intros D. assert (C : 1 <= GetLedCount d <= 255) by (rewrite count_is by exact D; destruct D as (_ & L & _); lia).
  assert (B0 : Z.of_nat (length (new_leds d)) = buffer_size FastLed d).
  { unfold new_leds. rewrite repeat_length. unfold buffer_size. lia. }
  assert (U : forall i, In i (upto (GetLedCount d)) -> 0 <= i < GetLedCount d).
  { unfold upto. intros i I. apply in_map_iff in I as (q & <- & I). apply in_seq in I. lia. }
  unfold PlayStartupAnimation. rewrite (u16_id (GetLedCount d)) by lia. unfold udiv. destruct (GetLedCount d =? 0) eqn:E; [lia|]. cbn [obind].
  destruct (sweeps_ok d (Z.max (u16 (500 / GetLedCount d)) (u16 (GetLedCount d / 30 + 1))) D _ _ U B0) as (b1 & f1 & -> & L1). cbn [obind].
  destruct (hues_ok fl d (u16 (GetLedCount d / 30 + 1)) D (upto 256) (clear b1)) as (b2 & f2 & -> & L2); [rewrite clear_len; lia|]. rewrite clear_len in L2. cbn [obind].
  destruct (sweeps_ok d (Z.max (u16 (500 / GetLedCount d)) (u16 (GetLedCount d / 30 + 1))) D (rev (upto (GetLedCount d))) b2) as (b3 & f3 & -> & L3);
    [intros i I; apply U, in_rev, I|lia|]. cbn [obind].
  eexists _, _. split; [reflexivity|]. rewrite clear_len. lia.
Qed.

(** ** The theorems *)

Lemma setup_ok e fl d o t0 n : plat e = Arduino -> drawable d -> hist e t0 [] n ->
  exists n' buf, setup e fl d o n = Ok (built (builtin o), n', buf) /\ ready n' /\
    (state n' = Slave /\ nm n' = nm_init /\ tick_run n' = false) /\
    Z.of_nat (length buf) = buffer_size FastLed d.
Proof.
  intros A D H. unfold setup. rewrite LedManager_eval. cbn [obind].
  destruct (startup_ok fl d D) as (b & fs & E & L). cbn. rewrite E. cbn [obind].
  eexists _, b. split; [reflexivity|]. split; [|split; [|exact L]].
  2:{ inversion H as [ty1 ty2 d1 d2 n0 T0 W1 W2 C|]; [|destruct h; discriminate].
      rewrite construct_eq in C. inversion C; subst. auto. }
  pose proof (hist_good _ _ _ _ H) as [].
  assert (V : valid_effect (set_effect_packet n)).
  { inversion H as [ty1 ty2 d1 d2 n0 T0 W1 W2 C|]; [|destruct h; discriminate].
    rewrite construct_eq in C. inversion C; subst. cbn [set_effect_packet]. right. split; [reflexivity|].
    destruct W2 as (_ & _ & _ & L2 & _). cbn in L2.
    destruct d2 as [|? [|? [|? d2]]]; cbn in L2; try discriminate L2. reflexivity. }
  constructor; try exact V; try reflexivity. constructor; cbn; auto; vm_compute; split; congruence.
Qed.

Lemma pass_ok e fl d o w n buf : plat e = Arduino -> fl_ok fl -> drawable d -> ready n -> harmless_pass w ->
  Z.of_nat (length buf) = buffer_size FastLed d ->
  exists n' buf' out, loop_pass e fl d (built (builtin o)) w n buf = Ok (n', buf', out) /\ ready n' /\
    length buf' = length buf /\
    Show Arduino fl FastLed d o (GetSetEffect n') (fun k => GetNetworkMillis (u32 (drawn_at w k)) n') buf = Ok buf'.
Proof.
  intros A OK D R H B. unfold loop_pass.
  destruct (tick_twice_ready e w n A R H) as (n' & out & -> & R'). cbn [obind]. pose proof R' as [G _ _ V].
  destruct (valid_effect_drawn fl d o (GetSetEffect n') (fun k => GetNetworkMillis (u32 (drawn_at w k)) n') buf OK D (g_se _ G) V B) as (b & E & L).
  rewrite A. rewrite Show_eval in E. rewrite E. cbn [obind]. eexists _, _, _. split; [reflexivity|].
  split; [exact R'|]. split; [exact L|]. rewrite Show_eval. exact E.
Qed.

Lemma passes_ok e fl d o : plat e = Arduino -> fl_ok fl -> drawable d -> forall ws n buf, ready n -> Forall harmless_pass ws ->
  Z.of_nat (length buf) = buffer_size FastLed d ->
  exists n' buf' outs, loop_passes e fl d (built (builtin o)) ws n buf = Ok (n', buf', outs) /\ ready n' /\
    length buf' = length buf /\ length outs = length ws.
Proof.
  intros A OK D. induction ws as [|w ws IH]; intros n buf R F B; [exists n, buf, []; auto|].
  inversion F as [|? ? F1 F2]; subst. cbn [loop_passes].
  destruct (pass_ok e fl d o w n buf A OK D R F1 B) as (n1 & b1 & o1 & -> & R1 & L1 & _). cbn [obind].
  destruct (IH n1 b1 R1 F2 ltac:(lia)) as (n2 & b2 & o2 & -> & R2 & L2 & L3). cbn [obind].
  eexists _, _, _. split; [reflexivity|]. split; [exact R2|]. cbn [length]. lia.
Qed.

Lemma passes_app e fl d t ws : forall ws2 n buf,
  loop_passes e fl d t (ws ++ ws2) n buf =
  (' (n, buf, u) <- loop_passes e fl d t ws n buf ;; ' (n, buf, v) <- loop_passes e fl d t ws2 n buf ;; Ok (n, buf, u ++ v)).
Proof.
  induction ws as [|w ws IH]; intros ws2 n buf; cbn [app loop_passes].
  - cbn [obind]. destruct (loop_passes e fl d t ws2 n buf) as [[[? ?] ?]| |]; reflexivity.
  - destruct (loop_pass e fl d t w n buf) as [[[n1 b1] u1]| |]; cbn [obind]; try reflexivity. rewrite IH.
    destruct (loop_passes e fl d t ws n1 b1) as [[[n2 b2] u2]| |]; cbn [obind]; try reflexivity.
    destruct (loop_passes e fl d t ws2 n2 b2) as [[[n3 b3] u3]| |]; cbn [obind]; reflexivity.
Qed.

(** However many passes the program makes, and whatever the radio delivers
    (packets of any type, length and content, apart from palettes that do not
    exist), it never traps; and after every pass the LEDs are the complete picture
    of the current effect, drawn with the network time of each LED's moment. *)
Theorem C89_node_keeps_showing : forall e fl d o t0 n ws w,
  plat e = Arduino -> fl_ok fl -> drawable d -> hist e t0 [] n ->
  Forall harmless_pass (ws ++ [w]) ->
  exists n' old leds outs,
    program e fl d o (ws ++ [w]) n = Ok (n', leds, outs) /\ length outs = length (ws ++ [w]) /\
    Z.of_nat (length leds) = leds_in (strips d) + 1 /\
    Show Arduino fl FastLed d o (GetSetEffect n')
         (fun k => GetNetworkMillis (u32 (drawn_at w k)) n') old = Ok leds.
Proof.
  intros e fl d o t0 n ws w A OK D H F. unfold program.
  destruct (setup_ok e fl d o t0 n A D H) as (n1 & b1 & -> & R1 & _ & L1). cbn [obind].
  apply Forall_app in F as [F1 F2]. inversion F2 as [|? ? F3 _]; subst.
  rewrite passes_app. destruct (passes_ok e fl d o A OK D ws n1 b1 R1 F1 L1) as (n2 & b2 & o2 & -> & R2 & L2 & L3). cbn [obind].
  cbn [loop_passes]. destruct (pass_ok e fl d o w n2 b2 A OK D R2 F3 ltac:(lia)) as (n3 & b3 & o3 & -> & R3 & L4 & S). cbn [obind].
  exists n3, b2, b3, (o2 ++ [o3]). split; [reflexivity|]. split; [rewrite !app_length; cbn [length]; lia|].
  split; [|exact S]. unfold buffer_size in L1. rewrite count_is in L1 by exact D. lia.
Qed.
Print Assumptions C89_node_keeps_showing.

(** Every device in the header is drawable. *)
Theorem C89_header_devices_are_drawable : Forall drawable Devices.
Proof.
  repeat constructor; try (vm_compute; congruence).
Qed.
Print Assumptions C89_header_devices_are_drawable.

(** The exception is needed.  A single set-effect packet with a palette that does
    not exist, received by a freshly started node, ends the program: the pass that
    receives it never completes. *)
Theorem C89_one_packet_stops_a_node : forall e fl d o t0 n w p i k,
  plat e = Arduino -> drawable d -> draws_something d -> hist e t0 [] n ->
  inc1 w = Some p -> pid p <> 0 ->
  asks_for Arduino p i k -> number_of_palettes <= k -> always_reads_palette (i mod 35) ->
  forall r, program e fl d o [w] n <> Ok r.
Proof.
  intros e fl d o t0 n w p i k A D DS H I1 Id AF K AR r. unfold program.
  destruct (setup_ok e fl d o t0 n A D H) as (n1 & b1 & -> & [G _ _ _] & (Sl & Nm & Tr) & L1). cbn [obind loop_passes].
  unfold loop_pass. rewrite I1.
  assert (IO : inc_ok (Some p)) by apply AF.
  assert (Hd : heard n1 (Some p) = Some p).
  { unfold heard. rewrite Nm. change (nm_cache nm_init) with [0; 0; 0; 0; 0]. cbn [existsb].
    destruct (Z.eqb_spec 0 (pid p)); [lia|reflexivity]. }
  assert (TK : exists n2 out, Tick e (u32 (now1 w)) (Some p) (u32 (now2 w)) (inc2 w) n1 = Ok (tt, n2, out) /\ set_effect_packet n2 = p).
  { unfold Tick. destruct (tick_total e (u32 (now1 w)) n1 (Some p) G IO) as [X|[[_ X]|[_ X]]].
    - destruct X as (n2 & out & E & T). rewrite (mbind_ok _ _ _ _ _ _ E).
      assert (P : ptype p = SET_EFFECT) by apply AF.
      assert (Q : tick_run n2 = false /\ set_effect_packet n2 = p).
      { clear - T Hd Sl P Tr. inversion T; subst; try congruence;
        match goal with Y : heard n1 (Some p) = Some _ |- _ => rewrite Hd in Y; injection Y as <- end;
        unfold SET_EFFECT, HEARTBEAT, CLAIM_MASTER, SET_CONTROL in *; try lia; try congruence. cbn. auto. }
      destruct Q as [Q1 Q2]. rewrite (mbind_ok (mget tick_run) _ n2 (tick_run n2) n2 []) by reflexivity. rewrite Q1. cbn.
      eexists _, _. split; [reflexivity|]. exact Q2.
    - destruct X as (q & _ & Hp & _). congruence.
    - destruct X as (_ & _ & _ & _ & X). exfalso. apply X. left; exact A. }
  destruct TK as (n2 & out & -> & SE). cbn [obind]. rewrite A. unfold GetSetEffect. rewrite SE.
  rewrite <- Show_eval.
  pose proof (C57_picture_undefined Arduino fl FastLed d o p i k
    (fun k0 => GetNetworkMillis (u32 (drawn_at w k0)) n2) b1 AF K AR DS) as U.
  set (x := Show _ _ _ _ _ _ _ _) in *. clearbody x.
  destruct x as [b| |]; [destruct (U b eq_refl)|intro Y; discriminate Y|intro Y; discriminate Y].
Qed.
Print Assumptions C89_one_packet_stops_a_node.

Definition quiet_pass (t : Z) (inc : option packet) : pass := mkPass t inc t None (fun _ => t).

Lemma scarf_draws : drawable scarf /\ draws_something scarf.
Proof.
  split; [exact (proj1 (Forall_forall _ _) C89_header_devices_are_drawable scarf ltac:(cbn; auto))|].
  split; [repeat constructor; vm_compute; congruence|].
  eexists. split; [left; reflexivity|]. split; vm_compute; reflexivity.
Qed.

(** A scarf that hears effect 14 with palette 3, then a colour, then takes over:
    all hypotheses met. *)
Example C89_example : exists n, hist (env0 Arduino) 0 [] n /\ drawable scarf /\
  Forall harmless_pass [quiet_pass 10 (Some (effect_pkt 7 14 5 3)); quiet_pass 20 (Some (control_pkt 8 5 255 0 9)); quiet_pass 9000 None].
Proof.
  exists (start (env0 Arduino) 0). split; [|split; [apply scarf_draws|]].
  - apply (execute_hist (env0 Arduino) 0 []); [lia|reflexivity].
  - repeat constructor; cbn [inc1 inc2 quiet_pass harmless]; try exact Logic.I;
      try (apply wf_packetb_ok; vm_compute; reflexivity); vm_compute; congruence.
Qed.

(** Effect 14 with palette 22. *)
Example C89_stop_example : exists n, hist (env0 Arduino) 0 [] n /\ draws_something scarf /\
  pid (effect_pkt 7 14 5 22) <> 0 /\ asks_for Arduino (effect_pkt 7 14 5 22) 14 22 /\ always_reads_palette (14 mod 35).
Proof.
  exists (start (env0 Arduino) 0). split; [apply (execute_hist (env0 Arduino) 0 []); [lia|reflexivity]|].
  split; [apply scarf_draws|]. split; [vm_compute; congruence|].
  split; [apply effect_pkt_asks; unfold is_byte; lia|]. unfold always_reads_palette. vm_compute. intuition congruence.
Qed.
