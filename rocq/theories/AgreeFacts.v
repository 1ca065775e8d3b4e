(** Proof support for C121: how the effect of the master gets to everybody in
    the simulated network. *)
From Coq Require Import ZArith NArith Lia List Bool.
From Coq Require Import ZifyBool.
From Verif Require Import CInt CIntFacts Packet SpecPacket PacketFacts NetMgr NetHist SpecNet NetFacts Rsm RsmStep RsmEval RsmHist SpecRsm RsmFacts RoleFacts.
From Verif Require Import Fastled Palette Device LedMgr Effects Show Bench FakeNet FakeNetFacts SimFacts.
Import ListNotations.
Open Scope Z_scope.
Ltac Zify.zify_post_hook ::= Z.div_mod_to_equations.

(** What a node shows: effect, hold time and palette of its packet. *)
Definition shown (n : node) : list Z := payload 3 (set_effect_packet n).

(** ** A slave *)
Lemma slave_takes_effect e t n D p n' evs : plat e = Host -> nodeok n -> state n = Slave -> knows (nm n) D -> sound p ->
  0 <= t < 4294967296 - 70000 -> ~ In (pid p) (last5 D) -> (ptype p = 0 \/ (ptype p = 2 /\ t <= t_hb n)) ->
  machine e t true (Some p) n = Ok (n', evs) ->
  (ptype p = 0 -> shown n' = shown n /\ effect_index n' = effect_index n) /\
  (ptype p = 2 -> shown n' = payload 3 p /\ effect_index n' = i8 (byte_at (pdata p) 0)).
Proof.
  intros Pl Nk St Kn So Ht New Ty Em. unfold machine in Em. rewrite u32_id in Em by lia.
  assert (I : inc_sound (Some p)) by (intros q [= <-]; exact So).
  destruct (nodeok_runs e t n (Some p) Pl Nk I ltac:(lia)) as (n1 & o1 & E1 & T1). rewrite E1 in Em.
  pose proof (knows_new n D p Kn New) as Hd.
  assert (R : state n1 = Slave /\ knows (nm n1) (D ++ [pid p]) /\ t <= t_hb n1 /\
     (ptype p = 0 -> shown n1 = shown n /\ effect_index n1 = effect_index n) /\
     (ptype p = 2 -> shown n1 = payload 3 p /\ effect_index n1 = i8 (byte_at (pdata p) 0))).
  { unfold HEARTBEAT, CLAIM_MASTER, SET_EFFECT, SET_CONTROL in *.
    inversion T1; subst; try congruence;
      match goal with H : heard n (Some p) = Some ?q |- _ => rewrite Hd in H; injection H as <- end;
      unfold HEARTBEAT, CLAIM_MASTER, SET_EFFECT, SET_CONTROL in *; try lia;
      (split; [exact St|]); (split; [apply knows_push; exact Kn|]); cbn; (split; [|split; intros; try lia; split; reflexivity]).
    - pose proof (silence_range e n). rewrite u32_id by lia. lia.
    - lia. }
  destruct R as (S1 & K1 & B1 & R).
  destruct (tick_nodeok e t n (Some p) _ _ Nk I ltac:(lia) T1) as [Nk1 _].
  destruct (nodeok_runs e t n1 (Some p) Pl Nk1 I ltac:(lia)) as (n2 & o2 & E2 & T2'). rewrite E2 in Em. injection Em as <- _.
  assert (Hd1 : heard n1 (Some p) = None) by (apply (knows_heard n1 _ p K1), last5_incl_snoc).
  pose proof (g_hb _ (proj1 Nk1)).
  destruct (not_due_slave e t n1 (Some p) S1 ltac:(lia) B1 Hd1 _ _ T2') as [-> ->]. exact R.
Qed.

(** ** The master *)
Inductive kind := KH | KB | KC.
Inductive way := Synced | Slot | Flying | Lost.

(** The timers after a packet of kind [k] was sent at time [y] or later; [c] is
    the time of the last change. *)
Definition sent_by (k : kind) (y : Z) (n : node) (c : Z) : Prop :=
  match k with
  | KH => y + 1000 <= t_hb n
  | KB => y + 2000 <= t_bc n
  | KC => y <= c /\ y + 60000 <= t_ce n
  end.

(** When the rebroadcast is due: before the first radio tick of a round, between
    the two, and after the second. *)
Definition in_time (ph : nat) (t : Z) (n : node) : Prop :=
  match ph with
  | O => t <= t_bc n + 1
  | S O => t <= t_bc n \/ t = t_bc n + 1 /\ t <= t_hb n
  | _ => t <= t_bc n
  end.

(** During a round: [y] is the last round that put a packet of the master on
    the air, of kind [yk]; the packet in the slot of its radio has kind [sk],
    and [now] says that it was put there in this round. *)
Record mid (N : Z) (ph : nat) (t : Z) (n : node) (slot : option packet) (others : list Z -> Prop)
    (y : Z) (yk sk : kind) (now : bool) (c : Z) (st : way) : Prop := mkMid {
  d_t : y < t /\ c <= t;
  d_bc : 0 < t_bc n <= t + 2000;
  d_hb : 0 < t_hb n;
  d_y : sent_by yk (y - N) n c;
  d_slot : forall p, slot = Some p ->
    (ptype p = 0 \/ ptype p = 2 /\ payload 3 p = shown n) /\
    sent_by sk (if now then t else y + 1) n c /\
    if now then t <= t_hb n /\ (sk = yk -> y + N < t) else t <= y + N + 1 /\ sk <> yk;
  d_st : match st with
    | Synced => others (shown n)
    | Slot => exists p, slot = Some p /\ ptype p = 2 /\ y <= c + 2 * N + 2002 /\ (now = true -> t <= c + 3 * N + 2003)
    | Flying => False
    | Lost => t_bc n <= c + 2 * N + 2001 /\ in_time ph t n
    end
}.

Definition changes (o : list rtx) : Prop := exists x, In (Own ByChange x) o.

Lemma mid_tick e N ph t n slot others y yk sk now c st inc out n' :
  plat e = Host -> 0 <= N <= 499 -> (ph < 2)%nat -> mid N ph t n slot others y yk sk now c st ->
  nodeok n -> state n = Master -> 0 <= t < 4294967296 - 70000 -> heard n inc = None -> tick e t n inc out n' ->
  exists sk' now' c' st', mid N (S ph) t n' (after_out slot out) others y yk sk' now' c' st' /\
    (c' = c /\ ~ changes out /\ shown n' = shown n /\ effect_index n' = effect_index n /\ t_ce n' = t_ce n \/
     c' = t /\ changes out /\ effect_index n' = i8 (byte_at (shown n') 0) /\ t_ce n <> 0 /\ t_ce n < t).
Proof.
  intros Pl HN Hph M Nk St Ht Hd T. pose proof (proj1 Nk) as Gd. pose proof (g_ce _ Gd) as Rce. pose proof (g_bc _ Gd) as Rbc. pose proof (g_hb _ Gd) as Rhb.
  destruct M as [[Yt Ct] Bc Hb Dy Ds Dst].
  assert (NC : forall o, (forall x, ~ In (Own ByChange x) o) -> ~ changes o) by (intros o H [x I]; exact (H x I)).
  inversion T; subst; try congruence.
  - (* quiet *)
    destruct H0 as [D1 [D|[D2 D3]]]; [congruence|]. apply timer_due_false in D1; [|lia]. apply timer_due_false in D3; [|lia].
    exists sk, now, c, st. cbn [after_out fold_left]. split; [|left; split; [reflexivity|split; [apply NC; intros x []|auto]]].
    constructor; auto. destruct st; auto. destruct Dst as [L W]. split; [exact L|]. destruct ph as [|[|ph]]; cbn [in_time] in *; lia.
  - (* heartbeat *)
    apply timer_due_iff in H1; [|lia].
    set (n' := with_t_hb _ _).
    assert (E1 : t_hb n' = t + 1000) by (apply u32_id; lia).
    assert (E2 : t_bc n' = t_bc n) by reflexivity. assert (E3 : t_ce n' = t_ce n) by reflexivity. assert (E4 : shown n' = shown n) by reflexivity.
    assert (Old : forall p, slot = Some p -> (yk <> KH /\ sk <> KH /\ yk <> sk /\ now = false /\ t <= c + 2 * N + 1) /\ t <= t_bc n).
    { intros p E. destruct (Ds p E) as (_ & Sb & X). destruct now; [lia|]. destruct X as [X1 X2]. unfold sent_by in *.
      destruct yk, sk; try congruence; try lia; (split; [|lia]); repeat split; try congruence; lia. }
    assert (NK : yk = KH -> y + N < t) by (intros ->; unfold sent_by in Dy; lia).
    exists KH, true, c, (match st with Slot => Lost | z => z end). split; [|left; split; [reflexivity|split; [apply NC; intros x [I|[]]; discriminate|auto]]].
    constructor; auto; try lia.
    + unfold sent_by in *. rewrite E1, E2, E3. destruct yk; lia.
    + cbn [after_out fold_left rtx_packet]. intros p [= <-]. split; [left; reflexivity|]. split; [unfold sent_by; lia|]. split; [lia|]. auto.
    + destruct st; auto.
      * destruct Dst as (p & E & _ & L & _). destruct (Old p E) as [(_ & _ & _ & _ & L2) L3]. split; [lia|]. destruct ph as [|[|ph]]; cbn [in_time]; lia.
      * destruct Dst as [L W]. split; [lia|]. destruct ph as [|[|ph]]; cbn [in_time] in *; lia.
  - (* change *)
    apply timer_due_false in H1; [|lia]. assert (Cz : t_ce n <> 0) by (intros Q; rewrite Q in H2; discriminate). apply timer_due_iff in H2; [|lia].
    set (n' := with_t_ce _ _).
    assert (E1 : t_hb n' = t_hb n) by reflexivity. assert (E2 : t_bc n' = t_bc n) by reflexivity.
    assert (E3 : t_ce n' = t + 60000) by (apply u32_id; lia).
    assert (E4 : shown n' = payload 3 (pick_packet e n)) by reflexivity.
    exists KC, true, t, Slot. split.
    + constructor; try lia.
      * unfold sent_by in *. rewrite E1, E2, E3. destruct yk; lia.
      * cbn [after_out fold_left rtx_packet]. intros p [= <-]. split; [right; split; reflexivity|]. split; [unfold sent_by; lia|]. split; [lia|].
        intros <-. unfold sent_by in Dy. lia.
      * cbn [after_out fold_left rtx_packet]. eexists. split; [reflexivity|]. split; [reflexivity|]. lia.
    + right. split; [reflexivity|]. split; [eexists; left; reflexivity|]. split; [|split; [exact Cz|lia]].
      change (effect_index n') with (i8 (pick_effect e n)). rewrite E4. unfold pick_packet.
      assert (W : wf_packet (packet_ n)) by apply Gd. destruct W as (_ & _ & _ & L & _).
      destruct (pdata (packet_ n)) as [|b0 [|b1 [|b2 dd]]] eqn:Ed; try discriminate L.
      unfold writeSetEffect, payload. cbn [pdata]. rewrite Ed. cbn. unfold byte_at. cbn [nth]. rewrite u8_i8, !i8_u8. reflexivity.
  - (* rebroadcast *)
    apply timer_due_false in H1; [|lia]. apply timer_due_iff in H3; [|lia].
    set (n' := with_t_bc _ _).
    assert (E1 : t_hb n' = t_hb n) by reflexivity. assert (E3 : t_ce n' = t_ce n) by reflexivity.
    assert (E2 : t_bc n' = t + 2000) by (apply u32_id; lia). assert (E4 : shown n' = shown n) by reflexivity.
    exists KB, true, c, (match st with Synced => Synced | _ => Slot end). split; [|left; split; [reflexivity|split; [apply NC; intros x [I|[]]; discriminate|auto]]].
    constructor; try lia.
    + unfold sent_by in *. rewrite E1, E2, E3. destruct yk; lia.
    + cbn [after_out fold_left rtx_packet]. intros p [= <-]. split; [right; split; [apply Nk|reflexivity]|]. split; [unfold sent_by; lia|]. split; [lia|].
      intros <-. unfold sent_by in Dy. lia.
    + destruct st; [exact Dst| |contradiction|];
        (cbn [after_out fold_left rtx_packet]; eexists; split; [reflexivity|]; split; [apply Nk|]).
      * destruct Dst as (p & E & _ & L & L2). destruct (Ds p E) as (_ & _ & X). split; [exact L|]. intros _. destruct now; [auto|lia].
      * destruct Dst as [L W]. destruct ph as [|[|ph]]; cbn [in_time] in *; lia.
Qed.

Lemma ms_deaf t n slot T U s1 h g a kills inc : ms t n slot T U s1 h g a kills ->
  (forall p, inc = Some p -> pid p = last T 0) -> heard n inc = None.
Proof.
  intros M Own. pose proof (ms_short _ _ _ _ _ _ _ _ _ _ M). destruct (m_knows _ _ _ _ _ _ _ _ _ _ M) as [P Kn]. pose proof (m_T _ _ _ _ _ _ _ _ _ _ M) as NT.
  destruct inc as [p|]; [|reflexivity]. apply (knows_heard n _ p Kn). rewrite (Own p eq_refl), <- (last_prefixed P T NT), app_assoc.
  apply last_in_last5; [|lia]. intros Q. apply app_eq_nil in Q as [_ Q]. exact (NT Q).
Qed.

Lemma mid_machine e N t n slot T U s1 h g a kills inc n' evs others y yk sk c st : plat e = Host -> 0 <= N <= 499 ->
  ms t n slot T U s1 h g a kills -> a <> OnAir -> 0 <= t < 4294967296 - 70000 -> inc_sound inc ->
  (forall p, inc = Some p -> pid p = last T 0) ->
  machine e t true inc n = Ok (n', evs) -> mid N 0 t n slot others y yk sk false c st ->
  exists sk' now' c' st', mid N 2 t n' (after_out slot (outs evs)) others y yk sk' now' c' st' /\
    (c' = c /\ ~ changes (outs evs) /\ shown n' = shown n /\ effect_index n' = effect_index n /\ t_ce n' = t_ce n \/
     c' = t /\ (exists ev, In ev evs /\ at_ ev = t /\ changes (sent ev)) /\ effect_index n' = i8 (byte_at (shown n') 0) /\
     t_ce n <> 0 /\ t_ce n < t).
Proof.
  intros Pl HN M Na Ht I Own Em D. unfold machine in Em. rewrite u32_id in Em by lia.
  destruct (nodeok_runs e t n inc Pl (m_ok _ _ _ _ _ _ _ _ _ _ M) I ltac:(lia)) as (n1 & o1 & E1 & T1). rewrite E1 in Em.
  destruct (ms_tick e t n slot T U s1 h g a kills inc o1 n1 M Na Ht I Own T1) as (U1 & s2 & h1 & a1 & k1 & M1 & Na1 & _).
  destruct (nodeok_runs e t n1 inc Pl (m_ok _ _ _ _ _ _ _ _ _ _ M1) I ltac:(lia)) as (n2 & o2 & E2 & T2). rewrite E2 in Em.
  destruct (mid_tick e N 0 t n slot others y yk sk false c st inc o1 n1 Pl HN ltac:(lia) D (m_ok _ _ _ _ _ _ _ _ _ _ M) (m_state _ _ _ _ _ _ _ _ _ _ M) Ht
    (ms_deaf _ _ _ _ _ _ _ _ _ _ inc M Own) T1) as (sk1 & now1 & c1 & st1 & D1 & C1).
  destruct (mid_tick e N 1 t n1 _ others y yk sk1 now1 c1 st1 inc o2 n2 Pl HN ltac:(lia) D1 (m_ok _ _ _ _ _ _ _ _ _ _ M1) (m_state _ _ _ _ _ _ _ _ _ _ M1) Ht
    (ms_deaf _ _ _ _ _ _ _ _ _ _ inc M1 Own) T2) as (sk2 & now2 & c2 & st2 & D2 & C2).
  injection Em as <- <-. unfold outs. cbn [map concat sent]. rewrite app_nil_r, after_out_app.
  exists sk2, now2, c2, st2. split; [exact D2|].
  destruct C1 as [(-> & N1 & S1 & I1 & Q1)|(-> & N1 & I1 & Q1)]; destruct C2 as [(-> & N2 & S2 & I2 & Q2)|(-> & N2 & I2 & Q2)].
  - left. split; [reflexivity|]. split; [|repeat split; congruence].
    intros [x J]. apply in_app_or in J as [J|J]; [apply N1|apply N2]; exists x; exact J.
  - right. split; [reflexivity|]. split; [eexists; split; [right; left; reflexivity|split; [reflexivity|exact N2]]|]. split; [exact I2|]. rewrite <- Q1. exact Q2.
  - right. split; [reflexivity|]. split; [eexists; split; [left; reflexivity|split; [reflexivity|exact N1]]|]. split; [congruence|exact Q1].
  - right. split; [reflexivity|]. split; [eexists; split; [left; reflexivity|split; [reflexivity|exact N1]]|]. split; [exact I2|exact Q1].
Qed.

(** ** The network between two rounds *)
Definition others (N m : nat) (w : fakenet) (l : list Z) : Prop :=
  forall i, (i < N)%nat -> i <> m -> shown (f_node w i) = l /\ effect_index (f_node w i) = i8 (byte_at l 0).

Record agree (N m : nat) (w : fakenet) (fly : bool) (y : Z) (yk sk : kind) (c : Z) (st : way) : Prop := mkAgree {
  a_t : y <= f_clock w /\ c <= f_clock w;
  a_bc : 0 < t_bc (f_node w m) <= f_clock w + 2000;
  a_hb : 0 < t_hb (f_node w m);
  a_y : sent_by yk (y - Z.of_nat N) (f_node w m) c;
  a_fly : fly = true -> y = f_clock w /\ cell w (Radio m) = None /\
    exists X, cell w Air = Some X /\ (ptype X = 0 \/ ptype X = 2 /\ payload 3 X = shown (f_node w m));
  a_slot : forall p, cell w (Radio m) = Some p -> (ptype p = 0 \/ ptype p = 2 /\ payload 3 p = shown (f_node w m)) /\
    sent_by sk (y + 1) (f_node w m) c /\ f_clock w <= y + Z.of_nat N /\ sk <> yk;
  a_cells : fly = false -> forall i, (i < N)%nat -> cell w (Radio i) <> None -> f_clock w - y <= Z.of_nat i;
  a_st : match st with
    | Synced => others N m w (shown (f_node w m))
    | Slot => exists p, cell w (Radio m) = Some p /\ ptype p = 2 /\ y <= c + 2 * Z.of_nat N + 2002
    | Flying => fly = true /\ (exists X, cell w Air = Some X /\ ptype X = 2) /\ f_clock w <= c + 3 * Z.of_nat N + 2003
    | Lost => t_bc (f_node w m) <= c + 2 * Z.of_nat N + 2001 /\ f_clock w <= t_bc (f_node w m)
    end
}.

Lemma agree_late N m w fly y yk sk c st : agree N m w fly y yk sk c st -> c + 3 * Z.of_nat N + 2003 < f_clock w ->
  others N m w (shown (f_node w m)).
Proof.
  intros A L. pose proof (a_st _ _ _ _ _ _ _ _ _ A) as S. destruct st; [exact S| | |].
  - destruct S as (p & E & _ & B). destruct (a_slot _ _ _ _ _ _ _ _ _ A p E) as (_ & _ & C & _). lia.
  - destruct S as (_ & _ & B). lia.
  - lia.
Qed.

Lemma payload_zero_tail p : sound p -> ptype p = 2 -> payload 3 (zero_tail p) = payload 3 p.
Proof.
  intros So Ty. destruct (sound_len p So) as [_ L]. destruct So as [_ [[? ?]|[[? ?]|[_ Dl]]]]; try lia.
  unfold payload, zero_tail. cbn [pdata]. rewrite Dl. change (Z.to_nat 3) with 3%nat.
  destruct (pdata p) as [|b0 [|b1 [|b2 d]]]; try discriminate L. reflexivity.
Qed.

Lemma byte_payload p : length (pdata p) = 58%nat -> byte_at (payload 3 p) 0 = byte_at (pdata p) 0.
Proof. intros L. unfold payload, byte_at. destruct (pdata p) as [|b d]; [discriminate L|]. reflexivity. Qed.

Section Step.
Variable s : source.
Variable name : nat -> nat.
Variable Old : nat -> list Z.
Variables N m : nat.
Hypothesis small : (N <= 499)%nat.

Lemma agree_step w D T U fly j s1 h g a kills y yk sk c st w' :
  reign name Old N m w D T U fly j s1 h g a kills -> agree N m w fly y yk sk c st -> f_clock w + 1 < 4294967296 - 70000 ->
  FakeTick s N (advanceMillis 1 w) = Ok w' -> (forall own, all_ids (calls_of (name m) (f_log w')) = Old m ++ own -> unused N m Old own) ->
  f_clock w' = f_clock w + 1 /\
  exists evs, calls_of (name m) (f_log w') = calls_of (name m) (f_log w) ++ evs /\
  exists D' T' U' fly' j' s1' h' g' a' kills' y' yk' sk' c' st',
    reign name Old N m w' D' T' U' fly' j' s1' h' g' a' kills' /\ agree N m w' fly' y' yk' sk' c' st' /\
    (c' = c /\ ~ changes (outs evs) /\ shown (f_node w' m) = shown (f_node w m) /\ effect_index (f_node w' m) = effect_index (f_node w m) /\
       t_ce (f_node w' m) = t_ce (f_node w m) \/
     c' = f_clock w + 1 /\ (exists ev, In ev evs /\ at_ ev = f_clock w + 1 /\ changes (sent ev)) /\
       effect_index (f_node w' m) = i8 (byte_at (shown (f_node w' m)) 0) /\ t_ce (f_node w m) <> 0 /\ t_ce (f_node w m) < f_clock w + 1).
Proof.
  intros R A Hc Et Sp.
  destruct (reign_round s name Old N m ltac:(lia) w D T U fly j s1 h g a kills w' R Hc Et Sp)
    as (Ck & evs & Tm & Mine & D' & T' & U' & fly' & j' & s1' & h' & g' & a' & kills' & R' & Mv & _).
  split; [exact Ck|]. exists (evs m). split; [exact Mine|].
  exists D', T', U', fly', j', s1', h', g', a', kills'.
  destruct R as [K Hm Nm Inj Tk Ls Ids Len Ms Hb Wt Sl Air_].
  set (t := f_clock w + 1) in *.
  assert (Ht : 0 <= t < 4294967296 - 70000) by (pose proof (k_clock _ _ K); subst t; lia).
  assert (M0 : ms t (f_node w m) (cell w (Radio m)) T U s1 h g a kills).
  { apply ms_next; [exact Ms|exact Hb|]. intros NU. destruct (Wt NU) as (_ & B & _ & C). lia. }
  assert (So : inc_sound (option_map zero_tail (cell w Air))).
  { intros p. destruct (cell w Air) as [x|] eqn:C; [|discriminate]. cbn. intros [= <-]. apply zero_tail_sound. exact (cell_air_sound _ _ _ (k_mem _ _ K) C). }
  (* the others *)
  assert (Del : exists g1 a1 kills1, ms t (f_node w m) (cell w (Radio m)) T U s1 h g1 a1 kills1 /\ a1 <> OnAir /\
     (forall p, cell w Air = Some p -> pid p = last T 0) /\
     (fly = false -> forall i, (i < N)%nat -> i <> m -> after_out (cell w (Radio i)) (outs (evs i)) = cell w (Radio i)) /\
     ((forall l, others N m w l -> others N m w' l) \/ others N m w' (shown (f_node w m))) /\
     (st = Flying -> others N m w' (shown (f_node w m)))).
  { destruct fly.
    - destruct Air_ as (X & CA & PX & New & Nr & Ty).
      exists (match a with OnAir => t | _ => g end), (match a with OnAir => Got | b => b end), (match a with OnAir => [] | _ => kills end).
      split; [destruct a; try exact M0; exact (ms_got _ _ _ _ _ _ _ _ _ M0)|].
      split; [destruct a; discriminate|]. split; [intros p Cp; congruence|]. split; [discriminate|].
      assert (SX : sound X) by exact (cell_air_sound _ _ _ (k_mem _ _ K) CA).
      assert (Each : forall i, (i < N)%nat -> i <> m ->
        (ptype X = 0 -> shown (f_node w' i) = shown (f_node w i) /\ effect_index (f_node w' i) = effect_index (f_node w i)) /\
        (ptype X = 2 -> shown (f_node w' i) = payload 3 X /\ effect_index (f_node w' i) = i8 (byte_at (payload 3 X) 0))).
      { intros i Hi Ni. destruct (Sl i Hi Ni) as (St & Kn & Ws & Pt). pose proof (Tm i Hi) as Em. rewrite CA in Em. cbn [option_map] in Em.
        destruct (slave_takes_effect (env_of s (name i)) t (f_node w i) (Old i ++ D) (zero_tail X) (f_node w' i) (evs i) eq_refl (k_nodes _ _ K i Hi) St Kn (zero_tail_sound X SX) ltac:(lia) (New i Hi Ni)) as [A0 A2]; [|exact Em|].
        { destruct Ty as [[Ty _]|[Ty Na]]; [left; exact Ty|right; split; [exact Ty|]]. destruct Pt as [Pt|Pt]; [contradiction|].
          pose proof (ms_patience _ _ _ _ _ _ _ _ _ _ M0 Na). lia. }
        split; [exact A0|]. intros Ty2. destruct (A2 Ty2) as [B1 B2]. rewrite B1, B2.
        rewrite <- (byte_payload (zero_tail X) (zero_tail_length X SX)), payload_zero_tail by assumption. auto. }
      destruct (a_fly _ _ _ _ _ _ _ _ _ A eq_refl) as (_ & _ & X' & CA' & Pl). rewrite CA in CA'. injection CA' as <-.
      split.
      + destruct Pl as [T0|[T2 Pl]].
        * left. intros l O i Hi Ni. destruct (Each i Hi Ni) as [E0 _]. destruct (E0 T0) as [-> ->]. apply O; assumption.
        * right. rewrite <- Pl. intros i Hi Ni. apply (Each i Hi Ni). exact T2.
      + intros ->. destruct (a_st _ _ _ _ _ _ _ _ _ A) as (_ & (X' & CA' & T2) & _). rewrite CA in CA'. injection CA' as <-.
        destruct Pl as [T0|[_ Pl]]; [lia|]. rewrite <- Pl. intros i Hi Ni. apply (Each i Hi Ni). exact T2.
    - destruct Air_ as (ND & Lst & Nr & Na & AA).
      exists g, a, kills. split; [exact M0|]. split; [exact Na|]. split; [intros p Cp; rewrite <- Lst; exact (AA p Cp)|].
      assert (Each : forall i, (i < N)%nat -> i <> m -> f_node w' i = f_node w i /\ outs (evs i) = []).
      { intros i Hi Ni. destruct (Sl i Hi Ni) as (St & Kn & Ws & Pt). pose proof (Tm i Hi) as Em. destruct Pt as [Pt|Pt]; [contradiction|].
        pose proof (ms_patience _ _ _ _ _ _ _ _ _ _ M0 Na) as Pa.
        rewrite (slave_ignores (env_of s (name i)) t (f_node w i) (Old i ++ D) _ eq_refl (k_nodes _ _ K i Hi) St Kn So ltac:(lia) ltac:(lia)) in Em.
        + injection Em as <- <-. split; reflexivity.
        + intros p. destruct (cell w Air) as [x|] eqn:C; [|discriminate]. cbn. intros [= <-]. cbn [zero_tail pid]. rewrite (AA x eq_refl).
          apply last_known. exact ND. }
      split; [intros _ i Hi Ni; rewrite (proj2 (Each i Hi Ni)); reflexivity|]. split.
      + left. intros l O i Hi Ni. rewrite (proj1 (Each i Hi Ni)). apply O; assumption.
      + intros ->. destruct (a_st _ _ _ _ _ _ _ _ _ A) as (F & _). discriminate. }
  destruct Del as (g1 & a1 & kills1 & M1 & Na1 & AirT & Quiet & Keep & Arr).
  (* the master *)
  destruct A as [[Yt Ct] Bc Hb0 Ay Af As Ac Ast].
  assert (D0 : mid (Z.of_nat N) 0 t (f_node w m) (cell w (Radio m)) (others N m w') y yk sk false c (match st with Flying => Synced | z => z end)).
  { constructor; auto; try lia.
    - intros p E. destruct (As p E) as (P1 & P2 & P3 & P4). split; [exact P1|]. split; [exact P2|]. split; [lia|exact P4].
    - destruct st.
      + destruct Keep as [Kp|Kp]; auto.
      + destruct Ast as (p & E & Ty & B). exists p. split; [exact E|]. split; [exact Ty|]. split; [exact B|discriminate].
      + apply Arr. reflexivity.
      + destruct Ast as [B1 B2]. split; [exact B1|]. cbn [in_time]. lia. }
  destruct (mid_machine (env_of s (name m)) (Z.of_nat N) t (f_node w m) _ T U s1 h g1 a1 kills1 _ (f_node w' m) (evs m) (others N m w') y yk sk c _
    eq_refl ltac:(lia) M1 Na1 ltac:(lia) So ltac:(intros p; destruct (cell w Air) as [x|] eqn:C; [|discriminate]; cbn; intros [= <-]; exact (AirT x eq_refl)) (Tm m Hm) D0)
    as (sk2 & now2 & c2 & st2 & D2 & C2).
  destruct D2 as [[Yt2 Ct2] Bc2 Hb2 Dy2 Ds2 Dst2]. unfold moved in Mv. destruct fly'.
  - (* on the air *)
    destruct Mv as (p & Fm & RA & RM). destruct (Ds2 p Fm) as (P1 & P2 & P3).
    exists t, sk2, sk2, c2, (match st2 with Slot => Flying | z => z end).
    split; [exact R'|]. split; [|exact C2]. constructor; try lia.
    + unfold sent_by in *. destruct now2, sk2; lia.
    + intros _. split; [lia|]. split; [exact RM|]. exists p. split; [exact RA|exact P1].
    + rewrite RM. discriminate.
    + destruct st2; auto; [|contradiction|cbn [in_time] in Dst2; lia].
      destruct Dst2 as (q & E & Ty & B1 & B2). rewrite Fm in E. injection E as <-. split; [reflexivity|]. split; [exists p; auto|].
      rewrite Ck. destruct now2; [auto|lia].
  - (* a relay, or nothing *)
    destruct Mv as [RM Mv].
    assert (Late : forall i, (i < N)%nat -> cell w' (Radio i) <> None -> t - y <= Z.of_nat i).
    { intros i Hi Ne. destruct Mv as [[_ Mv]|(k & Hk & Nk & Fk & Mv)]; [exfalso; apply Ne, Mv; exact Hi|].
      specialize (Mv i Hi Ne). destruct fly.
      - destruct (Af eq_refl) as (-> & _). subst t. lia.
      - rewrite (Quiet eq_refl k Hk Nk) in Fk. specialize (Ac eq_refl k Hk Fk). subst t. lia. }
    exists y, yk, sk2, c2, st2. split; [exact R'|]. split; [|exact C2]. constructor; try lia; auto.
    + intros p E. assert (L : t - y <= Z.of_nat m) by (apply Late; [exact Hm|congruence]).
      rewrite RM in E. destruct (Ds2 p E) as (P1 & P2 & P3). split; [exact P1|].
      split; [unfold sent_by in *; destruct now2, sk2; lia|]. split; [lia|]. destruct now2; [|apply P3]. intros Q. destruct P3 as [_ P3]. specialize (P3 Q). lia.
    + intros _ i Hi Ne. rewrite Ck. apply Late; assumption.
    + destruct st2; auto; [|contradiction|cbn [in_time] in Dst2; lia].
      destruct Dst2 as (q & E & Ty & B1 & B2). exists q. split; [congruence|]. split; [exact Ty|exact B1].
Qed.
End Step.
