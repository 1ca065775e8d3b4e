(** Proof support for C135: a new effect of the master of the simulated network
    is everywhere after two rounds when nothing was in the air before. *)
From Coq Require Import ZArith NArith Lia List Bool.
From Coq Require Import ZifyBool.
From Verif Require Import CInt CIntFacts Packet SpecPacket PacketFacts NetMgr NetHist SpecNet NetFacts Rsm RsmStep RsmEval RsmHist SpecRsm RsmFacts RoleFacts.
From Verif Require Import Fastled Palette Device LedMgr Effects Show Bench FakeNet FakeNetFacts SimFacts AgreeFacts AgreeRun.
Import ListNotations.
Open Scope Z_scope.
Ltac Zify.zify_post_hook ::= Z.div_mod_to_equations.

(** A packet that cannot change what a node showing [B] shows. *)
Definition same (B : list Z) (p : packet) : Prop := ptype p = 0 \/ ptype p = 2 /\ payload 3 p = B.

(** ** The master *)
Lemma master_tick e t n inc out n' : nodeok n -> state n = Master -> heard n inc = None -> tick e t n inc out n' ->
  (~ changes out /\ shown n' = shown n /\ effect_index n' = effect_index n /\ forall x, In x out -> same (shown n) (rtx_packet x)) \/
  (timer_due t (t_hb n) = false /\ t_hb n' = t_hb n /\ exists x, out = [Own ByChange x] /\ ptype x = 2 /\ payload 3 x = shown n' /\
     effect_index n' = i8 (byte_at (shown n') 0)).
Proof.
  intros Nk St Hd T. pose proof (proj1 Nk) as Gd.
  assert (NC : forall o, (forall x, ~ In (Own ByChange x) o) -> ~ changes o) by (intros o H [x I]; exact (H x I)).
  inversion T; subst; try congruence.
  - left. split; [apply NC; intros x []|]. split; [reflexivity|]. split; [reflexivity|]. intros x [].
  - left. split; [apply NC; intros x [I|[]]; discriminate|]. split; [reflexivity|]. split; [reflexivity|]. intros x [<-|[]]. left. reflexivity.
  - right. split; [assumption|]. split; [reflexivity|]. eexists. split; [reflexivity|]. split; [reflexivity|]. split; [reflexivity|].
    set (n' := with_t_ce _ _). assert (E4 : shown n' = payload 3 (pick_packet e n)) by reflexivity.
    change (effect_index n') with (i8 (pick_effect e n)). rewrite E4. unfold pick_packet.
    assert (W : wf_packet (packet_ n)) by apply Gd. destruct W as (_ & _ & _ & L & _).
    destruct (pdata (packet_ n)) as [|b0 [|b1 [|b2 dd]]] eqn:Ed; try discriminate L.
    unfold writeSetEffect, payload. cbn [pdata]. rewrite Ed. cbn. unfold byte_at. cbn [nth]. rewrite u8_i8, !i8_u8. reflexivity.
  - left. split; [apply NC; intros x [I|[]]; discriminate|]. split; [reflexivity|]. split; [reflexivity|]. intros x [<-|[]]. right. cbn [rtx_packet].
    split; [apply Nk|reflexivity].
Qed.

(** What the master does in a round. *)
Definition kept (n n' : node) (out : list rtx) : Prop :=
  ~ changes out /\ shown n' = shown n /\ effect_index n' = effect_index n /\ forall x, In x out -> same (shown n) (rtx_packet x).
Definition renewed (n' : node) (slot : option packet) (out : list rtx) : Prop :=
  changes out /\ effect_index n' = i8 (byte_at (shown n') 0) /\
  (exists x, In (Own ByChange x) out /\ payload 3 x = shown n') /\
  exists p, after_out slot out = Some p /\ ptype p = 2 /\ payload 3 p = shown n'.

Lemma master_machine e t n slot T U s1 h g a kills inc n' evs : plat e = Host ->
  ms t n slot T U s1 h g a kills -> a <> OnAir -> 0 <= t < 4294967296 - 70000 -> inc_sound inc ->
  (forall p, inc = Some p -> pid p = last T 0) -> machine e t true inc n = Ok (n', evs) ->
  kept n n' (outs evs) \/ renewed n' slot (outs evs).
Proof.
  intros Pl M Na Ht I Own Em. unfold machine in Em. rewrite u32_id in Em by lia.
  destruct (nodeok_runs e t n inc Pl (m_ok _ _ _ _ _ _ _ _ _ _ M) I ltac:(lia)) as (n1 & o1 & E1 & T1). rewrite E1 in Em.
  destruct (ms_tick e t n slot T U s1 h g a kills inc o1 n1 M Na Ht I Own T1) as (U1 & s2 & h1 & a1 & k1 & M1 & Na1 & _).
  destruct (nodeok_runs e t n1 inc Pl (m_ok _ _ _ _ _ _ _ _ _ _ M1) I ltac:(lia)) as (n2 & o2 & E2 & T2). rewrite E2 in Em. injection Em as <- <-.
  pose proof (master_tick e t n inc o1 n1 (m_ok _ _ _ _ _ _ _ _ _ _ M) (m_state _ _ _ _ _ _ _ _ _ _ M) (ms_deaf _ _ _ _ _ _ _ _ _ _ inc M Own) T1) as P1.
  pose proof (master_tick e t n1 inc o2 n2 (m_ok _ _ _ _ _ _ _ _ _ _ M1) (m_state _ _ _ _ _ _ _ _ _ _ M1) (ms_deaf _ _ _ _ _ _ _ _ _ _ inc M1 Own) T2) as P2.
  pose proof (m_state _ _ _ _ _ _ _ _ _ _ M1) as St1. pose proof (ms_deaf _ _ _ _ _ _ _ _ _ _ inc M1 Own) as Hd1.
  pose proof (m_ok _ _ _ _ _ _ _ _ _ _ M1) as Nk1.
  unfold outs. cbn [map concat sent]. rewrite app_nil_r.
  destruct P2 as [(A2 & B2 & C2 & D2)|(A2 & B2 & x2 & -> & C2 & D2 & F2)].
  - destruct P1 as [(A1 & B1 & C1 & D1)|(A1 & B1 & x1 & -> & C1 & D1 & F1)].
    + left. split; [rewrite changes_app; tauto|]. split; [congruence|]. split; [congruence|].
      intros x Ix. apply in_app_or in Ix as [Ix|Ix]; [apply D1; exact Ix|]. rewrite <- B1. apply D2. exact Ix.
    + right. split; [apply changes_app; left; eexists; left; reflexivity|]. split; [congruence|].
      split; [exists x1; split; [left; reflexivity|congruence]|].
      cbn [app]. change (after_out slot (Rsm.Own ByChange x1 :: o2)) with (after_out (Some x1) o2).
      inversion T2; subst; try congruence.
      * exists x1. split; [reflexivity|]. split; [exact C1|congruence].
      * exfalso. apply A2. eexists. left. reflexivity.
      * eexists. split; [reflexivity|]. split; [apply Nk1|reflexivity].
  - right. split; [apply changes_app; right; eexists; left; reflexivity|]. split; [exact F2|].
    split; [exists x2; split; [apply in_or_app; right; left; reflexivity|exact D2]|]. exists x2.
    rewrite after_out_app. split; [reflexivity|]. split; [exact C2|exact D2].
Qed.

(** ** A round *)
Section Round.
Variable s : source.
Variable name : nat -> nat.
Variable Old : nat -> list Z.
Variables N m : nat.
Hypothesis small : (N <= 900)%nat.

Definition ignored (w w' : fakenet) (evs : nat -> list event) : Prop :=
  forall i, (i < N)%nat -> i <> m -> f_node w' i = f_node w i /\ outs (evs i) = [].
Definition taken (X : packet) (w w' : fakenet) (evs : nat -> list event) : Prop :=
  forall i, (i < N)%nat -> i <> m -> outs (evs i) = [Forwarded (zero_tail X)] /\
    (ptype X = 0 -> shown (f_node w' i) = shown (f_node w i) /\ effect_index (f_node w' i) = effect_index (f_node w i)) /\
    (ptype X = 2 -> shown (f_node w' i) = payload 3 X /\ effect_index (f_node w' i) = i8 (byte_at (payload 3 X) 0)).

Lemma full_round w D T U fly j s1 h g a kills w' :
  reign name Old N m w D T U fly j s1 h g a kills -> f_clock w + 1 < 4294967296 - 70000 ->
  FakeTick s N (advanceMillis 1 w) = Ok w' -> (forall own, all_ids (calls_of (name m) (f_log w')) = Old m ++ own -> unused N m Old own) ->
  f_clock w' = f_clock w + 1 /\
  exists evs, calls_of (name m) (f_log w') = calls_of (name m) (f_log w) ++ evs m /\
  exists D' T' U' fly' j' s1' h' g' a' kills', reign name Old N m w' D' T' U' fly' j' s1' h' g' a' kills' /\ moved N m w w' evs fly' /\
    (if fly then exists X, cell w Air = Some X /\ sound X /\ (ptype X = 0 \/ ptype X = 2) /\ taken X w w' evs else ignored w w' evs) /\
    (kept (f_node w m) (f_node w' m) (outs (evs m)) \/ renewed (f_node w' m) (cell w (Radio m)) (outs (evs m))) /\
    forall p, (cell w' Air = Some p \/ exists i, (i < N)%nat /\ cell w' (Radio i) = Some p) ->
      exists i, (i < N)%nat /\ after_out (cell w (Radio i)) (outs (evs i)) = Some p.
Proof.
  intros R Hc Et Sp.
  destruct (reign_round s name Old N m small w D T U fly j s1 h g a kills w' R Hc Et Sp)
    as (Ck & evs & Tm & Mine & D' & T' & U' & fly' & j' & s1' & h' & g' & a' & kills' & R' & Mv & _).
  split; [exact Ck|]. exists evs. split; [exact Mine|]. exists D', T', U', fly', j', s1', h', g', a', kills'.
  split; [exact R'|]. split; [exact Mv|].
  destruct R as [K Hm Nm Inj Tk Ls Ids Len Ms Hb Wt Sl Air_].
  set (t := f_clock w + 1) in *.
  assert (Ht : 0 <= t < 4294967296 - 70000) by (pose proof (k_clock _ _ K); subst t; lia).
  assert (M0 : ms t (f_node w m) (cell w (Radio m)) T U s1 h g a kills).
  { apply ms_next; [exact Ms|exact Hb|]. intros NU. destruct (Wt NU) as (_ & B & _ & C). lia. }
  assert (So : inc_sound (option_map zero_tail (cell w Air))).
  { intros p. destruct (cell w Air) as [x|] eqn:C; [|discriminate]. cbn. intros [= <-]. apply zero_tail_sound. exact (cell_air_sound _ _ _ (k_mem _ _ K) C). }
  assert (M1 : exists g1 a1 kills1, ms t (f_node w m) (cell w (Radio m)) T U s1 h g1 a1 kills1 /\ a1 <> OnAir).
  { destruct a; try (exists g; eexists _, kills; split; [exact M0|discriminate]). exists t, Got, []. split; [exact (ms_got _ _ _ _ _ _ _ _ _ M0)|discriminate]. }
  destruct M1 as (g1 & a1 & kills1 & M1 & Na1).
  assert (AirT : forall p, option_map zero_tail (cell w Air) = Some p -> pid p = last T 0).
  { intros p. destruct (cell w Air) as [c|] eqn:C; [|discriminate]. cbn. intros [= <-]. cbn [zero_tail pid].
    destruct fly; [destruct Air_ as (X & CA & PX & _); congruence|]. destruct Air_ as (_ & Lst & _ & _ & AA). rewrite <- Lst. exact (AA c eq_refl). }
  split; [|split].
  - destruct fly.
    + destruct Air_ as (X & CA & PX & New & Nr & Ty). exists X. split; [exact CA|].
      pose proof (cell_air_sound _ _ _ (k_mem _ _ K) CA) as SX. split; [exact SX|]. split; [tauto|].
      intros i Hi Ni. destruct (Sl i Hi Ni) as (St & Kn & Ws & Pt). pose proof (Tm i Hi) as Em. rewrite CA in Em. cbn [option_map] in Em.
      assert (Ty' : ptype (zero_tail X) = 0 \/ ptype (zero_tail X) = 2 /\ t <= t_hb (f_node w i)).
      { change (ptype (zero_tail X)) with (ptype X). destruct Ty as [[Ty _]|[Ty Na]]; [left; exact Ty|right]. split; [exact Ty|].
        destruct Pt as [Pt|Pt]; [contradiction|]. pose proof (ms_patience _ _ _ _ _ _ _ _ _ _ M0 Na). lia. }
      pose proof (zero_tail_sound X SX) as SZ.
      destruct (slave_takes (env_of s (name i)) t (f_node w i) _ (zero_tail X) eq_refl (k_nodes _ _ K i Hi) St Kn SZ Ht (New i Hi Ni) Ty') as (n1 & ev1 & E1 & O1 & _).
      rewrite Em in E1. injection E1 as <- <-. split; [exact O1|].
      destruct (slave_takes_effect (env_of s (name i)) t (f_node w i) _ (zero_tail X) _ _ eq_refl (k_nodes _ _ K i Hi) St Kn SZ Ht (New i Hi Ni) Ty' Em) as [H0 H2].
      split; [exact H0|]. intros T2. specialize (H2 T2). rewrite <- (byte_payload (zero_tail X) (zero_tail_length X SX)), payload_zero_tail in H2 by assumption. exact H2.
    + destruct Air_ as (ND & Lst & Nr & Na & AA). intros i Hi Ni.
      destruct (Sl i Hi Ni) as (St & Kn & Ws & Pt). pose proof (Tm i Hi) as Em. destruct Pt as [Pt|Pt]; [contradiction|].
      pose proof (ms_patience _ _ _ _ _ _ _ _ _ _ M0 Na) as Pa.
      rewrite (slave_ignores (env_of s (name i)) t (f_node w i) (Old i ++ D) _ eq_refl (k_nodes _ _ K i Hi) St Kn So ltac:(lia) ltac:(lia)) in Em.
      * injection Em as <- <-. split; reflexivity.
      * intros p. destruct (cell w Air) as [x|] eqn:C; [|discriminate]. cbn. intros [= <-]. cbn [zero_tail pid]. rewrite (AA x eq_refl).
        apply last_known. exact ND.
  - exact (master_machine (env_of s (name m)) t _ _ T U s1 h g1 a1 kills1 _ _ _ eq_refl M1 Na1 Ht So AirT (Tm m Hm)).
  - set (w0 := advanceMillis 1 w) in *.
    assert (K0 : ok N w0) by (destruct K as [[? ? ? ?] ? ?]; constructor; [constructor|..]; auto; cbn; lia).
    destruct (FakeTick_ok s N w0 K0) as (evs0 & w1 & E1 & K1 & Tm0 & _ & _ & _ & _ & _ & _ & Res). rewrite Et in E1. injection E1 as <-.
    assert (Same : forall i, (i < N)%nat -> evs0 i = evs i).
    { intros i Hi. destruct (Tm0 i Hi) as [Q _]. pose proof (Tm i Hi) as Q'. change (f_name w0) with (f_name w) in Q. change (f_ticked w0) with (f_ticked w) in Q.
      change (f_node w0) with (f_node w) in Q. change (f_clock w0) with t in Q. rewrite Nm, Tk in Q by exact Hi.
      assert (Rc : receives s w0 i = option_map zero_tail (cell w Air)) by (unfold receives, keeps; change (f_loss w0) with (f_loss w); rewrite Ls; reflexivity).
      rewrite Rc in Q. congruence. }
    cbv zeta in Res. intros p Cp.
    pose proof (first_some (fun i => is_some (after_out (cell w0 (Radio i)) (outs (evs0 i)))) N) as F.
    destruct (find _ (seq 0 N)) as [k|].
    + destruct F as (Hk & _ & _). destruct Res as [Ra Rr]. destruct Cp as [Cp|(i & Hi & Cp)].
      * exists k. split; [exact Hk|]. rewrite <- Same by exact Hk. rewrite <- Cp, Ra. reflexivity.
      * rewrite (Rr i Hi) in Cp. destruct (i =? k)%nat; [discriminate|]. exists i. split; [exact Hi|]. rewrite <- Same by exact Hi. exact Cp.
    + destruct Res as [Ra Rr]. destruct Cp as [Cp|(i & Hi & Cp)]; [congruence|]. rewrite (Rr i Hi) in Cp. discriminate.
Qed.

(** ** Everybody shows [B], and nothing else is in the air *)
Definition even (B : list Z) (w : fakenet) : Prop :=
  (forall i, (i < N)%nat -> shown (f_node w i) = B /\ effect_index (f_node w i) = i8 (byte_at B 0)) /\
  forall p, (cell w Air = Some p \/ exists i, (i < N)%nat /\ cell w (Radio i) = Some p) -> same B p.

Lemma same_zero_tail B X : sound X -> same B X -> same B (zero_tail X).
Proof. intros SX [T|[T P]]; [left; exact T|right]. split; [exact T|]. rewrite payload_zero_tail; assumption. Qed.

Lemma after_out_same B slot out : (forall p, slot = Some p -> same B p) -> (forall x, In x out -> same B (rtx_packet x)) ->
  forall p, after_out slot out = Some p -> same B p.
Proof.
  revert slot. induction out as [|x out IH]; intros slot Hs Ho p E; [apply Hs; exact E|].
  apply (IH (Some (rtx_packet x))); [intros q [= <-]; apply Ho; left; reflexivity|intros y Iy; apply Ho; right; exact Iy|exact E].
Qed.

Lemma even_round B w D T U fly j s1 h g a kills w' :
  reign name Old N m w D T U fly j s1 h g a kills -> f_clock w + 1 < 4294967296 - 70000 ->
  FakeTick s N (advanceMillis 1 w) = Ok w' -> (forall own, all_ids (calls_of (name m) (f_log w')) = Old m ++ own -> unused N m Old own) ->
  even B w -> (forall evs, calls_of (name m) (f_log w') = calls_of (name m) (f_log w) ++ evs -> ~ changes (outs evs)) ->
  even B w' /\ exists D' T' U' fly' j' s1' h' g' a' kills', reign name Old N m w' D' T' U' fly' j' s1' h' g' a' kills'.
Proof.
  intros R Hc Et Sp [Ev Ce] NC. pose proof (r_m _ _ _ _ _ _ _ _ _ _ _ _ _ _ _ R) as Hm.
  destruct (full_round w D T U fly j s1 h g a kills w' R Hc Et Sp)
    as (Ck & evs & Mine & D' & T' & U' & fly' & j' & s1' & h' & g' & a' & kills' & R' & _ & Sl & Ma & Cells).
  split; [|exists D', T', U', fly', j', s1', h', g', a', kills'; exact R'].
  destruct Ma as [(_ & Ms & Mi & Mo)|[Ch _]]; [|exfalso; exact (NC _ Mine Ch)].
  destruct (Ev m Hm) as [Bm Im].
  assert (Each : forall i, (i < N)%nat -> (shown (f_node w' i) = B /\ effect_index (f_node w' i) = i8 (byte_at B 0)) /\
     forall x, In x (outs (evs i)) -> same B (rtx_packet x)).
  { intros i Hi. destruct (Nat.eq_dec i m) as [->|Ni].
    - rewrite Ms, Mi. split; [auto|]. rewrite Bm in Mo. exact Mo.
    - destruct (Ev i Hi) as [Bi Ii]. destruct fly.
      + destruct Sl as (X & CA & SX & Ty & Tk). destruct (Tk i Hi Ni) as (O & T0 & T2).
        pose proof (Ce X (or_introl CA)) as SB. split.
        * destruct SB as [Z|[Z P]]; [destruct (T0 Z) as [-> ->]; auto|]. destruct (T2 Z) as [-> ->]. rewrite P. auto.
        * rewrite O. intros x [<-|[]]. apply same_zero_tail; assumption.
      + destruct (Sl i Hi Ni) as [-> O]. split; [auto|]. rewrite O. intros x []. }
  split; [intros i Hi; apply (Each i Hi)|]. intros p Cp. destruct (Cells p Cp) as (i & Hi & E).
  apply (after_out_same B (cell w (Radio i)) (outs (evs i))); [intros q Cq; apply Ce; right; exists i; auto|apply Each; exact Hi|exact E].
Qed.

(** ** A new effect *)
Lemma new_rounds w D T U fly j s1 h g a kills w1 w2 :
  reign name Old N m w D T U fly j s1 h g a kills -> f_clock w + 2 < 4294967296 - 70000 ->
  cell w Air = None -> (forall i, (i < N)%nat -> cell w (Radio i) = None) ->
  FakeTick s N (advanceMillis 1 w) = Ok w1 -> FakeTick s N (advanceMillis 1 w1) = Ok w2 ->
  (forall own, all_ids (calls_of (name m) (f_log w1)) = Old m ++ own -> unused N m Old own) ->
  (forall own, all_ids (calls_of (name m) (f_log w2)) = Old m ++ own -> unused N m Old own) ->
  (forall evs, calls_of (name m) (f_log w1) = calls_of (name m) (f_log w) ++ evs -> changes (outs evs)) ->
  (forall evs, calls_of (name m) (f_log w2) = calls_of (name m) (f_log w1) ++ evs -> ~ changes (outs evs)) ->
  exists B, even B w2 /\
    (exists evs x, calls_of (name m) (f_log w1) = calls_of (name m) (f_log w) ++ evs /\ In (Own ByChange x) (outs evs) /\ payload 3 x = B) /\
    exists D' T' U' fly' j' s1' h' g' a' kills', reign name Old N m w2 D' T' U' fly' j' s1' h' g' a' kills'.
Proof.
  intros R Hc A0 R0 E1 E2 Sp1 Sp2 C1 C2. pose proof (r_m _ _ _ _ _ _ _ _ _ _ _ _ _ _ _ R) as Hm.
  destruct (full_round w D T U fly j s1 h g a kills w1 R ltac:(lia) E1 Sp1)
    as (Ck1 & evs & Mine & D1 & T1 & U1 & fly1 & j1 & s11 & h1 & g1 & a1 & kills1 & R1 & Mv & Sl & Ma & _).
  assert (Hf : fly = false) by (destruct fly; [destruct Sl as (X & CA & _); congruence|reflexivity]). subst fly.
  destruct Ma as [[NC _]|(_ & Im & (x & Ix & Px) & p & Fp & Tp & Pp)]; [exfalso; exact (NC (C1 _ Mine))|].
  unfold moved in Mv. destruct fly1.
  2: { exfalso. destruct Mv as [RM [[_ Q]|(k & Hk & Nk & Fk & _)]].
       - rewrite (Q m Hm) in RM. congruence.
       - destruct (Sl k Hk Nk) as [_ O]. rewrite O, (R0 k Hk) in Fk. apply Fk. reflexivity. }
  destruct Mv as (q & Fq & CA & RM). rewrite Fp in Fq. injection Fq as <-.
  destruct (full_round w1 D1 T1 U1 true j1 s11 h1 g1 a1 kills1 w2 R1 ltac:(lia) E2 Sp2)
    as (Ck2 & evs2 & Mine2 & D2 & T2 & U2 & fly2 & j2 & s12 & h2 & g2 & a2 & kills2 & R2 & _ & Sl2 & Ma2 & Cells).
  destruct Sl2 as (X & CA' & SX & Ty & Tk). rewrite CA in CA'. injection CA' as <-.
  destruct Ma2 as [(_ & Ms & Mi & Mo)|[Ch _]]; [|exfalso; exact (C2 _ Mine2 Ch)].
  exists (shown (f_node w1 m)). split; [|split; [exists (evs m), x; auto|exists D2, T2, U2, fly2, j2, s12, h2, g2, a2, kills2; exact R2]].
  assert (Sp : same (shown (f_node w1 m)) p) by (right; auto).
  split.
  - intros i Hi. destruct (Nat.eq_dec i m) as [->|Ni]; [rewrite Ms, Mi; auto|].
    destruct (Tk i Hi Ni) as (_ & _ & H2). rewrite <- Pp. exact (H2 Tp).
  - intros q Cq. destruct (Cells q Cq) as (i & Hi & E). destruct (Nat.eq_dec i m) as [->|Ni].
    + rewrite RM in E. apply (after_out_same _ None (outs (evs2 m))); [discriminate|exact Mo|exact E].
    + destruct (Tk i Hi Ni) as (O & _). rewrite O in E. cbn in E. injection E as <-. apply same_zero_tail; assumption.
Qed.
End Round.
