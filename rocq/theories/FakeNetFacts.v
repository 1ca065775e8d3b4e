(** Proof support: the simulated network at the level of packet values. *)
From Coq Require Import ZArith NArith Lia List Bool.
From Coq Require Import ZifyBool.
From Verif Require Import CInt CIntFacts Packet SpecPacket PacketFacts NetMgr NetHist SpecNet NetFacts Rsm RsmStep RsmEval RsmHist SpecRsm RsmFacts.
From Verif Require Import Fastled Palette Device LedMgr Effects Show LedFacts ShowFacts Bench FakeNet PropBench.
Import ListNotations.
Open Scope Z_scope.
Ltac Zify.zify_post_hook ::= Z.div_mod_to_equations.

(** ** Who owns which packet object *)
Inductive owner := Air | Before | Radio (i : nat).
Definition ptr (w : fakenet) (o : owner) : option nat :=
  match o with Air => f_packet w | Before => f_previous w | Radio i => r_sent (f_radio w i) end.
Definition cell (w : fakenet) (o : owner) : option packet :=
  match ptr w o with Some a => f_heap w a | None => None end.

(** Packets as the nodes make them. *)
Definition sound (p : packet) : Prop :=
  wf_packet p /\ ((ptype p = 0 /\ dlen p = 4) \/ (ptype p = 1 /\ dlen p = 0) \/ (ptype p = 2 /\ dlen p = 3)).

Record mem (N : nat) (w : fakenet) : Prop := mkMem {
  m_live : forall o a, ptr w o = Some a -> (a < f_fresh w)%nat /\ exists p, f_heap w a = Some p /\ sound p;
  m_one : forall o o' a, ptr w o = Some a -> ptr w o' = Some a -> o = o';
  m_all : forall a, f_heap w a <> None -> exists o, ptr w o = Some a;
  m_out : forall i, (N <= i)%nat -> r_sent (f_radio w i) = None
}.

Definition after_out (slot : option packet) (out : list rtx) : option packet :=
  fold_left (fun _ x => Some (rtx_packet x)) out slot.

Lemma after_out_app c a b : after_out c (a ++ b) = after_out (after_out c a) b.
Proof. unfold after_out. apply fold_left_app. Qed.

(** The parts of the network that transmitting does not touch. *)
Definition same_rest (w w' : fakenet) : Prop :=
  f_node w' = f_node w /\ f_ticked w' = f_ticked w /\ f_name w' = f_name w /\ f_born w' = f_born w /\
  f_loss w' = f_loss w /\ f_lost w' = f_lost w /\ f_clock w' = f_clock w /\ f_log w' = f_log w.

Lemma same_rest_refl w : same_rest w w.
Proof. repeat split. Qed.
Lemma same_rest_trans a b c : same_rest a b -> same_rest b c -> same_rest a c.
Proof. unfold same_rest. intuition congruence. Qed.

Lemma sendPacket_view i p w N : mem N w -> (i < N)%nat -> sound p ->
  exists v, fr_sendPacket p (view i w) = Ok v /\
    let w' := unview i v w in
    mem N w' /\ same_rest w w' /\
    (forall o, o <> Radio i -> ptr w' o = ptr w o /\ cell w' o = cell w o) /\
    (forall j, r_received (f_radio w' j) = r_received (f_radio w j)) /\
    cell w' (Radio i) = Some p.
Proof.
  intros M Ni So. destruct M as [ML M1 MA MO]. unfold fr_sendPacket. cbn [view sent_packet].
  destruct (r_sent (f_radio w i)) as [a|] eqn:E.
  - destruct (ML (Radio i) a E) as (La & q & Ha & Sq). unfold assign. cbn [heap view]. rewrite Ha.
    eexists. split; [reflexivity|]. cbv zeta. unfold unview. cbn [heap Bench.fresh received_packet sent_packet view].
    assert (P : forall o, ptr (set_heap (upd (f_heap w) a (Some p)) (set_fresh (f_fresh w)
       (set_radio (upd (f_radio w) i (mkRadio (r_received (f_radio w i)) (r_sent (f_radio w i)))) w))) o = ptr w o).
    { intros [| |j]; cbn; try reflexivity. unfold upd. destruct (Nat.eqb_spec j i); subst; reflexivity. }
    split; [|split; [repeat split|split; [|split]]].
    + constructor.
      * intros o b Pb. rewrite P in Pb. destruct (ML o b Pb) as (Lb & q' & Hb & Sb). split; [exact Lb|]. cbn.
        destruct (Nat.eq_dec b a) as [->|Nb]; [rewrite upd_same; eauto|rewrite upd_other by exact Nb; eauto].
      * intros o o' b P1 P2. rewrite P in P1, P2. eauto.
      * intros b Hb. cbn in Hb. destruct (Nat.eq_dec b a) as [->|Nb].
        -- exists (Radio i). rewrite P. exact E.
        -- rewrite upd_other in Hb by exact Nb. destruct (MA b Hb) as [o Po]. exists o. rewrite P. exact Po.
      * intros j Nj. cbn. rewrite upd_other by lia. auto.
    + intros o No. split; [apply P|]. unfold cell. rewrite P. destruct (ptr w o) as [b|] eqn:Eb; [|reflexivity].
      cbn. apply upd_other. intros ->. apply No. eapply M1; [exact Eb|exact E].
    + intros j. cbn. unfold upd. destruct (Nat.eqb_spec j i); subst; reflexivity.
    + unfold cell. rewrite P. cbn [ptr]. rewrite E. cbn. apply upd_same.
  - cbn [new_packet]. unfold assign. cbn [heap Bench.fresh received_packet sent_packet view]. rewrite upd_same.
    eexists. split; [reflexivity|]. cbv zeta. unfold unview. cbn [heap Bench.fresh received_packet sent_packet view].
    set (a := f_fresh w) in *.
    assert (Pi : forall w', w' = set_heap (upd (upd (f_heap w) a (Some p)) a (Some p)) (set_fresh (S a)
       (set_radio (upd (f_radio w) i (mkRadio (r_received (f_radio w i)) (Some a))) w)) ->
       (forall o, o <> Radio i -> ptr w' o = ptr w o) /\ ptr w' (Radio i) = Some a).
    { intros w' ->. split; [|cbn; rewrite upd_same; reflexivity]. intros [| |j] No; cbn; try reflexivity.
      rewrite upd_other; [reflexivity|]. congruence. }
    destruct (Pi _ eq_refl) as [Po Pr].
    assert (Fa : forall o b, ptr w o = Some b -> b <> a).
    { intros o b Pb ->. destruct (ML o a Pb). unfold a in *. lia. }
    split; [|split; [repeat split|split; [|split]]].
    + constructor.
      * intros o b Pb. assert (D : o = Radio i \/ o <> Radio i).
        { destruct o as [| |j]; [right; discriminate|right; discriminate|]. destruct (Nat.eq_dec j i); [left|right]; congruence. }
        destruct D as [->|D].
        -- rewrite Pr in Pb. injection Pb as <-. cbn. rewrite upd_same. split; [lia|eauto].
        -- rewrite (Po o D) in Pb. destruct (ML o b Pb) as (Lb & q & Hb & Sb). cbn. rewrite !upd_other by eauto. split; [lia|eauto].
      * intros o o' b P1 P2.
        assert (D : forall o, o = Radio i \/ o <> Radio i).
        { intros [| |j]; [right; discriminate|right; discriminate|]. destruct (Nat.eq_dec j i); [left|right]; congruence. }
        destruct (D o) as [->|Do], (D o') as [->|Do']; try reflexivity.
        -- rewrite Pr in P1. rewrite (Po _ Do') in P2. injection P1 as <-. destruct (Fa _ _ P2 eq_refl).
        -- rewrite Pr in P2. rewrite (Po _ Do) in P1. injection P2 as <-. destruct (Fa _ _ P1 eq_refl).
        -- rewrite (Po _ Do) in P1. rewrite (Po _ Do') in P2. eauto.
      * intros b Hb. cbn in Hb. destruct (Nat.eq_dec b a) as [->|Nb].
        -- exists (Radio i). exact Pr.
        -- rewrite !upd_other in Hb by exact Nb. destruct (MA b Hb) as [o Pb]. exists o. rewrite Po; [exact Pb|].
           intros ->. cbn in Pb. congruence.
      * intros j Nj. cbn. rewrite upd_other by lia. auto.
    + intros o No. split; [apply Po; exact No|]. unfold cell. rewrite (Po _ No). destruct (ptr w o) as [b|] eqn:Eb; [|reflexivity].
      cbn. rewrite !upd_other by eauto. reflexivity.
    + intros j. cbn. unfold upd. destruct (Nat.eqb_spec j i); subst; reflexivity.
    + unfold cell. rewrite Pr. cbn. apply upd_same.
Qed.

Lemma transmit_ok i out N : (i < N)%nat -> Forall (fun x => sound (rtx_packet x)) out -> forall w, mem N w ->
  exists w', transmit i out w = Ok w' /\ mem N w' /\ same_rest w w' /\
    (forall o, o <> Radio i -> ptr w' o = ptr w o /\ cell w' o = cell w o) /\
    (forall j, r_received (f_radio w' j) = r_received (f_radio w j)) /\
    cell w' (Radio i) = after_out (cell w (Radio i)) out.
Proof.
  intros Ni F. induction F as [|x out Sx F IH]; intros w M.
  - exists w. split; [reflexivity|]. split; [exact M|]. split; [apply same_rest_refl|]. auto.
  - cbn [transmit]. fold (rtx_packet x).
    destruct (sendPacket_view i (rtx_packet x) w N M Ni Sx) as (v & Ev & M1 & R1 & O1 & Rc1 & C1). rewrite Ev. cbn [obind].
    destruct (IH _ M1) as (w' & E & M2 & R2 & O2 & Rc2 & C2). exists w'. split; [exact E|]. split; [exact M2|].
    split; [exact (same_rest_trans _ _ _ R1 R2)|]. split; [|split].
    + intros o No. destruct (O1 o No), (O2 o No). split; congruence.
    + intros j. rewrite Rc2. apply Rc1.
    + rewrite C2, C1. reflexivity.
Qed.

(** ** The nodes *)
Definition nodeok (n : node) : Prop :=
  good n /\ ptype (set_effect_packet n) = 2 /\ dlen (set_effect_packet n) = 3 /\ num_effects n <> 0 /\ num_palettes n <> 0.

Definition inc_sound (inc : option packet) : Prop := forall p, inc = Some p -> sound p.
Lemma inc_sound_ok inc : inc_sound inc -> inc_ok inc.
Proof. destruct inc; cbn; [|auto]. intros H. apply (H p eq_refl). Qed.

Lemma set_id_sound p i : sound p -> 0 <= i < 65536 -> sound (set_id p i).
Proof. intros [W T] I. split; [apply set_id_wf; auto|exact T]. Qed.

Lemma hb_sound e now n : wf_packet (packet_ n) -> sound (hb_packet e now n).
Proof. intros W. split; [apply hb_packet_wf; exact W|]. left. split; reflexivity. Qed.
Lemma claim_sound e n : wf_packet (packet_ n) -> sound (claim_packet e n).
Proof. intros W. split; [apply claim_packet_wf; exact W|]. right; left. split; reflexivity. Qed.
Lemma pick_sound e n i : wf_packet (packet_ n) -> 0 <= i < 65536 -> sound (set_id (pick_packet e n) i).
Proof. intros W I. split; [apply set_id_wf; [apply writeSetEffect_wf; exact W|exact I]|]. right; right. split; reflexivity. Qed.

Lemma tick_nodeok e now n inc out n' : nodeok n -> inc_sound inc -> 0 <= now < 4294967296 ->
  tick e now n inc out n' -> nodeok n' /\ Forall (fun x => sound (rtx_packet x)) out.
Proof.
  intros (G & T2 & L3 & NE & NP) I Hn T.
  pose proof (tick_good _ _ _ _ _ _ G (inc_sound_ok _ I) Hn T) as G'. pose proof G as [].
  assert (SE : sound (set_effect_packet n)) by (split; [assumption|right; right; auto]).
  unfold nodeok. split; [split; [exact G'|]|].
  - destruct T; try (pose proof (I _ (heard_some _ _ _ H)) as So; destruct So as [_ So]);
      cbn -[writeSetEffect] in *; auto; try (unfold HEARTBEAT, CLAIM_MASTER, SET_EFFECT, SET_CONTROL in *; repeat split; auto; lia).
  - destruct T; try (pose proof (I _ (heard_some _ _ _ H)) as So);
      repeat (apply Forall_cons; [cbn [rtx_packet]|]); try apply Forall_nil; auto using hb_sound, claim_sound.
    + apply pick_sound; [assumption|apply id_of_range].
    + apply set_id_sound; [exact SE|apply id_of_range].
Qed.

Lemma nodeok_runs e now n inc : plat e = Host -> nodeok n -> inc_sound inc -> 0 <= now < 4294967296 ->
  exists n' out, RadioTick e now inc n = Ok (tt, n', out) /\ tick e now n inc out n'.
Proof.
  intros Pl (G & T2 & L3 & NE & NP) I Hn.
  destruct (tick_total e now n inc G (inc_sound_ok _ I)) as [H|[[_ A]|[_ A]]]; [exact H| |]; exfalso.
  - destruct A as (p & Hp & _ & A). destruct (I _ (heard_some _ _ _ Hp)) as [_ So].
    unfold HEARTBEAT, CLAIM_MASTER, SET_EFFECT, SET_CONTROL in *. lia.
  - destruct A as (_ & _ & _ & _ & A). apply A. right. auto.
Qed.

(** One call of Tick by value: the node after it, and the radio ticks. *)
Definition machine (e : env) (t : Z) (twice : bool) (inc : option packet) (n : node) : outcome (node * list event) :=
  match RadioTick e (u32 t) inc n with
  | Ok (_, n1, o1) =>
      if twice then
        match RadioTick e (u32 t) inc n1 with
        | Ok (_, n2, o2) => Ok (n2, [mkEv t (OTick inc) n n1 o1; mkEv t (OTick inc) n1 n2 o2])
        | Undef => Undef | Abort => Abort
        end
      else Ok (n1, [mkEv t (OTick inc) n n1 o1])
  | Undef => Undef | Abort => Abort
  end.
Definition outs (evs : list event) : list rtx := concat (map sent evs).

Section Facts.
Variable s : source.

(** Everything else about a reachable network. *)
Record ok (N : nat) (w : fakenet) : Prop := mkOk {
  k_mem : mem N w;
  k_nodes : forall i, (i < N)%nat -> nodeok (f_node w i);
  k_clock : 0 <= f_clock w
}.

(** What radio [i] delivers, when it points to the packet before. *)
Definition inbox_ok (w : fakenet) (i : nat) : Prop :=
  r_received (f_radio w i) = None \/ (r_received (f_radio w i) = f_previous w).
Definition inbox (w : fakenet) (i : nat) : option packet :=
  match r_received (f_radio w i) with None => None | Some a => f_heap w a end.

Lemma inbox_sound N w i : mem N w -> inbox_ok w i -> inc_sound (inbox w i).
Proof.
  intros M [E|E] p P; unfold inbox in P; rewrite E in P; [discriminate|].
  destruct (f_previous w) as [a|] eqn:Ea; [|discriminate].
  destruct (m_live _ _ M Before a Ea) as (_ & q & Hq & Sq). congruence.
Qed.

Lemma read_view N w i : mem N w -> inbox_ok w i -> fr_readPacket (view i w) = Ok (inbox w i).
Proof.
  intros M I. unfold fr_readPacket, inbox. cbn [view received_packet].
  destruct (r_received (f_radio w i)) as [a|] eqn:E; [|reflexivity].
  destruct I as [I|I]; [congruence|]. unfold deref. cbn [heap view].
  destruct (m_live _ _ M Before a ltac:(cbn; congruence)) as (_ & q & Hq & Sq). rewrite Hq. reflexivity.
Qed.

(** A call at node [i] by value. *)
Lemma call_tick N w i inc n' out : ok N w -> (i < N)%nat -> inc_sound inc ->
  RadioTick (env_of s (f_name w i)) (f_millis w) inc (f_node w i) = Ok (tt, n', out) ->
  exists w', call_node s i (OTick inc) w = Ok w' /\ ok N w' /\
    (forall j, f_node w' j = upd (f_node w) i n' j) /\
    f_log w' = f_log w ++ [(f_name w i, mkEv (f_clock w) (OTick inc) (f_node w i) n' out)] /\
    f_ticked w' = f_ticked w /\ f_name w' = f_name w /\ f_born w' = f_born w /\
    f_loss w' = f_loss w /\ f_lost w' = f_lost w /\ f_clock w' = f_clock w /\
    (forall o, o <> Radio i -> ptr w' o = ptr w o /\ cell w' o = cell w o) /\
    (forall j, r_received (f_radio w' j) = r_received (f_radio w j)) /\
    cell w' (Radio i) = after_out (cell w (Radio i)) out.
Proof.
  intros [M NO C] Ni I E. unfold call_node. cbn [step]. rewrite E.
  assert (Hn : 0 <= f_millis w < 4294967296) by (unfold f_millis; apply u32_range).
  pose proof (tick_inv _ _ _ _ _ _ _ (proj1 (NO i Ni)) (inc_sound_ok _ I) E) as T.
  destruct (tick_nodeok _ _ _ _ _ _ (NO i Ni) I Hn T) as [NO' So].
  set (w0 := set_node (upd (f_node w) i n') (set_log _ w)).
  assert (M0 : mem N w0) by (destruct M; constructor; assumption).
  destruct (transmit_ok i out N Ni So w0 M0) as (w' & Et & M' & R & O & Rc & Ce).
  exists w'. split; [exact Et|]. destruct R as (R1 & R2 & R3 & R4 & R5 & R6 & R7 & R8).
  split; [|split; [|split; [|split; [|split; [|split; [|split; [|split; [|split; [|split; [|split]]]]]]]]]];
    try (cbn in *; congruence).
  - constructor; [exact M'| |rewrite R7; exact C].
    intros j Nj. rewrite R1. cbn. unfold upd. destruct (Nat.eqb_spec j i); subst; auto.
  - exact O.
  - exact Ce.
Qed.

Lemma radio_tick_ok N w i : ok N w -> (i < N)%nat -> inbox_ok w i ->
  exists n' out w', RadioTick (env_of s (f_name w i)) (f_millis w) (inbox w i) (f_node w i) = Ok (tt, n', out) /\
    radio_tick s i w = Ok w' /\ ok N w' /\
    (forall j, f_node w' j = upd (f_node w) i n' j) /\
    f_log w' = f_log w ++ [(f_name w i, mkEv (f_clock w) (OTick (inbox w i)) (f_node w i) n' out)] /\
    f_ticked w' = f_ticked w /\ f_name w' = f_name w /\ f_born w' = f_born w /\
    f_loss w' = f_loss w /\ f_lost w' = f_lost w /\ f_clock w' = f_clock w /\
    (forall o, o <> Radio i -> ptr w' o = ptr w o /\ cell w' o = cell w o) /\
    (forall j, r_received (f_radio w' j) = r_received (f_radio w j)) /\
    cell w' (Radio i) = after_out (cell w (Radio i)) out.
Proof.
  intros K Ni I. pose proof (k_mem _ _ K) as M. pose proof (inbox_sound N w i M I) as So.
  assert (Hn : 0 <= f_millis w < 4294967296) by (unfold f_millis; apply u32_range).
  destruct (nodeok_runs (env_of s (f_name w i)) (f_millis w) (f_node w i) (inbox w i) eq_refl (k_nodes _ _ K i Ni) So Hn) as (n' & out & E & T).
  destruct (call_tick N w i (inbox w i) n' out K Ni So E) as (w' & Ew & Rest).
  exists n', out, w'. split; [exact E|]. unfold radio_tick. rewrite (read_view N w i M I). cbn [obind]. rewrite Ew. auto.
Qed.

Lemma inbox_kept w w' i : inbox_ok w i ->
  (forall j, r_received (f_radio w' j) = r_received (f_radio w j)) ->
  ptr w' Before = ptr w Before -> cell w' Before = cell w Before ->
  inbox_ok w' i /\ inbox w' i = inbox w i.
Proof.
  intros I R P C. unfold inbox_ok, inbox. rewrite !R. cbn [ptr] in P. rewrite P. split; [exact I|].
  destruct I as [I|I]; rewrite I; [reflexivity|].
  unfold cell in C. cbn [ptr] in C. rewrite P in C. exact C.
Qed.

(** machine_tick by value. *)
Lemma machine_tick_ok N w i : ok N w -> (i < N)%nat -> inbox_ok w i ->
  exists n' evs w', machine (env_of s (f_name w i)) (f_clock w) (f_ticked w i) (inbox w i) (f_node w i) = Ok (n', evs) /\
    machine_tick s i w = Ok w' /\ ok N w' /\
    (forall j, f_node w' j = upd (f_node w) i n' j) /\
    f_log w' = f_log w ++ map (pair (f_name w i)) evs /\
    (forall j, f_ticked w' j = upd (f_ticked w) i true j) /\ f_name w' = f_name w /\ f_born w' = f_born w /\
    f_loss w' = f_loss w /\ f_lost w' = f_lost w /\ f_clock w' = f_clock w /\
    (forall o, o <> Radio i -> ptr w' o = ptr w o /\ cell w' o = cell w o) /\
    (forall j, r_received (f_radio w' j) = r_received (f_radio w j)) /\
    cell w' (Radio i) = after_out (cell w (Radio i)) (outs evs).
Proof.
  intros K Ni I. unfold machine_tick, machine.
  destruct (radio_tick_ok N w i K Ni I) as (n1 & o1 & w1 & E1 & T1 & K1 & A1 & A2 & A3 & A4 & A5 & A6 & A7 & A8 & A9 & A10 & A11).
  change (u32 (f_clock w)) with (f_millis w). rewrite E1, T1. cbn [obind].
  destruct (f_ticked w i).
  - destruct (A9 Before ltac:(discriminate)) as [Pb Cb].
    destruct (inbox_kept w w1 i I A10 Pb Cb) as [I1 Ib].
    destruct (radio_tick_ok N w1 i K1 Ni I1) as (n2 & o2 & w2 & E2 & T2 & K2 & B1 & B2 & B3 & B4 & B5 & B6 & B7 & B8 & B9 & B10 & B11).
    assert (E2' : RadioTick (env_of s (f_name w i)) (f_millis w) (inbox w i) n1 = Ok (tt, n2, o2)).
    { rewrite <- E2. unfold f_millis. rewrite A4, A8, Ib, A1, upd_same. reflexivity. }
    rewrite E2', T2. cbn [obind]. eexists _, _, _. split; [reflexivity|]. split; [reflexivity|].
    split; [destruct K2 as [[? ? ? ?] ? ?]; constructor; [constructor|..]; assumption|].
    cbn [set_ticked f_node f_log f_ticked f_name f_born f_loss f_lost f_clock].
    split; [|split; [|split; [|split; [|split; [|split; [|split; [|split; [|split; [|split]]]]]]]]]; try congruence.
    + intros j. rewrite B1. unfold upd. rewrite A1. unfold upd. destruct (Nat.eqb j i); reflexivity.
    + rewrite B2, A2, A4, A8, A1, upd_same, Ib, <- app_assoc. reflexivity.
    + intros o No. destruct (A9 o No), (B9 o No). split; [cbn in *; destruct o; cbn in *; congruence|]. unfold cell in *. destruct o; cbn in *; congruence.
    + intros j. exact (eq_trans (B10 j) (A10 j)).
    + transitivity (cell w2 (Radio i)); [reflexivity|]. rewrite B11, A11. unfold outs. cbn [map concat sent]. rewrite app_nil_r, after_out_app. reflexivity.
  - eexists _, _, _. split; [reflexivity|]. split; [reflexivity|].
    split; [destruct K1 as [[? ? ? ?] ? ?]; constructor; [constructor|..]; assumption|].
    cbn [set_ticked f_node f_log f_ticked f_name f_born f_loss f_lost f_clock].
    split; [|split; [|split; [|split; [|split; [|split; [|split; [|split; [|split; [|split]]]]]]]]]; try congruence; auto.
    transitivity (cell w1 (Radio i)); [reflexivity|]. rewrite A11. unfold outs. cbn [map concat sent]. rewrite app_nil_r. reflexivity.
Qed.

Lemma air_none N w : mem N w -> cell w Air = None -> f_packet w = None.
Proof.
  intros M C. destruct (f_packet w) as [a|] eqn:E; [|reflexivity].
  destruct (m_live _ _ M Air a E) as (_ & p & H & _). unfold cell in C. cbn [ptr] in C. rewrite E in C. congruence.
Qed.
Lemma air_some w p : cell w Air = Some p -> exists a, f_packet w = Some a.
Proof. unfold cell. cbn [ptr]. destruct (f_packet w); [eauto|discriminate]. Qed.

Lemma owner_dec (o o' : owner) : {o = o'} + {o <> o'}.
Proof. decide equality. apply Nat.eq_dec. Qed.

(** One node's turn by value. *)
Lemma turn_ok N w i : ok N w -> (i < N)%nat -> inbox_ok w i ->
  exists n' evs w', machine (env_of s (f_name w i)) (f_clock w) (f_ticked w i) (inbox w i) (f_node w i) = Ok (n', evs) /\
    turn s i w = Ok w' /\ ok N w' /\
    (forall j, f_node w' j = upd (f_node w) i n' j) /\
    f_log w' = f_log w ++ map (pair (f_name w i)) evs /\
    (forall j, f_ticked w' j = upd (f_ticked w) i true j) /\ f_name w' = f_name w /\ f_born w' = f_born w /\
    f_loss w' = f_loss w /\ f_lost w' = f_lost w /\ f_clock w' = f_clock w /\
    (forall o, o <> Radio i -> o <> Air -> ptr w' o = ptr w o /\ cell w' o = cell w o) /\
    (forall j, r_received (f_radio w' j) = r_received (f_radio w j)) /\
    let full := after_out (cell w (Radio i)) (outs evs) in
    match cell w Air with
    | Some p => cell w' Air = Some p /\ cell w' (Radio i) = full
    | None => cell w' Air = full /\ cell w' (Radio i) = None
    end.
Proof.
  intros K Ni I. destruct (machine_tick_ok N w i K Ni I)
    as (n' & evs & w1 & E & T & K1 & A1 & A2 & A3 & A4 & A5 & A6 & A7 & A8 & A9 & A10 & A11).
  destruct (A9 Air ltac:(discriminate)) as [Pa Ca]. cbn [ptr] in Pa.
  unfold turn. rewrite T. cbn [obind]. destruct (f_packet w1) as [a|] eqn:Ep.
  - exists n', evs, w1. split; [exact E|]. split; [reflexivity|]. split; [exact K1|].
    repeat (split; [solve [auto]|]). cbv zeta. rewrite <- Ca.
    destruct (m_live _ _ (k_mem _ _ K1) Air a Ep) as (_ & p & H & _).
    assert (C : cell w1 Air = Some p) by (unfold cell; cbn [ptr]; rewrite Ep; exact H).
    rewrite C. auto.
  - cbn [fr_getSentPacket]. eexists n', evs, _. split; [exact E|]. split; [reflexivity|].
    set (w' := set_packet _ _).
    assert (P : forall o, ptr w' o = if owner_dec o Air then ptr w1 (Radio i) else if owner_dec o (Radio i) then None else ptr w1 o).
    { intros o. destruct (owner_dec o Air) as [->|D1]; [reflexivity|]. destruct (owner_dec o (Radio i)) as [->|D2].
      - cbn. rewrite upd_same. reflexivity.
      - destruct o as [| |j]; [congruence|reflexivity|]. cbn. rewrite upd_other by congruence. reflexivity. }
    assert (Hh : f_heap w' = f_heap w1) by reflexivity.
    destruct K1 as [[ML M1 MA MO] NO C].
    split; [|split; [|split; [|split; [|split; [|split; [|split; [|split; [|split; [|split; [|split]]]]]]]]]]; try (cbn; assumption).
    + constructor; [constructor|exact NO|exact C].
      * intros o b. rewrite P, Hh. change (f_fresh w') with (f_fresh w1).
        destruct (owner_dec o Air); [apply ML|]. destruct (owner_dec o (Radio i)); [discriminate|apply ML].
      * intros o o' b. rewrite !P. destruct (owner_dec o Air) as [->|D1], (owner_dec o' Air) as [->|D2]; auto.
        -- destruct (owner_dec o' (Radio i)) as [->|D3]; [discriminate|]. intros Q1 Q2. destruct D3. eauto.
        -- destruct (owner_dec o (Radio i)) as [->|D3]; [discriminate|]. intros Q1 Q2. destruct D3. eauto.
        -- destruct (owner_dec o (Radio i)), (owner_dec o' (Radio i)); try discriminate. apply M1.
      * intros b Hb. rewrite Hh in Hb. destruct (MA b Hb) as [o Po].
        destruct (owner_dec o (Radio i)) as [->|D].
        -- exists Air. rewrite P. destruct (owner_dec Air Air); [exact Po|congruence].
        -- exists o. rewrite P. destruct (owner_dec o Air) as [->|D2]; [cbn in Po; congruence|].
           destruct (owner_dec o (Radio i)); [contradiction|exact Po].
      * intros j Nj. cbn. rewrite upd_other by lia. auto.
    + intros o No Na. unfold cell. rewrite P, Hh. destruct (owner_dec o Air); [contradiction|].
      destruct (owner_dec o (Radio i)); [contradiction|]. apply A9. exact No.
    + intros j. cbn. unfold upd. destruct (Nat.eqb_spec j i) as [->|Nj]; cbn; apply A10.
    + cbv zeta. assert (C0 : cell w Air = None) by (rewrite <- Ca; unfold cell; cbn [ptr]; rewrite Ep; reflexivity).
      rewrite C0. unfold cell. rewrite !P, Hh. destruct (owner_dec Air Air); [|congruence].
      destruct (owner_dec (Radio i) Air); [discriminate|]. destruct (owner_dec (Radio i) (Radio i)); [|congruence].
      split; [|reflexivity]. exact A11.
Qed.

Definition is_some {A} (x : option A) : bool := match x with Some _ => true | None => false end.

Lemma seq_cons from todo : seq from (S todo) = from :: seq (S from) todo.
Proof. reflexivity. Qed.

(** All turns by value. *)
Lemma turns_ok N todo : forall from w, ok N w -> (from + todo <= N)%nat -> (forall i, (from <= i < N)%nat -> inbox_ok w i) ->
  exists evs w', loop todo from (turn s) w = Ok w' /\ ok N w' /\
    (forall i, (from <= i < from + todo)%nat ->
       machine (env_of s (f_name w i)) (f_clock w) (f_ticked w i) (inbox w i) (f_node w i) = Ok (f_node w' i, evs i) /\
       f_ticked w' i = true) /\
    (forall i, ~ (from <= i < from + todo)%nat ->
       f_node w' i = f_node w i /\ f_ticked w' i = f_ticked w i /\ cell w' (Radio i) = cell w (Radio i)) /\
    f_log w' = f_log w ++ flat_map (fun i => map (pair (f_name w i)) (evs i)) (seq from todo) /\
    f_name w' = f_name w /\ f_born w' = f_born w /\
    f_loss w' = f_loss w /\ f_lost w' = f_lost w /\ f_clock w' = f_clock w /\
    (forall j, r_received (f_radio w' j) = r_received (f_radio w j)) /\
    ptr w' Before = ptr w Before /\ cell w' Before = cell w Before /\
    let full i := after_out (cell w (Radio i)) (outs (evs i)) in
    match cell w Air with
    | Some p => cell w' Air = Some p /\ forall i, (from <= i < from + todo)%nat -> cell w' (Radio i) = full i
    | None =>
        match find (fun i => is_some (full i)) (seq from todo) with
        | Some k => cell w' Air = full k /\
            forall i, (from <= i < from + todo)%nat -> cell w' (Radio i) = if Nat.eqb i k then None else full i
        | None => cell w' Air = None /\ forall i, (from <= i < from + todo)%nat -> cell w' (Radio i) = None
        end
    end.
Proof.
  induction todo as [|k IH]; intros from w K L I.
  - exists (fun _ => []), w. cbn [loop seq find flat_map]. rewrite app_nil_r.
    split; [reflexivity|]. split; [exact K|]. split; [intros; lia|]. split; [auto|]. repeat (split; [reflexivity|]).
    cbv zeta. destruct (cell w Air); split; auto; intros; lia.
  - cbn [loop]. destruct (turn_ok N w from K ltac:(lia) (I from ltac:(lia)))
      as (n1 & e1 & w1 & E & T & K1 & A1 & A2 & A3 & A4 & A5 & A6 & A7 & A8 & A9 & A10 & A11).
    rewrite T. cbn [obind].
    destruct (A9 Before ltac:(discriminate) ltac:(discriminate)) as [Pb Cb].
    destruct (IH (S from) w1 K1 ltac:(lia)) as (evs & w2 & E2 & K2 & B1 & B2 & B3 & B4 & B5 & B6 & B7 & B8 & B9 & B10 & B11 & B12).
    { intros i Hi. apply (inbox_kept w w1 i (I i ltac:(lia)) A10 Pb Cb). }
    exists (fun i => if Nat.eqb i from then e1 else evs i), w2.
    split; [exact E2|]. split; [exact K2|]. split; [|split; [|split; [|split; [congruence|split; [congruence|split; [congruence|split; [congruence|split; [congruence|split; [|split; [congruence|split; [congruence|]]]]]]]]]]].
    + intros i Hi. destruct (Nat.eqb_spec i from) as [->|Ne].
      * destruct (B2 from ltac:(lia)) as (C1 & C2 & _). rewrite C1, C2, A1, A3, !upd_same. auto.
      * destruct (B1 i ltac:(lia)) as [C1 C2]. split; [|exact C2]. rewrite <- C1.
        destruct (inbox_kept w w1 i (I i ltac:(lia)) A10 Pb Cb) as [_ Ib].
        rewrite A4, A8, Ib, A1, A3, !upd_other by exact Ne. reflexivity.
    + intros i Hi. destruct (B2 i ltac:(lia)) as (C1 & C2 & C3). rewrite C1, C2, C3, A1, A3, !upd_other by lia.
      split; [reflexivity|]. split; [reflexivity|]. apply A9; [|discriminate]. intros Q; injection Q; lia.
    + rewrite B3, A2. cbn [seq flat_map]. rewrite Nat.eqb_refl, <- app_assoc. f_equal. f_equal.
      rewrite A4. clear. assert (X : forall l, ~ In from l -> flat_map (fun i => map (pair (f_name w i)) (evs i)) l =
        flat_map (fun i => map (pair (f_name w i)) (if Nat.eqb i from then e1 else evs i)) l).
      { induction l as [|x l IHl]; intros Nx; [reflexivity|]. cbn [flat_map].
        destruct (Nat.eqb_spec x from); [subst; destruct Nx; left; reflexivity|]. f_equal. apply IHl. intros Q; apply Nx; right; exact Q. }
      apply X. rewrite in_seq. lia.
    + intros j. rewrite B9. apply A10.
    + cbv zeta in *. 
      assert (O : forall i, i <> from -> cell w1 (Radio i) = cell w (Radio i)).
      { intros i Ne. apply A9; [|discriminate]. intros Q; injection Q; auto. }
      destruct (B2 from ltac:(lia)) as (_ & _ & C3).
      destruct (cell w Air) as [p|] eqn:Ca.
      * destruct A11 as [A11 A12]. rewrite A11 in B12. destruct B12 as [B12 B13]. split; [exact B12|].
        intros i Hi. destruct (Nat.eqb_spec i from) as [->|Ne]; [congruence|]. rewrite B13, O by lia. reflexivity.
      * destruct A11 as [A11 A12]. cbn [seq find]. rewrite Nat.eqb_refl.
        destruct (after_out (cell w (Radio from)) (outs e1)) as [p|] eqn:Fp; cbn [is_some].
        -- rewrite A11 in B12. destruct B12 as [B12 B13]. rewrite Nat.eqb_refl, Fp. split; [exact B12|].
           intros i Hi. destruct (Nat.eqb_spec i from) as [->|Ne]; [congruence|]. rewrite B13, O by lia. reflexivity.
        -- rewrite A11 in B12.
           assert (X : forall l, ~ In from l ->
              find (fun i => is_some (after_out (cell w (Radio i)) (outs (if Nat.eqb i from then e1 else evs i)))) l =
              find (fun i => is_some (after_out (cell w1 (Radio i)) (outs (evs i)))) l).
           { induction l as [|x l IHl]; intros Nx; [reflexivity|]. cbn [find].
             destruct (Nat.eqb_spec x from); [subst; destruct Nx; left; reflexivity|]. rewrite O by assumption.
             rewrite IHl by (intros Q; apply Nx; right; exact Q). reflexivity. }
           rewrite X by (rewrite in_seq; lia).
           destruct (find _ (seq (S from) k)) as [x|] eqn:Fx.
           ++ apply find_some in Fx. destruct Fx as [Fx _]. apply in_seq in Fx.
              destruct B12 as [B12 B13]. destruct (Nat.eqb_spec x from); [lia|]. rewrite O in B12 by assumption. split; [exact B12|].
              intros i Hi. destruct (Nat.eqb_spec i from) as [->|Ne].
              ** destruct (Nat.eqb_spec from x); congruence.
              ** rewrite B13, O by lia. reflexivity.
           ++ destruct B12 as [B12 B13]. split; [exact B12|].
              intros i Hi. destruct (Nat.eq_dec i from) as [->|Ne]; [congruence|]. apply B13. lia.
Qed.

(** What a radio makes of a packet it is given: everything behind the data is
    zero. *)
Definition zero_tail (p : packet) : packet :=
  mkPacket (pid p) (ptype p) (dlen p) (firstn (Z.to_nat (dlen p)) (pdata p) ++ repeat 0 (58 - Z.to_nat (dlen p))).

Lemma sound_len p : sound p -> 0 <= dlen p <= 4 /\ length (pdata p) = 58%nat.
Proof. intros [W T]. destruct W as (_ & _ & _ & L & _). split; [lia|exact L]. Qed.

Lemma zero_tail_length p : sound p -> length (pdata (zero_tail p)) = 58%nat.
Proof. intros So. destruct (sound_len p So) as [D L]. unfold zero_tail. cbn [pdata]. rewrite app_length, firstn_length, repeat_length. lia. Qed.

Lemma zero_tail_sound p : sound p -> sound (zero_tail p).
Proof.
  intros So. pose proof (zero_tail_length p So) as Lz. destruct So as [(A & B & C & L & F) T]. split; [|exact T].
  split; [exact A|]. split; [exact B|]. split; [exact C|]. split; [exact Lz|]. unfold zero_tail. cbn [pdata]. apply Forall_app. split.
  - rewrite Forall_forall in *. intros x I. apply F. rewrite <- (firstn_skipn (Z.to_nat (dlen p)) (pdata p)). apply in_or_app. left. exact I.
  - rewrite Forall_forall. intros x I. apply repeat_spec in I. subst. unfold is_byte. lia.
Qed.

Lemma zero_tail_nth p j : sound p ->
  nth j (pdata (zero_tail p)) 0 = if Z.of_nat j <? dlen p then nth j (pdata p) 0 else 0.
Proof.
  intros So. destruct (sound_len p So) as [D L]. unfold zero_tail. cbn [pdata]. destruct (Z.ltb_spec (Z.of_nat j) (dlen p)).
  - rewrite app_nth1 by (rewrite firstn_length; lia). rewrite <- (firstn_skipn (Z.to_nat (dlen p)) (pdata p)) at 2.
    rewrite app_nth1 by (rewrite firstn_length; lia). reflexivity.
  - rewrite app_nth2 by (rewrite firstn_length; lia). apply nth_repeat.
Qed.

Lemma zero_tail_idem p : sound p -> zero_tail (zero_tail p) = zero_tail p.
Proof.
  intros So.
  assert (E : forall a b, pid a = pid b -> ptype a = ptype b -> dlen a = dlen b -> pdata a = pdata b -> a = b).
  { intros [] []. cbn. intros; subst; reflexivity. }
  apply E; try reflexivity. apply nth_ext with (d := 0) (d' := 0).
  - exact (eq_trans (zero_tail_length _ (zero_tail_sound _ So)) (eq_sym (zero_tail_length _ So))).
  - intros j _. change (nth j (pdata (zero_tail (zero_tail p))) 0 = nth j (pdata (zero_tail p)) 0).
    rewrite (zero_tail_nth (zero_tail p)) by (apply zero_tail_sound; exact So). rewrite zero_tail_nth by exact So.
    cbn [dlen zero_tail]. destruct (_ <? _); reflexivity.
Qed.

Lemma clear_zero_tail p : sound p ->
  clear_from (Z.to_nat (58 - dlen p)) (dlen p) (pdata p) = Ok (pdata (zero_tail p)).
Proof.
  intros So. destruct (sound_len p So) as [D L].
  destruct (clear_ok (Z.to_nat (58 - dlen p)) (dlen p) (pdata p)) as (d & E & Ld & Nd); [lia|lia|].
  rewrite E. f_equal. apply nth_ext with (d := 0) (d' := 0).
  - rewrite Ld, zero_tail_length by exact So. exact L.
  - intros j _. rewrite Nd, zero_tail_nth by exact So. reflexivity.
Qed.

(** Does radio number [k] of a round get the packet? *)
Definition keeps (loss : Z) (lost k : nat) : bool :=
  (loss =? 0) || negb (Z.of_N (s_loss s (lost + k)) mod Z.abs loss =? 0).

Definition same_but_air (w w' : fakenet) : Prop :=
  f_node w' = f_node w /\ f_ticked w' = f_ticked w /\ f_name w' = f_name w /\ f_born w' = f_born w /\
  f_loss w' = f_loss w /\ f_clock w' = f_clock w /\ f_log w' = f_log w /\
  (forall o, ptr w' o = ptr w o) /\ (forall o, o <> Air -> cell w' o = cell w o).

Lemma setReceived_view N w i b : ok N w ->
  exists v, fr_setReceivedPacket (if b : bool then f_packet w else None) (view i w) = Ok v /\
    let w' := unview i v w in
    ok N w' /\ same_but_air w w' /\ f_lost w' = f_lost w /\
    (forall j, r_received (f_radio w' j) = if Nat.eqb j i then if b then f_packet w else None else r_received (f_radio w j)) /\
    cell w' Air = if b then option_map zero_tail (cell w Air) else cell w Air.
Proof.
  intros K. pose proof (k_mem _ _ K) as M. unfold fr_setReceivedPacket. cbv zeta.
  destruct (if b then f_packet w else None) as [a|] eqn:E.
  - destruct b; [|discriminate]. cbn [view heap Bench.fresh received_packet sent_packet].
    destruct (m_live _ _ M Air a E) as (La & p & Hp & So). unfold deref. cbn [heap]. rewrite Hp. cbn [obind].
    change PACKET_DATA_LENGTH with 58. rewrite clear_zero_tail by exact So. cbn [obind]. unfold assign. cbn [heap]. rewrite Hp.
    eexists. split; [reflexivity|]. cbv zeta. unfold unview. cbn [heap Bench.fresh received_packet sent_packet].
    set (w' := set_heap _ _).
    assert (P : forall o, ptr w' o = ptr w o).
    { intros [| |j]; cbn; try reflexivity. unfold upd. destruct (Nat.eqb_spec j i); subst; reflexivity. }
    assert (H : f_heap w' = upd (f_heap w) a (Some (zero_tail p))) by reflexivity.
    destruct K as [[ML M1 MA MO] NO C].
    split; [|split; [|split; [reflexivity|split]]].
    + constructor; [constructor|exact NO|exact C].
      * intros o c. rewrite P, H. intros Pc. change (f_fresh w') with (f_fresh w). destruct (Nat.eq_dec c a) as [->|Nc].
        -- rewrite upd_same. split; [exact La|]. eexists; split; [reflexivity|]. apply zero_tail_sound; exact So.
        -- rewrite upd_other by exact Nc. apply (ML o). exact Pc.
      * intros o o' c. rewrite !P. apply M1.
      * intros c Hc. rewrite H in Hc. destruct (Nat.eq_dec c a) as [->|Nc].
        -- exists Air. rewrite P. exact E.
        -- rewrite upd_other in Hc by exact Nc. destruct (MA c Hc) as [o Po]. exists o. rewrite P. exact Po.
      * intros j Nj. change (ptr w' (Radio j) = None). rewrite P. apply MO. exact Nj.
    + repeat (split; [reflexivity|]). split; [exact P|]. intros o No. unfold cell. rewrite P, H.
      destruct (ptr w o) as [c|] eqn:Pc; [|reflexivity]. apply upd_other. intros ->. apply No. eapply M1; [exact Pc|exact E].
    + intros j. cbn. unfold upd. destruct (Nat.eqb_spec j i); subst; cbn; [first [reflexivity|symmetry; exact E]|reflexivity].
    + unfold cell. rewrite P, H. cbn [ptr]. rewrite E, upd_same, Hp. reflexivity.
  - eexists. split; [reflexivity|]. cbv zeta. unfold unview. cbn [view heap Bench.fresh received_packet sent_packet].
    set (w' := set_heap _ _).
    assert (P : forall o, ptr w' o = ptr w o).
    { intros [| |j]; cbn; try reflexivity. unfold upd. destruct (Nat.eqb_spec j i); subst; reflexivity. }
    assert (H : f_heap w' = f_heap w) by reflexivity.
    destruct K as [[ML M1 MA MO] NO C].
    split; [|split; [|split; [reflexivity|split]]].
    + constructor; [constructor|exact NO|exact C].
      * intros o c. rewrite P, H. apply (ML o).
      * intros o o' c. rewrite !P. apply M1.
      * intros c Hc. rewrite H in Hc. destruct (MA c Hc) as [o Po]. exists o. rewrite P. exact Po.
      * intros j Nj. change (ptr w' (Radio j) = None). rewrite P. apply MO. exact Nj.
    + repeat (split; [reflexivity|]). split; [exact P|]. intros o No. unfold cell. rewrite P, H. reflexivity.
    + intros j. cbn. unfold upd. destruct (Nat.eqb_spec j i); subst; cbn; [|reflexivity].
      destruct b; first [reflexivity|symmetry; exact E].
    + unfold cell. rewrite P, H. cbn [ptr]. destruct b; [|reflexivity]. rewrite E. reflexivity.
Qed.

Lemma cell_air_sound N w p : mem N w -> cell w Air = Some p -> sound p.
Proof.
  intros M C. unfold cell in C. cbn [ptr] in C. destruct (f_packet w) as [a|] eqn:E; [|discriminate].
  destruct (m_live _ _ M Air a E) as (_ & q & Hq & Sq). congruence.
Qed.

Lemma same_but_air_trans a b c : same_but_air a b -> same_but_air b c -> same_but_air a c.
Proof.
  unfold same_but_air. intros (A1 & A2 & A3 & A4 & A5 & A6 & A7 & A8 & A9) (B1 & B2 & B3 & B4 & B5 & B6 & B7 & B8 & B9).
  do 7 (split; [congruence|]). split; [intros o; rewrite B8; apply A8|]. intros o No. rewrite B9, A9 by exact No. reflexivity.
Qed.

(** All deliveries by value. *)
Lemma delivers_ok N todo : forall from w, ok N w ->
  exists w', loop todo from (deliver s) w = Ok w' /\ ok N w' /\ same_but_air w w' /\
    f_lost w' = (if f_loss w =? 0 then f_lost w else (f_lost w + todo)%nat) /\
    (forall j, r_received (f_radio w' j) =
       if (from <=? j)%nat && (j <? from + todo)%nat
       then if keeps (f_loss w) (f_lost w) (j - from) then f_packet w else None
       else r_received (f_radio w j)) /\
    (cell w' Air = cell w Air \/ cell w' Air = option_map zero_tail (cell w Air)) /\
    (forall k, (k < todo)%nat -> keeps (f_loss w) (f_lost w) k = true -> cell w' Air = option_map zero_tail (cell w Air)).
Proof.
  induction todo as [|k IH]; intros from w K.
  - exists w. cbn [loop]. split; [reflexivity|]. split; [exact K|]. split; [repeat split|].
    split; [destruct (_ =? _); lia|]. split; [|split; [auto|intros; lia]].
    intros j. replace ((from <=? j)%nat && (j <? from + 0)%nat) with false by lia. reflexivity.
  - cbn [loop]. unfold deliver at 1. cbv zeta.
    set (b := (f_loss w =? 0) || negb (Z.of_N (s_loss s (f_lost w)) mod Z.abs (f_loss w) =? 0)).
    set (w0 := if f_loss w =? 0 then w else set_lost (S (f_lost w)) w).
    assert (K0 : ok N w0) by (unfold w0; destruct (_ =? _); [exact K|]; destruct K as [[? ? ? ?] ? ?]; constructor; [constructor|..]; assumption).
    assert (F0 : f_packet w0 = f_packet w /\ f_loss w0 = f_loss w /\ same_but_air w w0 /\ cell w0 Air = cell w Air /\
                 f_radio w0 = f_radio w /\ f_lost w0 = if f_loss w =? 0 then f_lost w else S (f_lost w)).
    { unfold w0, same_but_air. destruct (_ =? _); repeat split. }
    destruct F0 as (F1 & F2 & F3 & F4 & F5 & F6).
    destruct (setReceived_view N w0 from b K0) as (v & Ev & K1 & S1 & L1 & R1 & C1). rewrite F1 in Ev. cbn [obind].
    fold w0. rewrite F1. rewrite Ev. cbn [obind].
    set (w1 := unview from v w0) in *.
    destruct (IH (S from) w1 K1) as (w2 & E2 & K2 & S2 & L2 & R2 & C2 & C3).
    exists w2. split; [exact E2|]. split; [exact K2|].
    pose proof S1 as (Q1 & Q2 & Q3 & Q4 & Q5 & Q6 & Q7 & Q8 & Q9).
    assert (Keep : forall j, keeps (f_loss w1) (f_lost w1) j = keeps (f_loss w) (f_lost w) (S j)).
    { intros j. unfold keeps. rewrite Q5, F2, L1, F6. destruct (f_loss w =? 0); [reflexivity|]. cbn [orb].
      replace (S (f_lost w) + j)%nat with (f_lost w + S j)%nat by lia. reflexivity. }
    assert (Keep0 : keeps (f_loss w) (f_lost w) 0 = b) by (unfold keeps, b; rewrite Nat.add_0_r; reflexivity).
    assert (Pk : f_packet w1 = f_packet w) by (specialize (Q8 Air); cbn [ptr] in Q8; congruence).
    assert (Z2 : forall c, cell w Air = Some c -> sound c) by (intros c; apply (cell_air_sound N), K).
    split; [eapply same_but_air_trans; [eapply same_but_air_trans; [exact F3|exact S1]|exact S2]|].
    split; [rewrite L2, Q5, F2, L1, F6; destruct (f_loss w =? 0); lia|].
    split; [|split].
    + intros j. rewrite R2, R1, F1, F5, Pk. destruct (Nat.eqb_spec j from) as [->|Ne].
      * replace ((S from <=? from)%nat && (from <? S from + k)%nat) with false by lia.
        replace ((from <=? from)%nat && (from <? from + S k)%nat) with true by lia. rewrite Nat.sub_diag, Keep0. reflexivity.
      * destruct ((from <=? j)%nat && (j <? from + S k)%nat) eqn:Ej.
        -- replace ((S from <=? j)%nat && (j <? S from + k)%nat) with true by lia. rewrite Keep.
           replace (S (j - S from)) with (j - from)%nat by lia. reflexivity.
        -- replace ((S from <=? j)%nat && (j <? S from + k)%nat) with false by lia. reflexivity.
    + rewrite C1, F4 in C2. destruct b; [right|destruct C2; auto].
      destruct C2 as [C2|C2]; rewrite C2; [reflexivity|]. destruct (cell w Air) as [c|]; [|reflexivity]. cbn. f_equal.
      apply zero_tail_idem, Z2. reflexivity.
    + intros j Hj Kj. destruct j as [|j].
      * rewrite Keep0 in Kj. rewrite Kj, F4 in C1. rewrite C1 in C2. destruct C2 as [C2|C2]; rewrite C2; [reflexivity|].
        destruct (cell w Air) as [c|]; [|reflexivity]. cbn. f_equal. apply zero_tail_idem, Z2. reflexivity.
      * rewrite <- Keep in Kj. specialize (C3 j ltac:(lia) Kj). rewrite C3, C1, F4. destruct b; [|reflexivity].
        destruct (cell w Air) as [c|]; [|reflexivity]. cbn. f_equal. apply zero_tail_idem, Z2. reflexivity.
Qed.

(** What node [i] receives in a round. *)
Definition receives (w : fakenet) (i : nat) : option packet :=
  if keeps (f_loss w) (f_lost w) i then option_map zero_tail (cell w Air) else None.

(** ** A whole round by value *)
Lemma FakeTick_ok N w : ok N w ->
  exists evs w', FakeTick s N w = Ok w' /\ ok N w' /\
    (forall i, (i < N)%nat ->
       machine (env_of s (f_name w i)) (f_clock w) (f_ticked w i) (receives w i) (f_node w i) = Ok (f_node w' i, evs i) /\
       f_ticked w' i = true) /\
    f_log w' = f_log w ++ flat_map (fun i => map (pair (f_name w i)) (evs i)) (seq 0 N) /\
    f_name w' = f_name w /\ f_born w' = f_born w /\
    f_loss w' = f_loss w /\ f_lost w' = (if f_loss w =? 0 then f_lost w else (f_lost w + N)%nat) /\ f_clock w' = f_clock w /\
    let full i := after_out (cell w (Radio i)) (outs (evs i)) in
    match find (fun i => is_some (full i)) (seq 0 N) with
    | Some k => cell w' Air = full k /\
        forall i, (i < N)%nat -> cell w' (Radio i) = if Nat.eqb i k then None else full i
    | None => cell w' Air = None /\ forall i, (i < N)%nat -> cell w' (Radio i) = None
    end.
Proof.
  intros K. destruct (delivers_ok N N 0 w K) as (w1 & E1 & K1 & S1 & L1 & R1 & C1 & C2).
  destruct S1 as (Q1 & Q2 & Q3 & Q4 & Q5 & Q6 & Q7 & Q8 & Q9).
  unfold FakeTick. rewrite E1. cbn [obind].
  assert (Fr : exists w2, free (f_previous w1) w1 = Ok w2 /\ w2 = set_heap (f_heap w2) w1 /\
     (forall b, f_heap w2 b = if match f_previous w1 with Some a => Nat.eqb b a | None => false end then None else f_heap w1 b)).
  { unfold free. destruct (f_previous w1) as [a|] eqn:Ea.
    - destruct (m_live _ _ (k_mem _ _ K1) Before a Ea) as (_ & p & Hp & _). rewrite Hp. eexists. split; [reflexivity|].
      split; [reflexivity|]. intros b. cbn. unfold upd. reflexivity.
    - exists w1. split; [reflexivity|]. split; [destruct w1; reflexivity|]. reflexivity. }
  destruct Fr as (w2 & E2 & W2 & H2). rewrite E2. cbn [obind].
  set (w3 := set_packet None (set_previous (f_packet w2) w2)).
  assert (P3 : forall o, ptr w3 o = match o with Air => None | Before => f_packet w1 | Radio i => ptr w1 (Radio i) end).
  { intros o. unfold w3. rewrite W2. destruct o; reflexivity. }
  assert (H3 : f_heap w3 = f_heap w2) by reflexivity.
  assert (Live : forall o a, ptr w3 o = Some a -> f_heap w3 a = f_heap w1 a).
  { intros o a Po. rewrite H3, H2. rewrite P3 in Po. destruct (f_previous w1) as [b|] eqn:Eb; [|reflexivity].
    destruct (Nat.eqb_spec a b) as [->|Ne]; [|reflexivity]. exfalso.
    destruct o as [| |i]; [discriminate| |].
    - pose proof (m_one _ _ (k_mem _ _ K1) Air Before b Po Eb). discriminate.
    - pose proof (m_one _ _ (k_mem _ _ K1) (Radio i) Before b Po Eb). discriminate. }
  assert (K3 : ok N w3).
  { destruct K1 as [[ML M1 MA MO] NO C]. constructor; [constructor|..].
    - intros o a Po. rewrite (Live o a Po). rewrite P3 in Po.
      assert (Fs : f_fresh w3 = f_fresh w1) by (unfold w3; rewrite W2; reflexivity). rewrite Fs.
      destruct o as [| |i]; [discriminate|apply (ML Air); exact Po|apply (ML (Radio i)); exact Po].
    - intros o o' a. rewrite !P3. destruct o as [| |i], o' as [| |j]; try discriminate; auto; intros X Y.
      + pose proof (M1 Air (Radio j) a X Y). discriminate.
      + pose proof (M1 (Radio i) Air a X Y). discriminate.
      + pose proof (M1 (Radio i) (Radio j) a X Y). exact H.
    - intros a Ha. rewrite H3, H2 in Ha. destruct (f_previous w1) as [b|] eqn:Eb.
      + destruct (Nat.eqb_spec a b) as [Eab|Ne]; [congruence|]. destruct (MA a Ha) as [o Po].
        destruct o as [| |i]; [exists Before|cbn in Po; congruence|exists (Radio i)]; rewrite P3; exact Po.
      + destruct (MA a Ha) as [o Po]. destruct o as [| |i]; [exists Before|cbn in Po; congruence|exists (Radio i)]; rewrite P3; exact Po.
    - intros i Ni. pose proof (P3 (Radio i)) as Pi. cbn [ptr] in Pi. rewrite Pi. apply MO. exact Ni.
    - intros i Ni. unfold w3. rewrite W2. apply NO. exact Ni.
    - unfold w3. rewrite W2. exact C. }
  assert (Rc : forall j, r_received (f_radio w3 j) = r_received (f_radio w1 j)) by (intros j; unfold w3; rewrite W2; reflexivity).
  assert (Ib : forall i, (i < N)%nat -> inbox_ok w3 i /\ inbox w3 i = receives w i).
  { intros i Ni. unfold inbox_ok, inbox, receives. pose proof (P3 Before) as Pb. cbn [ptr] in Pb. rewrite Pb, Rc, R1.
    replace ((0 <=? i)%nat && (i <? 0 + N)%nat) with true by lia. rewrite Nat.sub_0_r.
    pose proof (Q8 Air) as Q8a. cbn [ptr] in Q8a. rewrite Q8a.
    destruct (keeps (f_loss w) (f_lost w) i) eqn:Ki; [|split; [left; reflexivity|reflexivity]].
    split; [right; reflexivity|]. specialize (C2 i Ni Ki). rewrite <- C2. unfold cell. cbn [ptr]. rewrite Q8a.
    destruct (f_packet w) as [a|] eqn:Ea; [|reflexivity]. apply (Live Before). rewrite P3. rewrite Q8a. reflexivity. }
  destruct (turns_ok N N 0 w3 K3 ltac:(lia)) as (evs & w4 & E4 & K4 & B1 & B2 & B3 & B4 & B5 & B6 & B7 & B8 & B9 & B10 & B11 & B12).
  { intros i Hi. apply Ib. lia. }
  assert (G : f_node w3 = f_node w /\ f_ticked w3 = f_ticked w /\ f_name w3 = f_name w /\ f_born w3 = f_born w /\ f_loss w3 = f_loss w /\
              f_clock w3 = f_clock w /\ f_log w3 = f_log w /\ f_lost w3 = f_lost w1).
  { unfold w3. rewrite W2. cbn. auto 10. }
  destruct G as (G1 & G2 & G3 & G4 & G5 & G6 & G7 & G8).
  assert (Ce : forall i, cell w3 (Radio i) = cell w (Radio i)).
  { intros i. rewrite <- (Q9 (Radio i)) by discriminate. unfold cell. rewrite P3. destruct (ptr w1 (Radio i)) as [a|] eqn:Ei; [|reflexivity].
    apply (Live (Radio i)). rewrite P3. exact Ei. }
  exists evs, w4. split; [exact E4|]. split; [exact K4|]. split; [|split; [|split; [|split; [|split; [|split; [|split]]]]]]; try congruence.
  - intros i Ni. destruct (B1 i ltac:(lia)) as [D1 D2]. split; [|exact D2]. destruct (Ib i Ni) as [_ I2].
    rewrite <- D1, G3, G6, G2, I2, G1. reflexivity.
  - rewrite B3, G7, G3. reflexivity.
  - cbv zeta in *. assert (A3 : cell w3 Air = None) by (unfold cell; rewrite P3; reflexivity). rewrite A3 in B12.
    assert (X : forall l, find (fun i => is_some (after_out (cell w3 (Radio i)) (outs (evs i)))) l =
                          find (fun i => is_some (after_out (cell w (Radio i)) (outs (evs i)))) l).
    { induction l as [|x l IHl]; [reflexivity|]. cbn [find]. rewrite Ce, IHl. reflexivity. }
    rewrite X in B12. destruct (find _ (seq 0 N)) as [k|]; destruct B12 as [B12 B13].
    + rewrite Ce in B12. split; [exact B12|]. intros i Ni. rewrite B13, Ce by lia. reflexivity.
    + split; [exact B12|]. intros i Ni. apply B13. lia.
Qed.

(** ** Making a node *)
Definition junk_ok : Prop := forall k, let '(ty1, ty2, d1, d2) := s_junk s k in
  wf_packet (mkPacket 0 ty1 0 d1) /\ wf_packet (mkPacket 0 ty2 0 d2).

(** A state machine right after it was constructed at time [t] and told the
    numbers of effects and palettes. *)
Definition bare (k : nat) (t : Z) : node :=
  let '(ty1, ty2, d1, d2) := s_junk s k in
  mkNode nm_init Slave Slave (u32 (u32 t + (5000 + Z.of_N (s_draw s k 0%nat) mod 2000))) 0 0 0 0 0 1 1
    (mkPacket 0 ty1 0 d1) (writeSetEffect 1 0 0 (mkPacket 0 ty2 0 d2)) false 1%nat.
Definition powered (k : nat) (t : Z) : node := with_num_palettes 22 (with_num_effects 27 (bare k t)).
Definition birth (k : nat) (t : Z) : list event :=
  [mkEv t (OSetNumEffects 27) (bare k t) (with_num_effects 27 (bare k t)) [];
   mkEv t (OSetNumPalettes 22) (with_num_effects 27 (bare k t)) (powered k t) []].

Lemma birth_hist k t : junk_ok -> 0 <= t -> hist (env_of s k) t (birth k t) (powered k t).
Proof.
  intros J Ht. specialize (J k). unfold birth.
  assert (H0 : hist (env_of s k) t [] (bare k t)).
  { unfold bare. destruct (s_junk s k) as [[[ty1 ty2] d1] d2]. destruct J as [J1 J2].
    apply (hist_start _ _ ty1 ty2 d1 d2); [exact Ht|exact J1|exact J2|]. rewrite construct_eq. reflexivity. }
  change [mkEv t (OSetNumEffects 27) (bare k t) (with_num_effects 27 (bare k t)) [];
          mkEv t (OSetNumPalettes 22) (with_num_effects 27 (bare k t)) (powered k t) []] with
    (([] ++ [mkEv t (OSetNumEffects 27) (bare k t) (with_num_effects 27 (bare k t)) []]) ++
       [mkEv t (OSetNumPalettes 22) (with_num_effects 27 (bare k t)) (powered k t) []]).
  apply hist_step; [|lia| |exact I|reflexivity].
  - apply hist_step; [exact H0|lia|intros ? []|exact I|reflexivity].
  - intros ev [<-|[]]. cbn. lia.
Qed.

Lemma powered_ok k t : junk_ok -> 0 <= t -> nodeok (powered k t).
Proof.
  intros J Ht. pose proof (hist_good _ _ _ _ (birth_hist k t J Ht)) as G. split; [exact G|].
  unfold powered, bare. destruct (s_junk s k) as [[[ty1 ty2] d1] d2]. cbn. repeat split; discriminate.
Qed.

Lemma new_node_ok N w i : junk_ok -> mem N w -> (i < N)%nat -> (forall j, (j < N)%nat -> j <> i -> nodeok (f_node w j)) ->
  0 <= f_clock w ->
  exists w', new_node s i w = Ok w' /\ ok N w' /\
    (forall j, f_node w' j = upd (f_node w) i (powered (f_born w) (f_clock w)) j) /\
    (forall j, f_ticked w' j = upd (f_ticked w) i false j) /\
    f_name w' = upd (f_name w) i (f_born w) /\ f_born w' = S (f_born w) /\
    f_log w' = f_log w ++ map (pair (f_born w)) (birth (f_born w) (f_clock w)) /\
    f_loss w' = f_loss w /\ f_lost w' = f_lost w /\ f_clock w' = f_clock w /\
    (forall o, ptr w' o = ptr w o /\ cell w' o = cell w o) /\
    (forall j, r_received (f_radio w' j) = r_received (f_radio w j)).
Proof.
  intros J M Ni Other C. unfold new_node. cbv zeta.
  assert (B : exists ty1 ty2 d1 d2, s_junk s (f_born w) = (ty1, ty2, d1, d2)).
  { destruct (s_junk s (f_born w)) as [[[ty1 ty2] d1] d2]. eauto. }
  destruct B as (ty1 & ty2 & d1 & d2 & B). rewrite B. rewrite construct_eq. cbn [obind].
  assert (Bare : mkNode nm_init Slave Slave (u32 (f_millis w + (5000 + Z.of_N (draw (env_of s (f_born w)) 0%nat) mod 2000))) 0 0 0 0 0 1 1
        (mkPacket 0 ty1 0 d1) (writeSetEffect 1 0 0 (mkPacket 0 ty2 0 d2)) false 1%nat = bare (f_born w) (f_clock w)).
  { unfold bare. rewrite B. reflexivity. }
  rewrite Bare. rewrite LedManager_eval. cbn [obind].
  change (announced_effects (built (builtin (s_offsets s (f_born w))))) with 27.
  change announced_palettes with 22.
  set (wa := set_node _ _).
  assert (Ea : call_node s i (OSetNumEffects 27) wa =
     Ok (set_node (upd (f_node wa) i (with_num_effects 27 (f_node wa i)))
           (set_log (f_log wa ++ [(f_name wa i, mkEv (f_clock wa) (OSetNumEffects 27) (f_node wa i) (with_num_effects 27 (f_node wa i)) [])]) wa))) by reflexivity.
  rewrite Ea. cbn [obind]. set (wb := set_node _ (set_log _ wa)).
  assert (Eb : call_node s i (OSetNumPalettes 22) wb =
     Ok (set_node (upd (f_node wb) i (with_num_palettes 22 (f_node wb i)))
           (set_log (f_log wb ++ [(f_name wb i, mkEv (f_clock wb) (OSetNumPalettes 22) (f_node wb i) (with_num_palettes 22 (f_node wb i)) [])]) wb))) by reflexivity.
  rewrite Eb. set (w' := set_node _ (set_log _ wb)).
  assert (Na : f_node wa i = bare (f_born w) (f_clock w)) by (cbn; apply upd_same).
  assert (Nb : f_node wb i = with_num_effects 27 (bare (f_born w) (f_clock w))).
  { unfold wb. cbn [f_node set_node]. rewrite upd_same, Na. reflexivity. }
  assert (Nn : forall j, f_node w' j = upd (f_node w) i (powered (f_born w) (f_clock w)) j).
  { intros j. unfold w'. cbn [f_node set_node]. rewrite Nb. unfold wb, wa. cbn [f_node set_node]. unfold upd, powered.
    destruct (Nat.eqb_spec j i); reflexivity. }
  assert (Nm : f_name w' = upd (f_name w) i (f_born w)) by reflexivity.
  exists w'. split; [reflexivity|]. split; [|split; [exact Nn|split; [reflexivity|split; [reflexivity|split; [reflexivity|split]]]]].
  - constructor; [|intros j Nj; rewrite Nn|exact C].
    + destruct M as [ML M1 MA MO]. constructor; assumption.
    + unfold upd. destruct (Nat.eqb_spec j i); [apply powered_ok; assumption|apply Other; assumption].
  - unfold w'. cbn [f_log set_node set_log]. rewrite Nb. unfold wb at 1. cbn [f_log set_node set_log]. rewrite Na.
    change (f_name wa i) with (upd (f_name w) i (f_born w) i). change (f_name wb i) with (upd (f_name w) i (f_born w) i). rewrite upd_same.
    change (f_log wa) with (f_log w). change (f_clock wa) with (f_clock w). change (f_clock wb) with (f_clock w).
    rewrite <- app_assoc. reflexivity.
  - repeat split.
Qed.

(** ** The record of calls is a history of every state machine *)
Definition calls_of (k : nat) (log : list (nat * event)) : list event :=
  map snd (filter (fun x => Nat.eqb (fst x) k) log).

Lemma calls_of_app k a b : calls_of k (a ++ b) = calls_of k a ++ calls_of k b.
Proof. unfold calls_of. rewrite filter_app, map_app. reflexivity. Qed.
Lemma calls_of_pair k j evs : calls_of k (map (pair j) evs) = if Nat.eqb j k then evs else [].
Proof.
  unfold calls_of. induction evs as [|x evs IH]; [destruct (_ =? _)%nat; reflexivity|]. cbn [map filter fst].
  destruct (Nat.eqb j k) eqn:E; cbn [map snd]; rewrite IH; reflexivity.
Qed.

Record traced (N : nat) (w : fakenet) : Prop := mkTraced {
  t_names : forall i, (i < N)%nat -> (f_name w i < f_born w)%nat;
  t_inj : forall i j, (i < N)%nat -> (j < N)%nat -> f_name w i = f_name w j -> i = j;
  t_hist : forall k, (k < f_born w)%nat -> exists t0 n, 0 <= t0 <= f_clock w /\
     (exists ev rest, calls_of k (f_log w) = ev :: rest /\ at_ ev = t0) /\
     hist (env_of s k) t0 (calls_of k (f_log w)) n /\ forall i, (i < N)%nat -> f_name w i = k -> n = f_node w i;
  t_new : forall k, (f_born w <= k)%nat -> calls_of k (f_log w) = [];
  t_late : forall x, In x (f_log w) -> at_ (snd x) <= f_clock w;
  t_api : forall x p, In x (f_log w) -> call (snd x) <> OSetEffect p
}.

Lemma calls_of_in k log ev : In ev (calls_of k log) -> In (k, ev) log.
Proof.
  unfold calls_of. intros I. apply in_map_iff in I as ([j x] & E & F). apply filter_In in F as [F G]. cbn in *.
  apply Nat.eqb_eq in G. subst. exact F.
Qed.

Lemma machine_at e t tw inc n n' evs : machine e t tw inc n = Ok (n', evs) -> Forall (fun ev => at_ ev = t) evs.
Proof.
  unfold machine. destruct (RadioTick e (u32 t) inc n) as [[[[] n1] o1]| |]; try discriminate. destruct tw.
  - destruct (RadioTick e (u32 t) inc n1) as [[[[] n2] o2]| |]; try discriminate. intros [= <- <-]. repeat constructor.
  - intros [= <- <-]. repeat constructor.
Qed.

Lemma machine_calls e t tw inc n n' evs : machine e t tw inc n = Ok (n', evs) -> Forall (fun ev => call ev = OTick inc) evs.
Proof.
  unfold machine. destruct (RadioTick e (u32 t) inc n) as [[[[] n1] o1]| |]; try discriminate. destruct tw.
  - destruct (RadioTick e (u32 t) inc n1) as [[[[] n2] o2]| |]; try discriminate. intros [= <- <-]. repeat constructor.
  - intros [= <- <-]. repeat constructor.
Qed.

Lemma machine_hist e t0 h n t tw inc n' evs : hist e t0 h n -> t0 <= t -> (forall ev, In ev h -> at_ ev <= t) -> inc_sound inc ->
  machine e t tw inc n = Ok (n', evs) -> hist e t0 (h ++ evs) n'.
Proof.
  intros H T L I. unfold machine. assert (O : op_ok (OTick inc)) by (destruct inc as [p|]; [apply (I p eq_refl)|exact Logic.I]).
  destruct (RadioTick e (u32 t) inc n) as [[[[] n1] o1]| |] eqn:E1; try discriminate.
  assert (H1 : hist e t0 (h ++ [mkEv t (OTick inc) n n1 o1]) n1) by (apply hist_step; assumption).
  destruct tw.
  - destruct (RadioTick e (u32 t) inc n1) as [[[[] n2] o2]| |] eqn:E2; try discriminate. intros [= <- <-].
    change [mkEv t (OTick inc) n n1 o1; mkEv t (OTick inc) n1 n2 o2] with ([mkEv t (OTick inc) n n1 o1] ++ [mkEv t (OTick inc) n1 n2 o2]).
    rewrite app_assoc. apply hist_step; [exact H1|exact T| |exact O|exact E2].
    intros ev J. apply in_app_iff in J as [J|[<-|[]]]; [apply L; exact J|cbn; lia].
  - intros [= <- <-]. exact H1.
Qed.

Lemma calls_of_round (name : nat -> nat) (evs : nat -> list event) N k : (forall i j, (i < N)%nat -> (j < N)%nat -> name i = name j -> i = j) ->
  (forall i, (i < N)%nat -> name i = k -> calls_of k (flat_map (fun i => map (pair (name i)) (evs i)) (seq 0 N)) = evs i) /\
  ((forall i, (i < N)%nat -> name i <> k) -> calls_of k (flat_map (fun i => map (pair (name i)) (evs i)) (seq 0 N)) = []).
Proof.
  induction N as [|N IH]; intros Inj; [split; [intros; lia|reflexivity]|].
  destruct IH as [A B]; [intros; apply Inj; lia|].
  rewrite seq_S, flat_map_app, calls_of_app. cbn [flat_map]. rewrite app_nil_r, calls_of_pair. rewrite Nat.add_0_l. split.
  - intros i Hi Ei. destruct (Nat.eq_dec i N) as [->|Ne].
    + rewrite Ei, Nat.eqb_refl, B; [reflexivity|]. intros j Hj Ej. apply (Nat.lt_irrefl j). 
      rewrite (Inj j N) at 2 by (try lia; congruence). exact Hj.
    + rewrite (A i) by (try lia; exact Ei). destruct (Nat.eqb_spec (name N) k) as [E|_]; [|apply app_nil_r].
      exfalso. apply Ne. apply Inj; try lia; congruence.
  - intros H. rewrite B by (intros; apply H; lia). destruct (Nat.eqb_spec (name N) k) as [E|_]; [|reflexivity].
    exfalso. exact (H N ltac:(lia) E).
Qed.

Lemma receives_sound N w i : ok N w -> inc_sound (receives w i).
Proof.
  intros K p. unfold receives. destruct (keeps _ _ _); [|discriminate]. destruct (cell w Air) as [c|] eqn:C; [|discriminate].
  cbn. intros [= <-]. apply zero_tail_sound. eapply cell_air_sound; [apply K|exact C].
Qed.

Lemma FakeTick_traced N w w' : ok N w -> traced N w -> FakeTick s N w = Ok w' -> traced N w'.
Proof.
  intros K T E. destruct (FakeTick_ok N w K) as (evs & w1 & E1 & K1 & Tk & Lg & Nm & Bn & _ & _ & Ck & _).
  rewrite E in E1. injection E1 as <-. destruct T as [TN TI TH TW TL TA].
  constructor.
  - intros i Hi. rewrite Nm, Bn. apply TN; exact Hi.
  - intros i j. rewrite Nm. apply TI.
  - intros k Hk. rewrite Bn in Hk. rewrite Ck, Lg, calls_of_app. destruct (TH k Hk) as (t0 & n & B & Hd & H & F).
    destruct (calls_of_round (f_name w) evs N k TI) as [R1 R2].
    assert (D : (exists i, (i < N)%nat /\ f_name w i = k) \/ forall i, (i < N)%nat -> f_name w i <> k).
    { clear. induction N as [|N IH]; [right; intros; lia|]. destruct IH as [(i & A & B)|H]; [left; exists i; split; [lia|exact B]|].
      destruct (Nat.eq_dec (f_name w N) k); [left; exists N; split; [lia|assumption]|right; intros i Hi].
      destruct (Nat.eq_dec i N) as [->|]; [assumption|apply H; lia]. }
    destruct D as [(i & Hi & Ei)|D].
    + rewrite (R1 i Hi Ei). destruct (Tk i Hi) as [Tm _]. exists t0, (f_node w' i). split; [exact B|].
      split; [destruct Hd as (ev & rest & -> & Hd); exists ev, (rest ++ evs i); split; [reflexivity|exact Hd]|]. split.
      * rewrite Ei in Tm. specialize (F i Hi Ei). subst n. apply (machine_hist _ t0 _ (f_node w i) (f_clock w) (f_ticked w i) (receives w i)); [exact H|lia| |eapply receives_sound; exact K|exact Tm].
        intros ev I. apply calls_of_in in I. apply (TL (k, ev)); exact I.
      * intros j Hj Ej. rewrite Nm in Ej. f_equal. apply TI; congruence.
    + rewrite (R2 D), app_nil_r. exists t0, n. split; [exact B|]. split; [exact Hd|]. split; [exact H|]. intros i Hi Ei. rewrite Nm in Ei. exfalso. exact (D i Hi Ei).
  - intros k Hk. rewrite Bn in Hk. rewrite Lg, calls_of_app, TW by exact Hk. 
    destruct (calls_of_round (f_name w) evs N k TI) as [_ R2]. apply R2. intros i Hi Ei. specialize (TN i Hi). lia.
  - intros x I. rewrite Lg in I. rewrite Ck. apply in_app_iff in I as [I|I]; [apply TL; exact I|].
    apply in_flat_map in I as (i & Hi & I). apply in_map_iff in I as (ev & <- & I). cbn [snd]. apply in_seq in Hi.
    destruct (Tk i ltac:(lia)) as [Tm _]. apply machine_at in Tm. rewrite Forall_forall in Tm. rewrite (Tm _ I). lia.
  - intros x p I. rewrite Lg in I. apply in_app_iff in I as [I|I]; [apply TA; exact I|].
    apply in_flat_map in I as (i & Hi & I). apply in_map_iff in I as (ev & <- & I). cbn [snd]. apply in_seq in Hi.
    destruct (Tk i ltac:(lia)) as [Tm _]. apply machine_calls in Tm. rewrite Forall_forall in Tm. rewrite (Tm _ I). discriminate.
Qed.

Lemma advance_ok N w d : 0 <= d -> ok N w -> traced N w -> ok N (advanceMillis d w) /\ traced N (advanceMillis d w).
Proof.
  intros D K T. destruct K as [[ML M1 MA MO] KN KC]. destruct T as [TN TI TH TW TL TA]. split.
  - constructor; [constructor; assumption|exact KN|cbn; lia].
  - constructor; [exact TN|exact TI| |exact TW| |exact TA].
    + intros k Hk. destruct (TH k Hk) as (t0 & n & B & Hd & H & F). exists t0, n. split; [cbn; lia|]. auto.
    + intros x I. specialize (TL x I). cbn. lia.
Qed.

Lemma loss_ok N w n : ok N w -> traced N w -> ok N (setPacketLoss n w) /\ traced N (setPacketLoss n w).
Proof.
  intros K T. destruct K as [[ML M1 MA MO] KN KC]. destruct T as [TN TI TH TW TL TA].
  split; [constructor; [constructor; assumption|exact KN|exact KC]|constructor; assumption].
Qed.

Lemma new_node_traced N w w' i : junk_ok -> (i < N)%nat -> 0 <= f_clock w ->
  (forall j, (j < N)%nat -> j <> i -> (f_name w j < f_born w)%nat) ->
  (forall j k, (j < N)%nat -> (k < N)%nat -> j <> i -> k <> i -> f_name w j = f_name w k -> j = k) ->
  (forall k, (k < f_born w)%nat -> exists t0 n, 0 <= t0 <= f_clock w /\
     (exists ev rest, calls_of k (f_log w) = ev :: rest /\ at_ ev = t0) /\
     hist (env_of s k) t0 (calls_of k (f_log w)) n /\ forall j, (j < N)%nat -> j <> i -> f_name w j = k -> n = f_node w j) ->
  (forall k, (f_born w <= k)%nat -> calls_of k (f_log w) = []) ->
  (forall x, In x (f_log w) -> at_ (snd x) <= f_clock w) ->
  (forall x p, In x (f_log w) -> call (snd x) <> OSetEffect p) ->
  (forall j, f_node w' j = upd (f_node w) i (powered (f_born w) (f_clock w)) j) ->
  f_name w' = upd (f_name w) i (f_born w) -> f_born w' = S (f_born w) ->
  f_log w' = f_log w ++ map (pair (f_born w)) (birth (f_born w) (f_clock w)) -> f_clock w' = f_clock w ->
  traced N w'.
Proof.
  intros J Ni C TN TI TH TW TL TA Nn Nm Bn Lg Ck. constructor.
  - intros j Hj. rewrite Nm, Bn. unfold upd. destruct (Nat.eqb_spec j i); [lia|]. specialize (TN j Hj n). lia.
  - intros j k Hj Hk. rewrite Nm. unfold upd. destruct (Nat.eqb_spec j i), (Nat.eqb_spec k i); intros E; subst; try reflexivity.
    + specialize (TN k Hk n). lia.
    + specialize (TN j Hj n). lia.
    + apply TI; assumption.
  - intros k Hk. rewrite Bn in Hk. rewrite Ck, Lg, calls_of_app, calls_of_pair. destruct (Nat.eqb_spec (f_born w) k) as [E|E].
    + subst k. rewrite TW by lia. exists (f_clock w), (powered (f_born w) (f_clock w)). split; [lia|].
      split; [eexists; eexists; split; reflexivity|]. split; [apply birth_hist; assumption|].
      intros j Hj. rewrite Nm, Nn. unfold upd. destruct (Nat.eqb_spec j i); [reflexivity|]. intros E. specialize (TN j Hj n). lia.
    + rewrite app_nil_r. destruct (TH k ltac:(lia)) as (t0 & n & B & Hd & H & F). exists t0, n. split; [exact B|]. split; [exact Hd|]. split; [exact H|].
      intros j Hj. rewrite Nm, Nn. unfold upd. destruct (Nat.eqb_spec j i); [intros; lia|]. apply F; assumption.
  - intros k Hk. rewrite Bn in Hk. rewrite Lg, calls_of_app, calls_of_pair, TW by lia. destruct (Nat.eqb_spec (f_born w) k); [lia|reflexivity].
  - intros x I. rewrite Lg in I. rewrite Ck. apply in_app_iff in I as [I|I]; [apply TL; exact I|].
    apply in_map_iff in I as (ev & <- & [<-|[<-|[]]]); cbn; lia.
  - intros x p I. rewrite Lg in I. apply in_app_iff in I as [I|I]; [apply TA; exact I|].
    apply in_map_iff in I as (ev & <- & [<-|[<-|[]]]); discriminate.
Qed.

Lemma reinit_ok N w i : junk_ok -> ok N w -> traced N w -> (i < N)%nat ->
  exists w', reinitNode s i w = Ok w' /\ ok N w' /\ traced N w' /\
    (forall j, f_node w' j = upd (f_node w) i (powered (f_born w) (f_clock w)) j) /\
    (forall j, f_ticked w' j = upd (f_ticked w) i false j) /\
    f_name w' = upd (f_name w) i (f_born w) /\ f_born w' = S (f_born w) /\
    f_loss w' = f_loss w /\ f_lost w' = f_lost w /\ f_clock w' = f_clock w /\
    (forall o, ptr w' o = ptr w o /\ cell w' o = cell w o).
Proof.
  intros J K T Ni. pose proof K as [M KN KC].
  destruct (new_node_ok N w i J M Ni (fun j Hj _ => KN j Hj) KC) as (w' & E & K' & A1 & A2 & A3 & A4 & A5 & A6 & A7 & A8 & A9 & _).
  exists w'. split; [exact E|]. split; [exact K'|]. split; [|auto 10].
  destruct T as [TN TI TH TW TL TA].
  apply (new_node_traced N w w' i J Ni KC); auto.
  intros k Hk. destruct (TH k Hk) as (t0 & n & B & Hd & H & F). exists t0, n. split; [exact B|]. split; [exact Hd|]. split; [exact H|]. intros j Hj _ Ej. apply F; assumption.
Qed.

(** ** The constructor *)
Lemma mem_mono N M w : (N <= M)%nat -> mem N w -> mem M w.
Proof. intros L [A B C D]. constructor; auto. intros i Hi. apply D. lia. Qed.

Lemma powered_quiet k t : junk_ok -> 0 <= t < 4000000000 ->
  machine (env_of s k) t false None (powered k t) = Ok (powered k t, [mkEv t (OTick None) (powered k t) (powered k t) []]).
Proof.
  intros J Ht. unfold machine. pose proof (powered_ok k t J ltac:(lia)) as Ok1.
  destruct (nodeok_runs (env_of s k) (u32 t) (powered k t) None eq_refl Ok1) as (n' & out & E & T);
    [intros ? [=]|unfold u32; lia|].
  rewrite E.
  assert (Hb : t_hb (powered k t) = t + (5000 + Z.of_N (s_draw s k 0%nat) mod 2000)).
  { unfold powered, bare. destruct (s_junk s k) as [[[ty1 ty2] d1] d2]. cbn [t_hb with_num_palettes with_num_effects].
    unfold u32. rewrite (Z.mod_small t) by lia. apply Z.mod_small. lia. }
  assert (St : state (powered k t) = Slave) by (unfold powered, bare; destruct (s_junk s k) as [[[ty1 ty2] d1] d2]; reflexivity).
  assert (Ht' : u32 t = t) by (unfold u32; apply Z.mod_small; lia).
  assert (Due : timer_due (u32 t) (t_hb (powered k t)) = false) by (rewrite Hb, Ht'; unfold timer_due; lia).
  inversion T; subst; try discriminate; congruence.
Qed.

Lemma construct_loop todo : forall from w, junk_ok -> Z.of_nat (from + todo) < 4000000000 ->
  ok from w -> traced from w ->
  f_clock w = Z.of_nat from -> f_born w = from -> (forall o, ptr w o = None) -> f_loss w = 0 -> f_lost w = 0%nat ->
  (forall i, (i < from)%nat -> f_node w i = powered i (Z.of_nat i + 1) /\ f_name w i = i /\ f_ticked w i = true) ->
  Forall (fun x => sent (snd x) = []) (f_log w) ->
  exists w', loop todo from (fun i w =>
    let w := advanceMillis 1 w in
    let w := set_radio (upd (f_radio w) i (mkRadio None None)) w in
    w <- new_node s i w ;;
    machine_tick s i w) w = Ok w' /\
  let N := (from + todo)%nat in
  ok N w' /\ traced N w' /\ f_clock w' = Z.of_nat N /\ f_born w' = N /\ (forall o, ptr w' o = None) /\ f_loss w' = 0 /\ f_lost w' = 0%nat /\
  (forall i, (i < N)%nat -> f_node w' i = powered i (Z.of_nat i + 1) /\ f_name w' i = i /\ f_ticked w' i = true) /\
  Forall (fun x => sent (snd x) = []) (f_log w').
Proof.
  induction todo as [|todo IH]; intros from w J B K T Ck Bn Pn Ls Lo Nd Qu.
  - exists w. split; [reflexivity|]. rewrite Nat.add_0_r. cbv zeta. auto 12.
  - cbn [loop]. cbv zeta.
    destruct (advance_ok from w 1 ltac:(lia) K T) as [K0 T0].
    set (w0 := advanceMillis 1 w) in *.
    set (w1 := set_radio (upd (f_radio w0) from (mkRadio None None)) w0).
    assert (P1 : forall o, ptr w1 o = None).
    { intros [| |j]; [exact (Pn Air)|exact (Pn Before)|]. cbn. unfold upd. destruct (Nat.eqb_spec j from); [reflexivity|exact (Pn (Radio j))]. }
    assert (M1 : mem (S from) w1).
    { destruct K0 as [[ML Mo MA MO] KN KC]. constructor.
      - intros o a. rewrite P1. discriminate.
      - intros o o' a. rewrite P1. discriminate.
      - intros a Ha. destruct (MA a Ha) as [o Po]. rewrite (Pn o : ptr w0 o = None) in Po. discriminate.
      - intros i Hi. exact (P1 (Radio i)). }
    assert (C1 : f_clock w1 = Z.of_nat from + 1) by (cbn; lia).
    destruct (new_node_ok (S from) w1 from J M1 ltac:(lia)) as (w2 & E2 & K2 & A1 & A2 & A3 & A4 & A5 & A6 & A7 & A8 & A9 & A10).
    { intros j Hj Ne. apply (k_nodes _ _ K0). lia. }
    { lia. }
    assert (T2 : traced (S from) w2).
    { destruct T0 as [TN TI TH TW TL TA]. apply (new_node_traced (S from) w1 w2 from J ltac:(lia) ltac:(lia)); auto.
      - intros j Hj Ne. apply TN. lia.
      - intros j k Hj Hk Ne Ne' E. apply TI; try lia; exact E.
      - intros k Hk. destruct (TH k Hk) as (t0 & n & D & Hd & H & F). exists t0, n. split; [exact D|]. split; [exact Hd|]. split; [exact H|].
        intros j Hj Ne Ej. apply F; [lia|exact Ej]. }
    rewrite E2. cbn [obind].
    assert (R2 : r_received (f_radio w2 from) = None) by (rewrite A10; cbn; rewrite upd_same; reflexivity).
    destruct (machine_tick_ok (S from) w2 from K2 ltac:(lia)) as (n' & evs & w3 & Em & E3 & K3 & D1 & D2 & D3 & D4 & D5 & D6 & D7 & D8 & D9 & D10 & D11).
    { left. exact R2. }
    rewrite E3. cbn [obind].
    assert (Ib : inbox w2 from = None) by (unfold inbox; rewrite R2; reflexivity).
    assert (Bn1 : f_born w1 = from) by exact Bn.
    assert (Nw : f_node w2 from = powered from (Z.of_nat from + 1)) by (rewrite A1, Bn1, C1; apply upd_same).
    rewrite Ib, Nw, A2, upd_same, A3, upd_same, Bn1, A8, C1 in Em.
    rewrite powered_quiet in Em by (try exact J; lia). injection Em as <- <-.
    assert (Pn3 : forall o, ptr w3 o = None).
    { intros o. destruct (owner_dec o (Radio from)) as [->|Ne].
      - unfold cell in D11. pose proof (m_live _ _ (k_mem _ _ K3) (Radio from)) as Lv.
        destruct (ptr w3 (Radio from)) as [a|]; [|reflexivity]. destruct (Lv a eq_refl) as (_ & p & Hp & _). rewrite Hp in D11.
        destruct (A9 (Radio from)) as [Q _]. rewrite Q, (P1 (Radio from)) in D11. discriminate.
      - destruct (D9 o Ne) as [-> _]. destruct (A9 o) as [-> _]. apply P1. }
    replace (from + S todo)%nat with (S from + todo)%nat by lia.
    apply IH; [exact J|lia|exact K3| |rewrite D8, A8, C1; lia|rewrite D5, A4, Bn1; reflexivity|exact Pn3|rewrite D6, A6; exact Ls|rewrite D7, A7; exact Lo| |].
    + destruct T2 as [TN TI TH TW TL TA]. 
      assert (Nf : f_name w2 from = from) by (rewrite A3, upd_same; exact Bn1).
      constructor.
      * intros i Hi. rewrite D4, D5. apply TN; exact Hi.
      * intros i j. rewrite D4. apply TI.
      * intros k Hk. rewrite D5 in Hk. rewrite D8, D2, D4, calls_of_app, calls_of_pair, Nf.
        destruct (TH k Hk) as (t0 & n & Bd & Hd & H & F). destruct (Nat.eqb_spec from k) as [<-|Ne].
        -- exists t0, (powered from (Z.of_nat from + 1)). split; [exact Bd|].
           split; [destruct Hd as (ev & rest & -> & Hd); eexists ev, _; split; [reflexivity|exact Hd]|]. split.
           ++ assert (n = f_node w2 from) by (apply F; [lia|exact Nf]). subst n. rewrite Nw in H.
              eapply machine_hist; [exact H| | | |apply powered_quiet; [exact J|lia]].
              ** rewrite A8, C1 in Bd. lia.
              ** intros ev I. apply calls_of_in in I. specialize (TL _ I). rewrite A8, C1 in TL. exact TL.
              ** intros ? [=].
           ++ intros i Hi Ei. rewrite D1. assert (i = from) by (apply TI; [lia|lia|congruence]). subst i. rewrite upd_same. reflexivity.
        -- rewrite app_nil_r. exists t0, n. split; [exact Bd|]. split; [exact Hd|]. split; [exact H|]. intros i Hi Ei. rewrite D1.
           rewrite upd_other by (intros ->; congruence). apply F; assumption.
      * intros k Hk. rewrite D5 in Hk. rewrite D2, calls_of_app, TW, calls_of_pair by exact Hk. rewrite Nf.
        destruct (Nat.eqb_spec from k); [|reflexivity]. rewrite A4, Bn1 in Hk. lia.
      * intros x I. rewrite D2 in I. rewrite D8. apply in_app_iff in I as [I|[<-|[]]]; [apply TL; exact I|]. cbn [snd at_]. rewrite A8, C1. lia.
      * intros x p I. rewrite D2 in I. apply in_app_iff in I as [I|[<-|[]]]; [apply TA; exact I|]. discriminate.
    + intros i Hi. rewrite D1, D3, D4, A3, Bn1. destruct (Nat.eq_dec i from) as [->|Ne].
      * rewrite !upd_same. auto.
      * rewrite !upd_other, A1, A2, !upd_other by exact Ne. destruct (Nd i ltac:(lia)) as (X & Y & Z). auto.
    + rewrite D2, A5. apply Forall_app. split; [apply Forall_app; split; [exact Qu|]|]; repeat constructor.
Qed.

Lemma FakeNetwork_ok N : junk_ok -> Z.of_nat N < 4000000000 ->
  exists w, FakeNetwork s N = Ok w /\ ok N w /\ traced N w /\ f_clock w = Z.of_nat N /\ f_born w = N /\ (forall o, ptr w o = None) /\
  f_loss w = 0 /\ f_lost w = 0%nat /\
  (forall i, (i < N)%nat -> f_node w i = powered i (Z.of_nat i + 1) /\ f_name w i = i /\ f_ticked w i = true) /\
  Forall (fun x => sent (snd x) = []) (f_log w).
Proof.
  intros J B. unfold FakeNetwork. apply (construct_loop N 0 f_empty J); [lia| | | | | | | | |].
  - constructor; [constructor|intros; lia|cbn; lia].
    + intros o a. destruct o; discriminate.
    + intros o o' a. destruct o; discriminate.
    + intros a Ha. exfalso. apply Ha. reflexivity.
    + reflexivity.
  - constructor; try (intros; cbn in *; lia); try reflexivity; intros x [].
  - reflexivity.
  - reflexivity.
  - intros [| |]; reflexivity.
  - reflexivity.
  - reflexivity.
  - intros; lia.
  - constructor.
Qed.

(** ** Packets a test hands to the radios *)
Definition same_but_ears (w w' : fakenet) : Prop :=
  f_fresh w' = f_fresh w /\ f_node w' = f_node w /\ f_ticked w' = f_ticked w /\ f_name w' = f_name w /\ f_born w' = f_born w /\
  f_packet w' = f_packet w /\ f_previous w' = f_previous w /\ f_loss w' = f_loss w /\ f_lost w' = f_lost w /\ f_clock w' = f_clock w /\
  f_log w' = f_log w /\ forall i, r_sent (f_radio w' i) = r_sent (f_radio w i).

Lemma inject_loop a todo : forall from w p, f_heap w a = Some p -> wf_packet p ->
  exists w' q, loop todo from (fun i w => v <- fr_setReceivedPacket (Some a) (view i w) ;; Ok (unview i v w)) w = Ok w' /\
    same_but_ears w w' /\ f_heap w' a = Some q /\ forall b, b <> a -> f_heap w' b = f_heap w b.
Proof.
  induction todo as [|todo IH]; intros from w p Hp W.
  - exists w, p. split; [reflexivity|]. split; [repeat split|]. auto.
  - cbn [loop]. unfold fr_setReceivedPacket at 1. cbv zeta. cbn [view heap Bench.fresh received_packet sent_packet].
    unfold deref. cbn [heap]. rewrite Hp. cbn [obind].
    assert (Cl : exists d, clear_from (Z.to_nat (PACKET_DATA_LENGTH - dlen p)) (dlen p) (pdata p) = Ok d /\ length d = length (pdata p) /\
                 forall j, nth j d 0 = nth j (pdata p) 0 \/ nth j d 0 = 0).
    { change PACKET_DATA_LENGTH with 58. destruct W as (_ & _ & D & L & _). destruct (Z_le_gt_dec (dlen p) 58).
      - destruct (clear_ok (Z.to_nat (58 - dlen p)) (dlen p) (pdata p)) as (d & E & Ld & Nd); [unfold is_byte in D; lia|unfold is_byte in D; lia|].
        exists d. split; [exact E|]. split; [exact Ld|]. intros j. rewrite Nd. destruct (_ <? _); auto.
      - exists (pdata p). replace (Z.to_nat (58 - dlen p)) with 0%nat by lia. split; [reflexivity|]. auto. }
    destruct Cl as (d & Ed & Ld & Nd). rewrite Ed. cbn [obind]. unfold assign. cbn [heap]. rewrite Hp. cbn [obind].
    set (q := mkPacket (pid p) (ptype p) (dlen p) d).
    set (w1 := unview from _ w).
    assert (H1 : f_heap w1 = upd (f_heap w) a (Some q)) by reflexivity.
    assert (Wq : wf_packet q).
    { destruct W as (A & B & D & L & F). split; [exact A|]. split; [exact B|]. split; [exact D|]. split; [cbn; congruence|].
      cbn. rewrite Forall_forall in *. intros x I. apply (In_nth _ _ 0) in I as (j & Hj & <-). destruct (Nd j) as [-> | ->].
      - apply F. apply nth_In. congruence.
      - unfold is_byte. lia. }
    destruct (IH (S from) w1 q) as (w' & q' & E' & S' & Q' & O'); [rewrite H1; apply upd_same|exact Wq|].
    exists w', q'. split; [exact E'|]. split; [|split; [exact Q'|]].
    + destruct S' as (B1 & B2 & B3 & B4 & B5 & B6 & B7 & B8 & B9 & B10 & B11 & B12).
      do 11 (split; [assumption|]). intros i. rewrite B12. cbn. unfold upd. destruct (Nat.eqb_spec i from); subst; reflexivity.
    + intros b Nb. rewrite O' by exact Nb. rewrite H1. apply upd_other. exact Nb.
Qed.

Lemma fresh_free N w : mem N w -> f_heap w (f_fresh w) = None.
Proof.
  intros M. destruct (f_heap w (f_fresh w)) eqn:E; [|reflexivity]. destruct (m_all _ _ M (f_fresh w)) as [o Po]; [congruence|].
  destruct (m_live _ _ M o _ Po) as [L _]. lia.
Qed.

(** [w'] differs from [w] only in where packets lie. *)
Definition alike (N : nat) (w w' : fakenet) : Prop :=
  (forall i, (i < N)%nat -> f_node w' i = f_node w i /\ f_ticked w' i = f_ticked w i /\ f_name w' i = f_name w i /\
     cell w' (Radio i) = cell w (Radio i)) /\
  f_born w' = f_born w /\ f_loss w' = f_loss w /\ f_lost w' = f_lost w /\ f_clock w' = f_clock w /\ f_log w' = f_log w /\
  cell w' Air = cell w Air.

Lemma TransmitPacket_ok N p w : ok N w -> traced N w -> wf_packet p ->
  exists w', TransmitPacket N p w = Ok w' /\ ok N w' /\ traced N w' /\ alike N w w'.
Proof.
  intros K T W. unfold TransmitPacket. cbv zeta. set (a := f_fresh w).
  set (w0 := set_fresh (S a) (set_heap (upd (f_heap w) a (Some p)) w)).
  destruct (inject_loop a N 0 w0 p) as (w1 & q & E & S1 & Q & O); [cbn; apply upd_same|exact W|].
  rewrite E. cbn [obind free]. rewrite Q. eexists. split; [reflexivity|]. set (w' := set_heap _ w1).
  destruct S1 as (B1 & B2 & B3 & B4 & B5 & B6 & B7 & B8 & B9 & B10 & B11 & B12).
  assert (H : forall b, f_heap w' b = f_heap w b).
  { intros b. cbn. destruct (Nat.eq_dec b a) as [->|Nb].
    - rewrite upd_same. symmetry. apply (fresh_free N). apply K.
    - rewrite upd_other, O by exact Nb. cbn. apply upd_other. exact Nb. }
  assert (P : forall o, ptr w' o = ptr w o) by (intros [| |i]; cbn; [exact B6|exact B7|exact (B12 i)]).
  assert (C : forall o, cell w' o = cell w o) by (intros o; unfold cell; rewrite P; destruct (ptr w o); [apply H|reflexivity]).
  split; [|split].
  - destruct K as [[ML M1 MA MO] KN KC]. constructor; [constructor|..].
    + intros o b. rewrite P, H. intros Pb. destruct (ML o b Pb) as [L R]. split; [|exact R].
      change (b < f_fresh w1)%nat. rewrite B1. cbn. unfold a. lia.
    + intros o o' b. rewrite !P. apply M1.
    + intros b. rewrite H. intros Hb. destruct (MA b Hb) as [o Po]. exists o. rewrite P. exact Po.
    + intros i Hi. change (ptr w' (Radio i) = None). rewrite P. apply MO. exact Hi.
    + intros i Hi. cbn. rewrite B2. apply KN. exact Hi.
    + cbn. rewrite B10. exact KC.
  - destruct T as [TN TI TH TW TL TA]. constructor; cbn; rewrite ?B2, ?B4, ?B5, ?B10, ?B11; assumption.
  - split; [|cbn; rewrite B5, B8, B9, B10, B11; auto 10].
    intros i Hi. rewrite C. cbn. rewrite B2, B3, B4. auto.
Qed.

Lemma find_ext {A} (f g : A -> bool) l : (forall x, In x l -> f x = g x) -> find f l = find g l.
Proof.
  induction l as [|x l IH]; intros H; [reflexivity|]. cbn [find]. rewrite (H x) by (left; reflexivity).
  destruct (g x); [reflexivity|]. apply IH. intros y I. apply H. right. exact I.
Qed.

Lemma FakeTick_alike N w v w' : ok N w -> ok N v -> alike N w v -> FakeTick s N w = Ok w' ->
  exists v', FakeTick s N v = Ok v' /\ alike N w' v'.
Proof.
  intros K Kv (A1 & A2 & A3 & A4 & A5 & A6 & A7) E.
  destruct (FakeTick_ok N w K) as (ev & w1 & E1 & K1 & B1 & B2 & B3 & B4 & B5 & B6 & B7 & B8). rewrite E in E1. injection E1 as <-.
  destruct (FakeTick_ok N v Kv) as (ev' & v1 & E2 & K2 & C1 & C2 & C3 & C4 & C5 & C6 & C7 & C8).
  exists v1. split; [exact E2|].
  assert (X : forall i, (i < N)%nat -> f_node v1 i = f_node w' i /\ ev' i = ev i).
  { intros i Hi. destruct (A1 i Hi) as (X1 & X2 & X3 & X4). destruct (B1 i Hi) as [Y _]. destruct (C1 i Hi) as [Z _].
    unfold receives in *. rewrite X1, X2, X3, A3, A4, A5, A7 in Z. rewrite Y in Z. injection Z as Z1 Z2. auto. }
  assert (F : forall i, (i < N)%nat -> after_out (cell v (Radio i)) (outs (ev' i)) = after_out (cell w (Radio i)) (outs (ev i))).
  { intros i Hi. destruct (A1 i Hi) as (X1 & X2 & X3 & X4). destruct (X i Hi) as [_ ->]. rewrite X4. reflexivity. }
  cbv zeta in *.
  rewrite (find_ext (fun i => is_some (after_out (cell v (Radio i)) (outs (ev' i)))) (fun i => is_some (after_out (cell w (Radio i)) (outs (ev i))))) in C8
    by (intros x I; apply in_seq in I; rewrite F by lia; reflexivity).
  assert (Cells : (forall i, (i < N)%nat -> cell v1 (Radio i) = cell w' (Radio i)) /\ cell v1 Air = cell w' Air).
  { destruct (find _ _) as [k|] eqn:Ek; destruct B8 as [Ba Bb], C8 as [Ca Cb].
    - apply find_some in Ek as [Ik _]. apply in_seq in Ik. split; [|rewrite Ca, Ba; apply F; lia].
      intros i Hi. rewrite Bb, Cb by exact Hi. rewrite F by exact Hi. reflexivity.
    - split; [|congruence]. intros i Hi. rewrite Bb, Cb by exact Hi. reflexivity. }
  destruct Cells as [Cr Ca]. split; [|split; [|split; [|split; [|split; [|split]]]]]; try congruence.
  - intros i Hi. destruct (A1 i Hi) as (X1 & X2 & X3 & X4). destruct (X i Hi) as [Y _]. split; [exact Y|]. split; [|split; [|apply Cr; exact Hi]].
    + destruct (B1 i Hi) as [_ ->], (C1 i Hi) as [_ ->]. reflexivity.
    + rewrite B3, C3. exact X3.
  - rewrite B6, C6, A3, A4. reflexivity.
  - rewrite B2, C2, A6. f_equal. rewrite !flat_map_concat_map. f_equal. apply map_ext_in. intros i I. apply in_seq in I.
    destruct (A1 i ltac:(lia)) as (X1 & X2 & X3 & X4). destruct (X i ltac:(lia)) as [_ ->]. rewrite X3. reflexivity.
Qed.

Lemma reinit_alike N w v i : junk_ok -> ok N w -> ok N v -> traced N w -> traced N v -> (i < N)%nat -> alike N w v ->
  exists w' v', reinitNode s i w = Ok w' /\ reinitNode s i v = Ok v' /\ alike N w' v'.
Proof.
  intros J K Kv T Tv Hi (A1 & A2 & A3 & A4 & A5 & A6 & A7).
  destruct (new_node_ok N w i J (k_mem _ _ K) Hi (fun j Hj _ => k_nodes _ _ K j Hj) (k_clock _ _ K))
    as (w' & E & K' & B1 & B2 & B3 & B4 & B5 & B6 & B7 & B8 & B9 & _).
  destruct (new_node_ok N v i J (k_mem _ _ Kv) Hi (fun j Hj _ => k_nodes _ _ Kv j Hj) (k_clock _ _ Kv))
    as (v' & E' & Kv' & C1 & C2 & C3 & C4 & C5 & C6 & C7 & C8 & C9 & _).
  exists w', v'. split; [exact E|]. split; [exact E'|].
  split; [|split; [|split; [|split; [|split; [|split]]]]]; try congruence.
  - intros j Hj. destruct (A1 j Hj) as (X1 & X2 & X3 & X4). rewrite B1, B2, B3, C1, C2, C3, A2, A5. unfold upd.
    destruct (B9 (Radio j)) as [_ ->], (C9 (Radio j)) as [_ ->]. destruct (Nat.eqb_spec j i); auto.
  - destruct (B9 Air) as [_ ->], (C9 Air) as [_ ->]. exact A7.
Qed.

Lemma alike_refl N w : alike N w w.
Proof. repeat split. Qed.
Lemma alike_trans N a b c : alike N a b -> alike N b c -> alike N a c.
Proof.
  intros (A1 & A2 & A3 & A4 & A5 & A6 & A7) (B1 & B2 & B3 & B4 & B5 & B6 & B7).
  split; [|repeat split; congruence]. intros i Hi. destruct (A1 i Hi) as (? & ? & ? & ?), (B1 i Hi) as (? & ? & ? & ?). repeat split; congruence.
Qed.

(** ** The destructor *)
Lemma destroy_loop N todo : forall from w, (from + todo = N)%nat ->
  (forall i a, (from <= i)%nat -> r_sent (f_radio w i) = Some a -> f_heap w a <> None) ->
  (forall i j a, (from <= i)%nat -> (from <= j)%nat -> r_sent (f_radio w i) = Some a -> r_sent (f_radio w j) = Some a -> i = j) ->
  (forall a, f_heap w a <> None -> exists i, (from <= i < N)%nat /\ r_sent (f_radio w i) = Some a) ->
  exists w', loop todo from (fun i w => v <- fr_destroy (view i w) ;; Ok (unview i v w)) w = Ok w' /\ forall a, f_heap w' a = None.
Proof.
  induction todo as [|todo IH]; intros from w EN L1 L2 L3.
  - exists w. split; [reflexivity|]. intros a. destruct (f_heap w a) eqn:E; [|reflexivity].
    destruct (L3 a) as (i & Hi & _); [congruence|lia].
  - cbn [loop]. unfold fr_destroy. cbn [view sent_packet]. destruct (r_sent (f_radio w from)) as [a|] eqn:Ea.
    + unfold delete. cbn [heap view]. destruct (f_heap w a) as [p|] eqn:Ha; [|exfalso; apply (L1 from a); [lia|exact Ea|exact Ha]].
      cbn [obind]. set (w1 := unview from _ w).
      assert (H1 : f_heap w1 = upd (f_heap w) a None) by reflexivity.
      assert (R1 : forall i, (S from <= i)%nat -> r_sent (f_radio w1 i) = r_sent (f_radio w i)).
      { intros i Hi. cbn. rewrite upd_other by lia. reflexivity. }
      apply IH; [lia| | |].
      * intros i b Hi. rewrite R1, H1 by exact Hi. intros Eb. rewrite upd_other; [apply (L1 i); [lia|exact Eb]|].
        intros ->. pose proof (L2 i from a ltac:(lia) ltac:(lia) Eb Ea). lia.
      * intros i j b Hi Hj. rewrite !R1 by assumption. apply L2; lia.
      * intros b. rewrite H1. destruct (Nat.eq_dec b a) as [->|Nb]; [rewrite upd_same; congruence|]. rewrite upd_other by exact Nb.
        intros Hb. destruct (L3 b Hb) as (i & Hi & Ei). exists i. assert (i <> from) by congruence. rewrite R1 by lia. split; [lia|exact Ei].
    + cbn [obind]. set (w1 := unview from _ w).
      assert (H1 : f_heap w1 = f_heap w) by reflexivity.
      assert (R1 : forall i, r_sent (f_radio w1 i) = r_sent (f_radio w i)).
      { intros i. cbn. unfold upd. destruct (Nat.eqb_spec i from); subst; reflexivity. }
      apply IH; [lia| | |].
      * intros i b Hi. rewrite R1, H1. apply L1. lia.
      * intros i j b Hi Hj. rewrite !R1. apply L2; lia.
      * intros b. rewrite H1. intros Hb. destruct (L3 b Hb) as (i & Hi & Ei). exists i. rewrite R1. assert (i <> from) by congruence. split; [lia|exact Ei].
Qed.

Lemma FakeDestroy_ok N w : ok N w -> exists w', FakeDestroy N w = Ok w' /\ forall a, f_heap w' a = None.
Proof.
  intros K. destruct (k_mem _ _ K) as [ML M1 MA MO]. unfold FakeDestroy.
  assert (F1 : exists w1, free (f_packet w) w = Ok w1 /\ f_radio w1 = f_radio w /\ f_previous w1 = f_previous w /\
    forall b, f_heap w1 b = if match f_packet w with Some a => Nat.eqb b a | None => false end then None else f_heap w b).
  { unfold free. destruct (f_packet w) as [a|] eqn:Ea; [|exists w; auto].
    destruct (ML Air a Ea) as (_ & p & Hp & _). rewrite Hp. eexists. split; [reflexivity|]. auto. }
  destruct F1 as (w1 & E1 & R1 & P1 & H1). rewrite E1. cbn [obind]. rewrite P1.
  assert (F2 : exists w2, free (f_previous w) w1 = Ok w2 /\ f_radio w2 = f_radio w1 /\
    forall b, f_heap w2 b = if match f_previous w with Some a => Nat.eqb b a | None => false end then None else f_heap w1 b).
  { unfold free. destruct (f_previous w) as [a|] eqn:Ea; [|exists w1; auto].
    destruct (ML Before a Ea) as (_ & p & Hp & _). rewrite H1.
    assert (match f_packet w with Some c => Nat.eqb a c | None => false end = false) as ->.
    { destruct (f_packet w) as [c|] eqn:Ec; [|reflexivity]. destruct (Nat.eqb_spec a c) as [->|]; [|reflexivity].
      pose proof (M1 Air Before c Ec Ea). discriminate. }
    rewrite Hp. eexists. split; [reflexivity|]. auto. }
  destruct F2 as (w2 & E2 & R2 & H2). rewrite E2. cbn [obind].
  apply (destroy_loop N N 0); [lia| | |]; rewrite R2, R1.
  - intros i a _ Ea. destruct (ML (Radio i) a Ea) as (_ & p & Hp & _). rewrite H2, H1.
    assert (match f_packet w with Some c => Nat.eqb a c | None => false end = false) as ->.
    { destruct (f_packet w) as [c|] eqn:Ec; [|reflexivity]. destruct (Nat.eqb_spec a c) as [->|]; [|reflexivity].
      pose proof (M1 Air (Radio i) c Ec Ea). discriminate. }
    assert (match f_previous w with Some c => Nat.eqb a c | None => false end = false) as ->.
    { destruct (f_previous w) as [c|] eqn:Ec; [|reflexivity]. destruct (Nat.eqb_spec a c) as [->|]; [|reflexivity].
      pose proof (M1 Before (Radio i) c Ec Ea). discriminate. }
    congruence.
  - intros i j a _ _ Ei Ej. pose proof (M1 (Radio i) (Radio j) a Ei Ej) as E. injection E as E. exact E.
  - intros a. rewrite H2, H1. intros Ha.
    destruct (MA a) as [o Po].
    { destruct (match f_previous w with Some c => Nat.eqb a c | None => false end); [congruence|].
      destruct (match f_packet w with Some c => Nat.eqb a c | None => false end); congruence. }
    destruct o as [| |i]; cbn [ptr] in Po.
    + rewrite Po, Nat.eqb_refl in Ha. destruct (match f_previous w with Some c => Nat.eqb a c | None => false end); congruence.
    + rewrite Po, Nat.eqb_refl in Ha. congruence.
    + exists i. split; [|exact Po]. split; [lia|]. destruct (le_lt_dec N i) as [Hi|Hi]; [|exact Hi]. rewrite (MO i Hi) in Po. discriminate.
Qed.

(** ** Whole runs *)
Definition fop_ok (N : nat) (o : fop) : Prop :=
  match o with
  | FAdvance d => 0 <= d
  | FTick => True
  | FReinit i => (i < N)%nat
  | FLoss n => True
  | FTransmit p => wf_packet p
  end.

Lemma fstep_ok N o w : junk_ok -> ok N w -> traced N w -> fop_ok N o ->
  exists w', fstep s N o w = Ok w' /\ ok N w' /\ traced N w'.
Proof.
  intros J K T O. destruct o as [d| |i|n|p]; cbn [fstep fop_ok] in *.
  - eexists. split; [reflexivity|]. apply advance_ok; assumption.
  - destruct (FakeTick_ok N w K) as (evs & w' & E & K' & _). exists w'. split; [exact E|]. split; [exact K'|].
    exact (FakeTick_traced N w w' K T E).
  - destruct (reinit_ok N w i J K T O) as (w' & E & K' & T' & _). eauto.
  - eexists. split; [reflexivity|]. apply loss_ok; assumption.
  - destruct (TransmitPacket_ok N p w K T O) as (w' & E & K' & T' & _). eauto.
Qed.

Lemma fsteps_ok N os : junk_ok -> Forall (fop_ok N) os -> forall w, ok N w -> traced N w ->
  exists w', fsteps s N os w = Ok w' /\ ok N w' /\ traced N w'.
Proof.
  intros J F. induction F as [|o os O F IH]; intros w K T; [exists w; auto|].
  cbn [fsteps]. destruct (fstep_ok N o w J K T O) as (w1 & E & K1 & T1). rewrite E. cbn [obind]. apply IH; assumption.
Qed.

Lemma frun_ok N os : junk_ok -> Z.of_nat N < 4000000000 -> Forall (fop_ok N) os ->
  exists w, frun s N os = Ok w /\ ok N w /\ traced N w.
Proof.
  intros J B F. unfold frun. destruct (FakeNetwork_ok N J B) as (w & E & K & T & _). rewrite E. cbn [obind].
  apply fsteps_ok; assumption.
Qed.

Definition is_transmit (o : fop) : bool := match o with FTransmit _ => true | _ => false end.

Lemma fsteps_alike N os : junk_ok -> Forall (fop_ok N) os -> forall w v, ok N w -> traced N w -> ok N v -> traced N v -> alike N v w ->
  exists w' v', fsteps s N os w = Ok w' /\ fsteps s N (filter (fun o => negb (is_transmit o)) os) v = Ok v' /\ alike N v' w'.
Proof.
  intros J F. induction F as [|o os O F IH]; intros w v K T Kv Tv A; [exists w, v; auto|].
  cbn [fsteps filter]. destruct (fstep_ok N o w J K T O) as (w1 & E & K1 & T1). rewrite E. cbn [obind].
  destruct o as [d| |i|n|p]; cbn [is_transmit negb fsteps].
  - cbn [fstep] in *. injection E as <-. cbn [obind]. destruct (advance_ok N v d O Kv Tv) as [Kv1 Tv1]. apply IH; try assumption.
    destruct A as (A1 & A2 & A3 & A4 & A5 & A6 & A7). split; [exact A1|]. cbn. rewrite A5. auto 10.
  - cbn [fstep] in *. destruct (FakeTick_ok N v Kv) as (evs & v1 & Ev & Kv1 & _). rewrite Ev. cbn [obind].
    apply IH; try assumption; [exact (FakeTick_traced N v v1 Kv Tv Ev)|].
    destruct (FakeTick_alike N v w v1 Kv K A Ev) as (w2 & Ew & A'). rewrite E in Ew. injection Ew as <-. exact A'.
  - cbn [fstep] in *. destruct (reinit_alike N v w i J Kv K Tv T O A) as (v1 & w2 & Ev & Ew & A'). rewrite E in Ew. injection Ew as <-.
    rewrite Ev. cbn [obind]. destruct (reinit_ok N v i J Kv Tv O) as (v2 & Ev2 & Kv1 & Tv1 & _). rewrite Ev in Ev2. injection Ev2 as <-.
    apply IH; assumption.
  - cbn [fstep] in *. injection E as <-. cbn [obind]. destruct (loss_ok N v n Kv Tv) as [Kv1 Tv1]. apply IH; try assumption.
    destruct A as (A1 & A2 & A3 & A4 & A5 & A6 & A7). split; [exact A1|]. cbn. auto 10.
  - cbn [fstep] in *. destruct (TransmitPacket_ok N p w K T O) as (w2 & Ew & K2 & T2 & A2). rewrite E in Ew. injection Ew as <-.
    apply IH; try assumption. eapply alike_trans; eassumption.
Qed.
End Facts.
