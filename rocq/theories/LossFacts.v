(** Proof support for C129: the simulated network when packets get lost. *)
From Coq Require Import ZArith NArith Lia List Bool.
From Coq Require Import ZifyBool Permutation.
From Verif Require Import CInt CIntFacts Packet SpecPacket PacketFacts NetMgr NetHist SpecNet NetFacts Rsm RsmStep RsmEval RsmHist SpecRsm RsmFacts RoleFacts.
From Verif Require Import Fastled Palette Device LedMgr Effects Show Bench FakeNet FakeNetFacts SimFacts.
Import ListNotations.
Open Scope Z_scope.
Ltac Zify.zify_post_hook ::= Z.div_mod_to_equations.

(** ** Sums over the nodes *)
Definition total (N : nat) (f : nat -> nat) : nat := list_sum (map f (seq 0 N)).
Lemma total_S N f : total (S N) f = (total N f + f N)%nat.
Proof. unfold total. rewrite seq_S, map_app, list_sum_app. cbn. lia. Qed.
Lemma total_le N f g : (forall i, (i < N)%nat -> (f i <= g i)%nat) -> (total N f <= total N g)%nat.
Proof.
  induction N as [|N IH]; intros H; [cbn; lia|]. rewrite !total_S. specialize (IH (fun i Hi => H i ltac:(lia))). specialize (H N ltac:(lia)). lia.
Qed.
Lemma total_add N f g : total N (fun i => f i + g i)%nat = (total N f + total N g)%nat.
Proof. induction N as [|N IH]; [reflexivity|]. rewrite !total_S, IH. lia. Qed.
Lemma total_const N c : total N (fun _ => c) = (N * c)%nat.
Proof. induction N as [|N IH]; [reflexivity|]. rewrite total_S, IH. lia. Qed.
Lemma total_pick N f k : (k < N)%nat -> total N f = (f k + total N (fun i => if Nat.eqb i k then 0 else f i))%nat.
Proof.
  induction N as [|N IH]; intros H; [lia|]. rewrite !total_S. destruct (Nat.eqb_spec N k) as [->|Ne].
  - assert (E : total k (fun i => if Nat.eqb i k then 0%nat else f i) = total k f); [|lia].
    apply Nat.le_antisymm; apply total_le; intros i Hi; destruct (Nat.eqb_spec i k); lia.
  - rewrite IH by lia. lia.
Qed.
Definition one {A} (x : option A) : nat := if is_some x then 1 else 0.

Definition ids (out : list rtx) : list Z := map (fun x => pid (rtx_packet x)) out.
Lemma NoDup_snoc {A} (l : list A) x : NoDup l -> ~ In x l -> NoDup (l ++ [x]).
Proof. intros D I. apply (Permutation_NoDup (Permutation_cons_append l x)). constructor; assumption. Qed.

Lemma in_recent (P A : list Z) x : (length A <= 5)%nat -> In x A -> In x (last5 (P ++ A)).
Proof. intros L I. rewrite last5_app by exact L. apply in_or_app. right. exact I. Qed.

Lemma zid p : pid (zero_tail p) = pid p. Proof. reflexivity. Qed.
Lemma ztype p : ptype (zero_tail p) = ptype p. Proof. reflexivity. Qed.

Lemma after_out_one (slot : option packet) out : (one (after_out slot out) <= one slot + length out)%nat.
Proof. destruct out as [|x out]; [cbn; lia|]. unfold one. destruct (is_some _); cbn [length]; lia. Qed.

Lemma after_out_all' (Q : packet -> Prop) out slot p : (forall q, slot = Some q -> Q q) -> (forall x, In x out -> Q (rtx_packet x)) ->
  after_out slot out = Some p -> Q p.
Proof.
  revert slot. induction out as [|x out IH]; intros slot H0 H1 E; [apply H0; exact E|]. cbn in E.
  apply (IH (Some (rtx_packet x))); [intros q [= <-]; apply H1; left; reflexivity|intros y Hy; apply H1; right; exact Hy|exact E].
Qed.

(** ** The master *)
(** What it transmitted since time [b]: at most one packet of each kind. *)
Record lead (b t : Z) (n : node) (U : list Z) : Prop := mkLead {
  d_ok : nodeok n;
  d_state : state n = Master;
  d_knows : exists P, knows (nm n) (P ++ U);
  d_count : (length U <= bit (Z.leb (b + 1000) (t_hb n)) + bit (Z.leb (b + 2000) (t_bc n)) + bit (Z.leb (b + 60000) (t_ce n)))%nat;
  d_hb : 0 < t_hb n;
  d_bc : 0 < t_bc n
}.

Lemma lead_short b t n U : lead b t n U -> (length U <= 3)%nat.
Proof.
  intros D. pose proof (d_count _ _ _ _ D).
  unfold bit in *. repeat match goal with H : context [if ?b then _ else _] |- _ => destruct b end; lia.
Qed.

Lemma lead_tick e b t n U inc out n' : lead b t n U -> 0 <= b <= t -> t <= b + 999 -> t < 4294967296 - 70000 -> inc_sound inc ->
  (forall p, inc = Some p -> In (pid p) U) -> tick e t n inc out n' ->
  lead b t n' (U ++ map (fun x => pid (rtx_packet x)) out) /\ t <= t_hb n' /\
  Forall (fun x => ptype (rtx_packet x) = 0 \/ ptype (rtx_packet x) = 2) out.
Proof.
  intros L Hb Ht Hc I Own T. pose proof (lead_short _ _ _ _ L) as Sh. destruct L as [Nk St [P Kn] Co Ph Pb].
  assert (Hd : heard n inc = None).
  { destruct inc as [p|]; [|reflexivity]. apply (knows_heard n _ p Kn). apply in_recent; [lia|]. apply Own. reflexivity. }
  destruct (tick_nodeok e t n inc _ _ Nk I ltac:(lia) T) as [Nk' _].
  pose proof (proj1 Nk) as Gd. pose proof (g_ce _ Gd) as Rce. pose proof (g_bc _ Gd) as Rbc. pose proof (g_hb _ Gd) as Rhb.
  inversion T; subst; try congruence.
  - destruct H0 as [D1 _]. apply timer_due_false in D1; [|lia]. cbn [map]. rewrite app_nil_r.
    split; [constructor; eauto|]. split; [lia|constructor].
  - apply timer_due_iff in H1; [|lia]. split; [|split; [cbn; rewrite u32_id by lia; lia|constructor; [left; reflexivity|constructor]]].
    constructor; auto; cbn [with_t_hb with_packet_ with_nm with_rng nm t_hb t_bc t_ce state map rtx_packet]; rewrite ?u32_id by lia; try lia.
    + exists P. rewrite app_assoc. apply knows_push. exact Kn.
    + rewrite app_length. cbn [length]. destruct (Z.leb_spec (b + 1000) (t + 1000)); [|lia]. destruct (Z.leb_spec (b + 1000) (t_hb n)); [lia|].
      cbn [bit] in *. lia.
  - apply timer_due_false in H1; [|lia]. apply timer_due_iff in H2; [|lia]. split; [|split; [cbn; lia|constructor; [right; reflexivity|constructor]]].
    constructor; auto; cbn [with_t_ce with_effect_index with_set_effect_packet with_packet_ with_nm with_rng nm t_hb t_bc t_ce state map rtx_packet]; rewrite ?u32_id by lia; try lia.
    + exists P. rewrite app_assoc. apply knows_push. exact Kn.
    + rewrite app_length. cbn [length]. destruct (Z.leb_spec (b + 60000) (t + 60000)); [|lia]. destruct (Z.leb_spec (b + 60000) (t_ce n)); [lia|].
      cbn [bit] in *. lia.
  - apply timer_due_false in H1; [|lia]. apply timer_due_iff in H3; [|lia]. split; [|split; [cbn; lia|constructor; [right; apply Nk|constructor]]].
    constructor; auto; cbn [with_t_bc with_set_effect_packet with_nm with_rng nm t_hb t_bc t_ce state map rtx_packet]; rewrite ?u32_id by lia; try lia.
    + exists P. rewrite app_assoc. apply knows_push. exact Kn.
    + rewrite app_length. cbn [length]. destruct (Z.leb_spec (b + 2000) (t + 2000)); [|lia]. destruct (Z.leb_spec (b + 2000) (t_bc n)); [lia|].
      cbn [bit] in *. lia.
Qed.

Lemma lead_machine e b t n U inc n' evs : plat e = Host -> lead b t n U -> 0 <= b <= t -> t <= b + 999 -> t < 4294967296 - 70000 -> inc_sound inc ->
  (forall p, inc = Some p -> In (pid p) U) -> machine e t true inc n = Ok (n', evs) ->
  lead b t n' (U ++ map (fun x => pid (rtx_packet x)) (outs evs)) /\ t <= t_hb n' /\
  Forall (fun x => ptype (rtx_packet x) = 0 \/ ptype (rtx_packet x) = 2) (outs evs).
Proof.
  intros Pl L Hb Ht Hc I Own Em. unfold machine in Em. rewrite u32_id in Em by lia.
  destruct (nodeok_runs e t n inc Pl (d_ok _ _ _ _ L) I ltac:(lia)) as (n1 & o1 & E1 & T1). rewrite E1 in Em.
  destruct (lead_tick e b t n U inc o1 n1 L Hb Ht Hc I Own T1) as (L1 & H1 & F1).
  destruct (nodeok_runs e t n1 inc Pl (d_ok _ _ _ _ L1) I ltac:(lia)) as (n2 & o2 & E2 & T2). rewrite E2 in Em.
  destruct (lead_tick e b t n1 _ inc o2 n2 L1 Hb Ht Hc I (fun p H => in_or_app _ _ _ (or_introl (Own p H))) T2) as (L2 & H2 & F2).
  injection Em as <- <-. unfold outs. cbn [map concat sent]. rewrite app_nil_r, map_app, app_assoc.
  split; [exact L2|]. split; [exact H2|]. apply Forall_app. auto.
Qed.

(** ** Heartbeats a node has taken *)
(** Node [k] took a heartbeat at time [t]: it passed it on as a slave. *)
Definition took_in (evs : list event) : Prop :=
  exists ev p, In ev evs /\ state (before ev) = Slave /\ In (Forwarded p) (sent ev) /\ ptype p = 0.
Definition took (log : list (nat * event)) (k : nat) (t : Z) : Prop :=
  exists ev p, In ev (calls_of k log) /\ at_ ev = t /\ state (before ev) = Slave /\ In (Forwarded p) (sent ev) /\ ptype p = 0.

Lemma took_round (name : nat -> nat) (evs : nat -> list event) N log log' t i t' :
  (forall i j, (i < N)%nat -> (j < N)%nat -> name i = name j -> i = j) ->
  log' = log ++ flat_map (fun i => map (pair (name i)) (evs i)) (seq 0 N) ->
  (i < N)%nat -> Forall (fun ev => at_ ev = t) (evs i) ->
  took log' (name i) t' <-> took log (name i) t' \/ (t' = t /\ took_in (evs i)).
Proof.
  intros Inj -> Hi At. rewrite Forall_forall in At. unfold took, took_in. setoid_rewrite calls_of_app.
  destruct (calls_of_round name evs N (name i) Inj) as [R _]. rewrite (R i Hi eq_refl). split.
  - intros (ev & p & I & E & S). apply in_app_or in I as [I|I]; [left; exists ev, p; auto|]. right. split; [rewrite <- E; apply At; exact I|].
    exists ev, p. auto.
  - intros [(ev & p & I & E & S)|[-> (ev & p & I & S)]]; [exists ev, p; split; [apply in_or_app; left; exact I|auto]|].
    exists ev, p. split; [apply in_or_app; right; exact I|]. split; [apply At; exact I|]. exact S.
Qed.

Lemma took_in_dec evs : took_in evs \/ ~ took_in evs.
Proof.
  assert (D : forall l, (exists p, In (Forwarded p) l /\ ptype p = 0) \/ ~ (exists p, In (Forwarded p) l /\ ptype p = 0)).
  { induction l as [|x l IH]; [right; intros (p & [] & _)|]. destruct IH as [(p & I & E)|No]; [left; exists p; split; [right; exact I|exact E]|].
    destruct x as [p|? p]; [|right; intros (q & [[=]|I] & E); apply No; eauto]. 
    destruct (Z.eq_dec (ptype p) 0) as [E|E]; [left; exists p; split; [left; reflexivity|exact E]|].
    right. intros (q & [[= ->]|I] & Eq); [contradiction|apply No; eauto]. }
  induction evs as [|ev evs IH]; [right; intros (ev & p & [] & _)|].
  destruct IH as [(ev' & p & I & S)|No]; [left; exists ev', p; split; [right; exact I|exact S]|].
  destruct (state (before ev)) eqn:St; [|right; intros (ev' & p & [->|I] & S); [destruct S; congruence|apply No; exists ev', p; auto]].
  destruct (D (sent ev)) as [(p & I & E)|Nd]; [left; exists ev, p; split; [left; reflexivity|auto]|].
  right. intros (ev' & p & [->|I] & S & F); [apply Nd; exists p; exact F|apply No; exists ev', p; auto].
Qed.

Lemma took_before (log new : list (nat * event)) k c t : Forall (fun x => c < at_ (snd x)) new -> t <= c -> took (log ++ new) k t -> took log k t.
Proof.
  intros F L (ev & p & I & E & B & S & Y). rewrite calls_of_app in I. apply in_app_or in I as [I|I]; [exists ev, p; auto|].
  apply calls_of_in in I. rewrite Forall_forall in F. specialize (F _ I). cbn in F. lia.
Qed.
Lemma took_later (log new : list (nat * event)) k t : took log k t -> took (log ++ new) k t.
Proof. intros (ev & p & I & E). exists ev, p. rewrite calls_of_app. split; [apply in_or_app; left; exact I|exact E]. Qed.

(** A slave takes a heartbeat exactly when it hears one that is new to it. *)
Lemma slave_took e t n D inc n' evs : plat e = Host -> nodeok n -> state n = Slave -> knows (nm n) D -> inc_sound inc ->
  0 <= t < 4294967296 -> machine e t true inc n = Ok (n', evs) -> took_in evs ->
  exists p, inc = Some p /\ ~ In (pid p) (last5 D) /\ ptype p = 0.
Proof.
  intros Pl Nk St Kn I Ht Em (ev & p & Ie & Sb & If & Ty). unfold machine in Em. rewrite u32_id in Em by lia.
  destruct (nodeok_runs e t n inc Pl Nk I Ht) as (n1 & o1 & E1 & T1). rewrite E1 in Em.
  destruct (tick_nodeok e t n inc _ _ Nk I ltac:(lia) T1) as [Nk1 _].
  destruct (nodeok_runs e t n1 inc Pl Nk1 I Ht) as (n2 & o2 & E2 & T2). rewrite E2 in Em. injection Em as <- <-.
  assert (Hd : forall n out n', tick e t n inc out n' -> state n = Slave -> In (Forwarded p) out -> heard n inc = Some p).
  { clear - Ty. intros n out n' T St If. inversion T; subst; cbn [In] in If; try congruence; try contradiction;
      try (destruct If as [If|If]; [injection If as ->; assumption|destruct If]); try (destruct If as [If|[]]; discriminate). }
  enough (H : heard n inc = Some p).
  { exists p. pose proof (heard_some _ _ _ H) as ->. split; [reflexivity|]. split; [|exact Ty]. intros J. apply (knows_heard n D p Kn) in J. congruence. }
  destruct Ie as [<-|[<-|[]]]; cbn [before sent] in *; [exact (Hd _ _ _ T1 St If)|].
  pose proof (Hd _ _ _ T2 Sb If) as H1. pose proof (heard_some _ _ _ H1) as Ei. subst inc.
  destruct (heard n (Some p)) as [q|] eqn:Hn; [pose proof (heard_some _ _ _ Hn) as Q; injection Q as ->; reflexivity|].
  exfalso. inversion T1; subst; try congruence. discriminate Sb.
Qed.

Lemma slave_took_it e t n p n' evs : plat e = Host -> nodeok n -> state n = Slave -> sound p -> 0 <= t < 4294967296 ->
  machine e t true (Some p) n = Ok (n', evs) -> outs evs = [Forwarded p] -> ptype p = 0 -> took_in evs.
Proof.
  intros Pl Nk St So Ht Em O Ty. unfold machine in Em. rewrite u32_id in Em by lia. assert (I : inc_sound (Some p)) by (intros q [= <-]; exact So).
  destruct (nodeok_runs e t n (Some p) Pl Nk I Ht) as (n1 & o1 & E1 & T1). rewrite E1 in Em.
  destruct (RadioTick e t (Some p) n1) as [[[[] n2] o2]| |]; try discriminate. injection Em as <- <-.
  unfold outs in O. cbn [map concat sent] in O. rewrite app_nil_r in O. destruct o1 as [|x o1].
  - eexists (mkEv t _ n1 n2 o2), p. split; [right; left; reflexivity|]. cbn [before sent] in *. cbn [app] in O. rewrite O.
    split; [inversion T1; subst; congruence|]. split; [left; reflexivity|exact Ty].
  - cbn [app] in O. injection O as -> _. eexists (mkEv t _ n n1 _), p. split; [left; reflexivity|]. cbn [before sent].
    split; [exact St|]. split; [left; reflexivity|exact Ty].
Qed.

(** ** Everybody waits *)
Record hush (name : nat -> nat) (due : nat -> Z) (c0 : Z) (N : nat) (w : fakenet) : Prop := mkHush {
  u_ok : ok N w;
  u_names : forall i, (i < N)%nat -> f_name w i = name i;
  u_inj : forall i j, (i < N)%nat -> (j < N)%nat -> name i = name j -> i = j;
  u_ticked : forall i, (i < N)%nat -> f_ticked w i = true;
  u_air : cell w Air = None;
  u_slots : forall i, (i < N)%nat -> cell w (Radio i) = None;
  u_nodes : forall i, (i < N)%nat -> state (f_node w i) = Slave /\ (exists P, knows (nm (f_node w i)) P) /\ t_hb (f_node w i) = due i;
  u_took : forall i t, (i < N)%nat -> took (f_log w) (name i) t -> t <= c0;
  u_clock : c0 <= f_clock w
}.

(** ** Node [m] leads *)
(** [b]: since when packets have been in the air or waiting without a break.
    [U]: the ids [m] transmitted since then.  [A i]: the ids node [i] took
    since then. *)
Record held (name : nat -> nat) (due : nat -> Z) (c0 : Z) (N m : nat) (w : fakenet) (b : Z) (U : list Z) (A : nat -> list Z) : Prop := mkHeld {
  h_ok : ok N w;
  h_m : (m < N)%nat;
  h_names : forall i, (i < N)%nat -> f_name w i = name i;
  h_inj : forall i j, (i < N)%nat -> (j < N)%nat -> name i = name j -> i = j;
  h_ticked : forall i, (i < N)%nat -> f_ticked w i = true;
  h_lead : lead b (f_clock w) (f_node w m) U;
  h_own : A m = U;
  h_slaves : forall i, (i < N)%nat -> i <> m ->
    state (f_node w i) = Slave /\ (exists P, knows (nm (f_node w i)) (P ++ A i)) /\ NoDup (A i) /\ incl (A i) U;
  h_slots : forall i p, (i < N)%nat -> cell w (Radio i) = Some p -> In (pid p) U;
  h_air : forall p, cell w Air = Some p -> In (pid p) U /\ (ptype p = 0 \/ ptype p = 2);
  h_types : forall i p, (i < N)%nat -> cell w (Radio i) = Some p -> ptype p = 0 \/ ptype p = 2;
  h_count : U <> [] -> 0 <= b <= f_clock w /\
    f_clock w - b + 1 + Z.of_nat (total N (fun i => one (cell w (Radio i)))) <= Z.of_nat (total N (fun i => length (A i)));
  h_patience : forall i, (i < N)%nat -> i <> m ->
    (forall t, c0 < t -> took (f_log w) (name i) t -> t + 5000 <= t_hb (f_node w i)) /\
    ((forall t, c0 < t -> ~ took (f_log w) (name i) t) -> t_hb (f_node w i) = due i) /\
    (forall t, took (f_log w) (name i) t -> t <= f_clock w)
}.

Section Hush.
Variable s : source.
Variable name : nat -> nat.
Variable due : nat -> Z.
Variable c0 : Z.
Variable N : nat.

(** ** Before node [m] takes over *)
Lemma hush_advance w d : 0 <= d -> hush name due c0 N w -> hush name due c0 N (advanceMillis d w).
Proof.
  intros Hd [K C1 C2 C3 C4 C5 C6 C7 C8]. constructor; auto; [|cbn; lia].
  destruct K as [[? ? ? ?] ? ?]; constructor; [constructor|..]; auto; cbn; lia.
Qed.

Lemma ok_loss w l : ok N w -> ok N (setPacketLoss l w).
Proof. intros [[? ? ? ?] ? ?]; constructor; [constructor|..]; auto. Qed.

Lemma hush_loss w l : hush name due c0 N w -> hush name due c0 N (setPacketLoss l w).
Proof. intros [K C1 C2 C3 C4 C5 C6 C7 C8]. constructor; auto. apply ok_loss. exact K. Qed.

Lemma held_loss m w l b U A : held name due c0 N m w b U A -> held name due c0 N m (setPacketLoss l w) b U A.
Proof. intros [K Hm Nm Inj Tk Ld Ow Sl Ss Ar Ty Co Pa]. constructor; auto. apply ok_loss. exact K. Qed.

Lemma hush_due w i : hush name due c0 N w -> (i < N)%nat -> 0 <= due i < 4294967296.
Proof. intros C Hi. destruct (u_nodes _ _ _ _ _ C i Hi) as (_ & _ & <-). apply (g_hb _ (proj1 (k_nodes _ _ (u_ok _ _ _ _ _ C) i Hi))). Qed.

Lemma hush_hears w i : hush name due c0 N w -> receives s w i = None.
Proof. intros C. unfold receives. rewrite (u_air _ _ _ _ _ C). destruct (keeps _ _ _ _); reflexivity. Qed.

Lemma hush_node w i : hush name due c0 N w -> (i < N)%nat -> f_clock w <= due i ->
  machine (env_of s (f_name w i)) (f_clock w) (f_ticked w i) (receives s w i) (f_node w i) =
  Ok (f_node w i, [mkEv (f_clock w) (OTick None) (f_node w i) (f_node w i) []; mkEv (f_clock w) (OTick None) (f_node w i) (f_node w i) []]).
Proof.
  intros C Hi Hw. pose proof (hush_due w i C Hi) as Du. rewrite (hush_hears w i C). destruct C as [K C1 C2 C3 C4 C5 C6 C7 C8]. rewrite C3 by exact Hi.
  destruct (C6 i Hi) as (P1 & [P P2] & P3). pose proof (k_clock _ _ K).
  apply (slave_ignores (env_of s (f_name w i)) (f_clock w) (f_node w i) P); auto; try lia; try (intros p [=]); try (apply (k_nodes _ _ K i Hi)).
Qed.

Lemma took_quiet (w w' : fakenet) (evs : nat -> list event) i t : hush name due c0 N w -> (i < N)%nat ->
  f_log w' = f_log w ++ flat_map (fun i => map (pair (f_name w i)) (evs i)) (seq 0 N) ->
  (forall p, ~ In (Forwarded p) (outs (evs i))) -> took (f_log w') (name i) t -> took (f_log w) (name i) t.
Proof.
  intros C Hi Lg Q (ev & p & I & E & B & S & Y). pose proof C as [K C1 C2 C3 C4 C5 C6 C7 C8]. rewrite Lg, calls_of_app in I.
  apply in_app_or in I as [I|I]; [exists ev, p; auto|]. exfalso.
  destruct (calls_of_round (f_name w) evs N (name i)) as [R _].
  { intros a b Ha Hb. rewrite !C1 by assumption. apply C2; assumption. }
  rewrite (R i Hi (C1 i Hi)) in I. apply (Q p). unfold outs. apply in_concat. exists (sent ev). split; [apply in_map; exact I|exact S].
Qed.

Lemma hush_tick w w' : hush name due c0 N w -> (forall i, (i < N)%nat -> f_clock w <= due i) -> FakeTick s N w = Ok w' ->
  hush name due c0 N w' /\ f_clock w' = f_clock w.
Proof.
  intros C Hw E. pose proof C as [K C1 C2 C3 C4 C5 C6 C7 C8].
  destruct (FakeTick_ok s N w K) as (evs & w1 & E1 & K1 & Tm & Lg & Nm & _ & _ & _ & Ck & Res).
  rewrite E in E1. injection E1 as <-.
  assert (Q : forall i, (i < N)%nat -> f_node w' i = f_node w i /\ outs (evs i) = []).
  { intros i Hi. destruct (Tm i Hi) as [Em _]. rewrite (hush_node w i C Hi (Hw i Hi)) in Em. injection Em as <- <-. auto. }
  split; [|exact Ck].
  pose proof (first_some (fun i => is_some (after_out (cell w (Radio i)) (outs (evs i)))) N) as FS. cbv zeta in Res.
  destruct (find _ (seq 0 N)) as [k|].
  { destruct FS as (Lk & Fk & _). destruct (Q k Lk) as [_ Qk]. rewrite Qk, C5 in Fk by exact Lk. discriminate. }
  destruct Res as [RA RR]. constructor; auto.
  - intros i Hi. rewrite Nm. auto.
  - intros i Hi. apply (Tm i Hi).
  - intros i Hi. rewrite (proj1 (Q i Hi)). auto.
  - intros i t Hi T. apply (C7 i t Hi). apply (took_quiet w w' evs i t C Hi Lg); [|exact T]. intros p. rewrite (proj2 (Q i Hi)). intros [].
  - rewrite Ck. exact C8.
Qed.

Lemma hush_takes_over m w w' : hush name due c0 N w -> (m < N)%nat -> due m <> 0 -> f_clock w = due m + 1 -> f_clock w < 4294967296 - 70000 ->
  (forall i, (i < N)%nat -> i <> m -> due m < due i) -> FakeTick s N w = Ok w' ->
  f_clock w' = f_clock w /\ exists b U A, held name due c0 N m w' b U A.
Proof.
  intros C Hm Nz0 Hc Hc2 First E. pose proof C as [K C1 CI C2 C3 C4 C6 C7 C8]. pose proof (hush_due w m C Hm) as Wm.
  destruct (FakeTick_ok s N w K) as (evs & w1 & E1 & K1 & Tm & Lg & Nm & _ & _ & _ & Ck & Res).
  rewrite E in E1. injection E1 as <-. split; [exact Ck|].
  assert (Q : forall i, (i < N)%nat -> i <> m -> f_node w' i = f_node w i /\ outs (evs i) = []).
  { intros i Hi Ni. specialize (First i Hi Ni). destruct (Tm i Hi) as [Em _]. rewrite (hush_node w i C Hi ltac:(lia)) in Em. injection Em as <- <-. auto. }
  destruct (C6 m Hm) as (P1 & [P P2] & P3).
  set (t := f_clock w) in *. set (n := f_node w m) in *.
  assert (Mach : exists n' ev x, machine (env_of s (f_name w m)) t true None n = Ok (n', ev) /\ outs ev = [Own ByHeartbeat x] /\
     ptype x = 0 /\ lead t t n' [pid x]).
  { unfold machine. rewrite u32_id by lia. assert (I : inc_sound None) by (intros p [=]).
    destruct (nodeok_runs (env_of s (f_name w m)) t n None eq_refl (k_nodes _ _ K m Hm) I ltac:(lia)) as (n1 & o1 & R1 & T1). rewrite R1.
    assert (Due : timer_due t (t_hb n) = true) by (apply timer_due_iff; lia).
    destruct (tick_nodeok _ t n None _ _ (k_nodes _ _ K m Hm) I ltac:(lia) T1) as [Nk1 _].
    inversion T1; subst; try congruence; try discriminate.
    { destruct H0; congruence. }
    match goal with |- context [RadioTick _ t None ?y] => set (n1 := y) in * end.
    destruct (nodeok_runs (env_of s (f_name w m)) t n1 None eq_refl Nk1 I ltac:(lia)) as (n2 & o2 & R2 & T2). rewrite R2.
    assert (Hb1 : t_hb n1 = t + 1000) by (subst n1; cbn; apply u32_id; lia).
    assert (Bc1 : t_bc n1 = t + 2000) by (subst n1; cbn; apply u32_id; lia).
    assert (Ce1 : t_ce n1 = 0 \/ t < t_ce n1).
    { subst n1. cbn. unfold ce_takeover. pose proof (u32_range (t - seen_at n)) as Ru. set (d := u32 (t - seen_at n)) in *.
      destruct (Z.ltb_spec 60000 d); [right; rewrite u32_id; lia|]. destruct (Z.eqb_spec d 60000); [left; reflexivity|]. right. rewrite u32_id; lia. }
    assert (Rce : 0 <= t_ce n1 < 4294967296) by (apply (g_ce _ (proj1 Nk1))).
    assert (St1 : state n1 = Master) by reflexivity.
    assert (D1 : timer_due t (t_hb n1) = false) by (apply timer_due_false; lia).
    assert (D2 : timer_due t (t_ce n1) = false) by (apply timer_due_false; lia).
    assert (D3 : timer_due t (t_bc n1) = false) by (apply timer_due_false; lia).
    inversion T2; subst; try congruence; try discriminate.
    eexists _, _, (hb_packet (env_of s (f_name w m)) t n). split; [reflexivity|]. split; [reflexivity|]. split; [reflexivity|].
    constructor; auto; try lia.
    - exists P. apply (knows_push (nm n) P _). exact P2.
    - rewrite Hb1. destruct (Z.leb_spec (t + 1000) (t + 1000)); [|lia]. cbn [length bit]. lia. }
  destruct Mach as (n' & ev & x & Em & Eo & Ty & M).
  destruct (Tm m Hm) as [Em' _]. rewrite (hush_hears w m C), C2 in Em' by exact Hm. fold n in Em'. rewrite Em in Em'. injection Em' as En Eev.
  exists t, [pid x], (fun i => if Nat.eqb i m then [pid x] else []).
  pose proof (first_some (fun i => is_some (after_out (cell w (Radio i)) (outs (evs i)))) N) as FS. cbv zeta in Res.
  destruct (find _ (seq 0 N)) as [k|].
  2:{ specialize (FS m Hm). cbn beta in FS. rewrite <- Eev, Eo, C4 in FS by exact Hm. discriminate. }
  destruct FS as (Lk & Fk & _). destruct Res as [RA RR].
  assert (Ek : k = m).
  { destruct (Nat.eq_dec k m) as [X|X]; [exact X|]. destruct (Q k Lk X) as [_ Qk]. rewrite Qk, C4 in Fk by exact Lk. discriminate. }
  subst k. rewrite <- Eev, Eo, C4 in RA by exact Hm. cbn [after_out fold_left rtx_packet] in RA.
  assert (Sn : forall i, (i < N)%nat -> cell w' (Radio i) = None).
  { intros i Hi. rewrite RR by exact Hi. destruct (Nat.eqb_spec i m) as [|Ne]; [reflexivity|]. rewrite (proj2 (Q i Hi Ne)), C4 by exact Hi. reflexivity. }
  constructor; auto.
  - intros i Hi. rewrite Nm. auto.
  - intros i Hi. apply (Tm i Hi).
  - rewrite Ck, <- En. exact M.
  - rewrite Nat.eqb_refl. reflexivity.
  - intros i Hi Ne. destruct (Nat.eqb_spec i m); [contradiction|]. rewrite (proj1 (Q i Hi Ne)). destruct (C6 i Hi) as (S1 & [Pi S2] & _).
    split; [exact S1|]. split; [exists Pi; rewrite app_nil_r; exact S2|]. split; [constructor|intros ? []].
  - intros i p Hi. rewrite Sn by exact Hi. discriminate.
  - intros p. rewrite RA. intros [= <-]. split; [left; reflexivity|left; exact Ty].
  - intros i p Hi. rewrite Sn by exact Hi. discriminate.
  - intros _. rewrite Ck. split; [lia|].
    assert (Z0 : total N (fun i => one (cell w' (Radio i))) = 0%nat).
    { apply Nat.le_0_r. rewrite <- (Nat.mul_0_r N), <- (total_const N 0). apply total_le. intros i Hi. rewrite Sn by exact Hi. cbn. lia. }
    rewrite Z0, (total_pick N _ m Hm), Nat.eqb_refl. cbn [length]. lia.
  - intros i Hi Ne. assert (Qt : forall t, took (f_log w') (name i) t -> took (f_log w) (name i) t).
    { intros t' T'. apply (took_quiet w w' evs i t' C Hi Lg); [|exact T']. intros p. rewrite (proj2 (Q i Hi Ne)). intros []. }
    split; [|split].
    + intros t' H1 H2. specialize (C7 i t' Hi (Qt t' H2)). lia.
    + intros _. rewrite (proj1 (Q i Hi Ne)). apply (C6 i Hi).
    + intros t' H2. specialize (C7 i t' Hi (Qt t' H2)). rewrite Ck. lia.
Qed.

End Hush.

(** Rounds, with the packet loss [ls] set before each of them. *)
Definition lossy (ls : list Z) : list fop := flat_map (fun l => [FLoss l; FAdvance 1; FTick]) ls.

Lemma lossy_log s N ls : forall w w', ok N w -> fsteps s N (lossy ls) w = Ok w' ->
  ok N w' /\ f_clock w' = f_clock w + Z.of_nat (length ls) /\ exists new, f_log w' = f_log w ++ new /\ Forall (fun x => f_clock w < at_ (snd x)) new.
Proof.
  induction ls as [|l ls IH]; intros w w' K E.
  - cbn in E. injection E as <-. split; [exact K|]. split; [cbn; lia|]. exists []. rewrite app_nil_r. split; [reflexivity|constructor].
  - cbn [lossy flat_map app fsteps fstep obind] in E. fold (lossy ls) in E.
    assert (K0 : ok N (advanceMillis 1 (setPacketLoss l w))) by (destruct K as [[? ? ? ?] ? ?]; constructor; [constructor|..]; auto; cbn; lia).
    destruct (FakeTick_ok s N _ K0) as (evs & w1 & E1 & K1 & Tm & Lg & _ & _ & _ & _ & Ck & _). rewrite E1 in E. cbn [obind] in E.
    destruct (IH w1 w' K1 E) as (K' & Ck' & new & Lg' & F). split; [exact K'|].
    cbn [advanceMillis set_clock f_clock setPacketLoss set_loss f_log] in *.
    split; [rewrite Ck', Ck; cbn [length]; lia|].
    eexists. split; [rewrite Lg', Lg, <- app_assoc; reflexivity|]. apply Forall_app. split.
    + apply Forall_forall. intros x I. apply in_flat_map in I as (i & Hi & I). apply in_map_iff in I as (ev & <- & I). apply in_seq in Hi.
      destruct (Tm i ltac:(lia)) as [Ei _]. apply machine_at in Ei. rewrite Forall_forall in Ei. cbn [snd]. rewrite (Ei ev I). lia.
    + eapply Forall_impl; [|exact F]. cbn beta. intros x H. lia.
Qed.


Section Loss.
Variable s : source.
Variable name : nat -> nat.
Variable due : nat -> Z.
Variable c0 : Z.
Variables N m : nat.
Hypothesis small : (N <= 333)%nat.
Hypothesis Pos : 0 <= c0.

Lemma held_short w b U A : held name due c0 N m w b U A ->
  (length U <= 3)%nat /\ (U <> [] -> f_clock w - b + 1 <= 3 * Z.of_nat N).
Proof.
  intros H. pose proof (lead_short _ _ _ _ (h_lead _ _ _ _ _ _ _ _ _ H)) as Sh. split; [exact Sh|].
  intros NU. destruct (h_count _ _ _ _ _ _ _ _ _ H NU) as [_ C].
  assert (B : (total N (fun i => length (A i)) <= total N (fun _ => 3))%nat).
  { apply total_le. intros i Hi. destruct (Nat.eq_dec i m) as [->|Ne]; [rewrite (h_own _ _ _ _ _ _ _ _ _ H); exact Sh|].
    destruct (h_slaves _ _ _ _ _ _ _ _ _ H i Hi Ne) as (_ & _ & D & I). pose proof (NoDup_incl_length D I). lia. }
  rewrite total_const in B. lia.
Qed.

(** One round, when nobody's patience ends in it. *)
Lemma held_round w b U A w' : held name due c0 N m w b U A -> f_clock w + 1 < 4294967296 - 70000 -> c0 <= f_clock w ->
  (forall i, (i < N)%nat -> i <> m -> f_clock w + 1 <= t_hb (f_node w i) \/ took (f_log w') (name i) (f_clock w + 1)) ->
  FakeTick s N (advanceMillis 1 w) = Ok w' ->
  f_clock w' = f_clock w + 1 /\ exists b' U' A', held name due c0 N m w' b' U' A'.
Proof.
  intros H Hc Hc0 Pat Et. pose proof (held_short w b U A H) as [Sh Bd].
  destruct H as [K Hm Nm Inj Tk Ld Ow Sl Ss Ar Ty Co Pa].
  set (w0 := advanceMillis 1 w) in *.
  assert (K0 : ok N w0) by (destruct K as [[? ? ? ?] ? ?]; constructor; [constructor|..]; auto; cbn; lia).
  assert (Ce : forall o, cell w0 o = cell w o) by (intros []; reflexivity).
  destruct (FakeTick_ok s N w0 K0) as (evs & w1 & E1 & K1 & Tm & Lg & Nm1 & _ & _ & _ & Ck & Res).
  rewrite Et in E1. injection E1 as <-.
  change (f_name w0) with (f_name w) in *. change (f_ticked w0) with (f_ticked w) in *. change (f_node w0) with (f_node w) in *.
  change (f_log w0) with (f_log w) in *. change (f_clock w0) with (f_clock w + 1) in *.
  set (t := f_clock w + 1) in *.
  assert (Ht : 0 <= t < 4294967296 - 70000) by (pose proof (k_clock _ _ K); subst t; lia).
  split; [exact Ck|].
  set (b1 := match U with [] => t | _ => b end).
  assert (Hb1 : 0 <= b1 <= t /\ t <= b1 + 999).
  { subst b1. destruct U as [|x U]; [lia|]. destruct (Co ltac:(discriminate)) as [C1 _]. specialize (Bd ltac:(discriminate)). lia. }
  assert (Ld1 : lead b1 t (f_node w m) U).
  { destruct Ld as [L1 L2 L3 L4 L5 L6]. constructor; auto. subst b1. destruct U; [cbn; lia|exact L4]. }
  assert (Rs : forall i, inc_sound (receives s w0 i)) by (intros i; apply (receives_sound s N w0 i K0)).
  assert (Ri : forall i p, receives s w0 i = Some p -> In (pid p) U /\ (ptype p = 0 \/ ptype p = 2)).
  { intros i p. unfold receives. rewrite Ce. destruct (keeps _ _ _ _); [|discriminate]. destruct (cell w Air) as [q|] eqn:Eq; [|discriminate].
    cbn [option_map]. intros [= <-]. rewrite zid, ztype. apply Ar. reflexivity. }
  (* the master *)
  destruct (Tm m Hm) as [Em _]. rewrite Tk in Em by exact Hm.
  destruct (lead_machine (env_of s (f_name w m)) b1 t (f_node w m) U (receives s w0 m) _ _ eq_refl Ld1 (proj1 Hb1) (proj2 Hb1) ltac:(lia) (Rs m) (fun p E => proj1 (Ri m p E)) Em)
    as (Ld2 & Hb2 & Ft).
  fold (ids (outs (evs m))) in Ld2. set (new := ids (outs (evs m))) in *. set (U1 := U ++ new) in *.
  assert (Tr : forall i, (i < N)%nat -> forall t', took (f_log w') (name i) t' <-> took (f_log w) (name i) t' \/ (t' = t /\ took_in (evs i))).
  { intros i Hi t'. destruct (Tm i Hi) as [Ei _]. pose proof (machine_at _ _ _ _ _ _ _ Ei) as At.
    apply (took_round name evs N (f_log w) (f_log w') t i t' Inj); [|exact Hi|exact At].
    rewrite Lg. f_equal. rewrite !flat_map_concat_map. f_equal. apply map_ext_in. intros j Ij. apply in_seq in Ij. rewrite Nm by lia. reflexivity. }
  (* the others *)
  assert (Oth : forall i, (i < N)%nat -> i <> m -> let a1 := ids (outs (evs i)) in
     state (f_node w' i) = Slave /\ (exists P, knows (nm (f_node w' i)) (P ++ A i ++ a1)) /\ NoDup (A i ++ a1) /\ incl a1 U /\
     (forall x, In x (outs (evs i)) -> ptype (rtx_packet x) = 0 \/ ptype (rtx_packet x) = 2) /\
     (took_in (evs i) -> t + 5000 <= t_hb (f_node w' i)) /\
     (~ took_in (evs i) -> t_hb (f_node w' i) = t_hb (f_node w i))).
  { intros i Hi Ne. cbv zeta. destruct (Sl i Hi Ne) as (St & [P Kn] & ND & Inc). destruct (Tm i Hi) as [Ei _]. rewrite Tk in Ei by exact Hi.
    assert (Pt : t <= t_hb (f_node w i) \/ exists p, receives s w0 i = Some p /\ ~ In (pid p) (last5 (P ++ A i)) /\ ptype p = 0).
    { destruct (Pat i Hi Ne) as [Pt|Pt]; [left; exact Pt|]. apply (Tr i Hi) in Pt as [Pt|[_ Pt]].
      - exfalso. destruct (Pa i Hi Ne) as (_ & _ & P3). specialize (P3 _ Pt). lia.
      - right. apply (slave_took (env_of s (f_name w i)) t (f_node w i) (P ++ A i) (receives s w0 i) (f_node w' i) (evs i)); auto; try lia. apply (k_nodes _ _ K i Hi). }
    assert (Sa : (length (A i) <= 3)%nat) by (pose proof (NoDup_incl_length ND Inc); lia).
    assert (Dec : (forall p, receives s w0 i = Some p -> In (pid p) (last5 (P ++ A i))) \/
                  exists p, receives s w0 i = Some p /\ ~ In (pid p) (last5 (P ++ A i))).
    { destruct (receives s w0 i) as [p|]; [|left; intros ? [=]].
      destruct (in_dec Z.eq_dec (pid p) (last5 (P ++ A i))) as [I|I]; [left; intros q [= <-]; exact I|right; exists p; auto]. }
    destruct Dec as [Old|(p & Ep & New)].
    - destruct Pt as [Pt|(p & Ep & New & _)]; [|exfalso; apply New; apply Old; exact Ep].
      rewrite (slave_ignores (env_of s (f_name w i)) t (f_node w i) (P ++ A i) (receives s w0 i) eq_refl (k_nodes _ _ K i Hi) St Kn (Rs i) ltac:(lia) Pt Old) in Ei.
      injection Ei as <- <-. cbn [outs map concat sent app ids]. rewrite !app_nil_r. split; [exact St|]. split; [exists P; exact Kn|]. split; [exact ND|].
      split; [intros x []|]. split; [intros x []|]. split; [|reflexivity]. intros (ev & p & [<-|[<-|[]]] & _ & [] & _).
    - destruct (Ri i p Ep) as [Iu Tp]. rewrite Ep in Ei.
      destruct (slave_takes (env_of s (f_name w i)) t (f_node w i) (P ++ A i) p eq_refl (k_nodes _ _ K i Hi) St Kn (Rs i p Ep) ltac:(lia) New)
        as (n' & ev & E & O & St' & Kn' & H0 & H2); [destruct Tp as [Tp|Tp]; [left; exact Tp|right; split; [exact Tp|]]|].
      { destruct Pt as [Pt|(q & Eq & _ & Tq)]; [exact Pt|]. rewrite Ep in Eq. injection Eq as <-. lia. }
      pose proof (slave_took_it (env_of s (f_name w i)) t (f_node w i) p n' ev eq_refl (k_nodes _ _ K i Hi) St (Rs i p Ep) ltac:(lia) E O) as Y.
      pose proof (slave_took (env_of s (f_name w i)) t (f_node w i) (P ++ A i) (Some p) n' ev eq_refl (k_nodes _ _ K i Hi) St Kn (fun q Q => Rs i q (eq_trans Ep Q)) ltac:(lia) E) as Y'.
      rewrite E in Ei. injection Ei as <- <-. rewrite O. cbn [ids map rtx_packet]. split; [exact St'|].
      split; [exists P; rewrite app_assoc; exact Kn'|]. split.
      { apply NoDup_snoc; [exact ND|]. intros I. apply New. apply in_recent; [lia|exact I]. }
      split; [intros x [<-|[]]; exact Iu|]. split; [intros x [<-|[]]; exact Tp|]. split.
      + intros Q. destruct (Y' Q) as (q & [= <-] & _ & T0). specialize (H0 T0). lia.
      + intros No. destruct Tp as [Tp|Tp]; [exfalso; apply No; apply Y; exact Tp|apply H2; exact Tp]. }
  set (A1 := fun i => A i ++ ids (outs (evs i))).
  set (full := fun i => after_out (cell w0 (Radio i)) (outs (evs i))) in *. cbv zeta in Res.
  assert (Fu : forall i p, (i < N)%nat -> full i = Some p -> In (pid p) U1 /\ (ptype p = 0 \/ ptype p = 2)).
  { intros i p Hi. unfold full. rewrite Ce. apply (after_out_all' (fun p => In (pid p) U1 /\ (ptype p = 0 \/ ptype p = 2))).
    - intros q Eq. split; [apply in_or_app; left; exact (Ss i q Hi Eq)|exact (Ty i q Hi Eq)].
    - intros x Ix. destruct (Nat.eq_dec i m) as [->|Ne].
      + split; [apply in_or_app; right; unfold new, ids; apply (in_map (fun x => pid (rtx_packet x))); exact Ix|]. rewrite Forall_forall in Ft. apply Ft. exact Ix.
      + destruct (Oth i Hi Ne) as (_ & _ & _ & I1 & T1 & _). split; [|apply T1; exact Ix].
        apply in_or_app. left. apply I1. apply (in_map (fun x => pid (rtx_packet x))). exact Ix. }
  assert (Wt : (total N (fun i => one (full i)) + total N (fun i => length (A i)) <= total N (fun i => one (cell w (Radio i))) + total N (fun i => length (A1 i)))%nat).
  { rewrite <- !total_add. apply total_le. intros i Hi. unfold full, A1, ids. rewrite Ce, app_length, map_length.
    pose proof (after_out_one (cell w (Radio i)) (outs (evs i))). lia. }
  assert (Pa1 : forall i, (i < N)%nat -> i <> m ->
    (forall t, c0 < t -> took (f_log w') (name i) t -> t + 5000 <= t_hb (f_node w' i)) /\
    ((forall t, c0 < t -> ~ took (f_log w') (name i) t) -> t_hb (f_node w' i) = due i) /\
    (forall t', took (f_log w') (name i) t' -> t' <= f_clock w')).
  { intros i Hi Ne. destruct (Oth i Hi Ne) as (_ & _ & _ & _ & _ & Y1 & Y2). destruct (Pa i Hi Ne) as (P1 & P2 & P3).
    pose proof (took_in_dec (evs i)) as Dec.
    split; [|split].
    - intros t' Ht' Tk'. apply (Tr i Hi) in Tk' as [Tk'|[-> Ex]]; [|apply Y1; exact Ex].
      destruct Dec as [Ex|No]; [|rewrite (Y2 No); apply P1; assumption]. specialize (Y1 Ex). 
      specialize (P3 t' Tk'). subst t. lia.
    - intros No. destruct Dec as [Ex|Ne2]; [exfalso; apply (No t ltac:(subst t; lia)); apply (Tr i Hi); right; auto|].
      rewrite (Y2 Ne2). apply P2. intros t' Ht' Tk'. apply (No t' Ht'). apply (Tr i Hi). left. exact Tk'.
    - intros t' Tk'. rewrite Ck. apply (Tr i Hi) in Tk' as [Tk'|[-> _]]; [specialize (P3 t' Tk'); subst t; lia|lia]. }
  pose proof (first_some (fun i => is_some (full i)) N) as FS.
  destruct (find (fun i => is_some (full i)) (seq 0 N)) as [k|].
  - destruct FS as (Lk & Fk & _). destruct Res as [RA RR].
    exists b1, U1, A1.
    assert (NU : U1 <> []).
    { destruct (full k) as [p|] eqn:Ef; [|discriminate]. destruct (Fu k p Lk Ef) as [I _]. intros Q. rewrite Q in I. destruct I. }
    constructor; auto.
    + intros i Hi. rewrite Nm1. apply Nm. exact Hi.
    + intros i Hi. apply (Tm i Hi).
    + rewrite Ck. exact Ld2.
    + unfold A1. rewrite Ow. reflexivity.
    + intros i Hi Ne. destruct (Oth i Hi Ne) as (O1 & O2 & O3 & O4 & _). destruct (Sl i Hi Ne) as (_ & _ & _ & Inc).
      split; [exact O1|]. split; [exact O2|]. split; [exact O3|]. unfold A1, U1. intros x I. apply in_or_app. left.
      apply in_app_or in I as [I|I]; [apply Inc; exact I|apply O4; exact I].
    + intros i p Hi. rewrite RR by exact Hi. destruct (Nat.eqb i k); [discriminate|]. intros E. apply (Fu i p Hi E).
    + intros p. rewrite RA. intros E. apply (Fu k p Lk E).
    + intros i p Hi. rewrite RR by exact Hi. destruct (Nat.eqb i k); [discriminate|]. intros E. apply (Fu i p Hi E).
    + intros _. rewrite Ck. split; [lia|].
      assert (Pk : (total N (fun i => one (cell w' (Radio i))) + 1 <= total N (fun i => one (full i)))%nat).
      { rewrite (total_pick N (fun i => one (full i)) k Lk). unfold one at 2. rewrite Fk.
        enough (total N (fun i => one (cell w' (Radio i))) <= total N (fun i => if Nat.eqb i k then 0 else one (full i)))%nat by lia.
        apply total_le. intros i Hi. rewrite RR by exact Hi. destruct (Nat.eqb i k); [cbn; lia|apply Nat.le_refl]. }
      subst b1. destruct U as [|x U].
      * assert (Z0 : total N (fun i => one (cell w (Radio i))) = 0%nat).
        { apply Nat.le_0_r. rewrite <- (Nat.mul_0_r N), <- (total_const N 0). apply total_le. intros i Hi. unfold one.
          destruct (cell w (Radio i)) as [p|] eqn:E; [destruct (Ss i p Hi E)|cbn; lia]. }
        lia.
      * destruct (Co ltac:(discriminate)) as [_ C]. subst t. lia.
  - destruct Res as [RA RR]. exists t, [], (fun i => []).
    assert (O0 : outs (evs m) = []).
    { specialize (FS m Hm). apply not_some in FS. unfold full in FS. destruct (outs (evs m)) as [|x l]; [reflexivity|].
      exfalso. revert FS. generalize (cell w0 (Radio m)). cbn. generalize (rtx_packet x). clear.
      intros p _. revert p. induction l as [|y l IH]; intros p; [discriminate|]. cbn. apply IH. }
    constructor; auto.
    + intros i Hi. rewrite Nm1. apply Nm. exact Hi.
    + intros i Hi. apply (Tm i Hi).
    + rewrite Ck. destruct Ld2 as [L1 L2 [P L3] L4 L5 L6]. constructor; auto; [|cbn; lia]. exists (P ++ U1). rewrite app_nil_r. exact L3.
    + intros i Hi Ne. destruct (Oth i Hi Ne) as (O1 & [P O2] & _). split; [exact O1|]. split; [exists (P ++ A i ++ ids (outs (evs i))); rewrite app_nil_r; exact O2|].
      split; [constructor|intros x []].
    + intros i p Hi. rewrite RR by exact Hi. discriminate.
    + intros p. rewrite RA. discriminate.
    + intros i p Hi. rewrite RR by exact Hi. discriminate.
    + congruence.
Qed.

(** ** The run *)
Hypothesis Hm : (m < N)%nat.
Hypothesis Some_time : due m <> 0.
Hypothesis First : forall i, (i < N)%nat -> i <> m -> due m < due i.

Definition early_or_held (w : fakenet) : Prop :=
  (hush name due c0 N w /\ f_clock w <= due m) \/ ((exists b U A, held name due c0 N m w b U A) /\ due m < f_clock w).

(** Nobody but [m] is without a heartbeat for too long, up to time [upto]. *)
Definition in_touch (log : list (nat * event)) (upto : Z) : Prop :=
  forall i, (i < N)%nat -> i <> m -> forall t, c0 < t <= upto ->
    (exists t', c0 < t' /\ t - 5000 <= t' <= t /\ took log (name i) t') \/
    ((forall t', c0 < t' < t -> ~ took log (name i) t') /\ t <= due i).

Lemma early_held_ok w : early_or_held w -> ok N w.
Proof. intros [[C _]|[(b & U & A & R) _]]; [apply C|apply R]. Qed.

Lemma lossy_run ls : forall w w', early_or_held w -> c0 <= f_clock w -> f_clock w + Z.of_nat (length ls) < 4294967296 - 70000 ->
  fsteps s N (lossy ls) w = Ok w' -> in_touch (f_log w') (f_clock w') -> early_or_held w'.
Proof.
  induction ls as [|l ls IH]; intros w w' H H0 Hc E Tch.
  - cbn in E. injection E as <-. exact H.
  - pose proof (early_held_ok w H) as K. pose proof (lossy_log s N (l :: ls) w w' K E) as (_ & CkE & new & LgE & FE).
    cbn [lossy flat_map app fsteps fstep obind] in E. fold (lossy ls) in E. cbn [length] in Hc, CkE.
    destruct (FakeTick s N (advanceMillis 1 (setPacketLoss l w))) as [w1| |] eqn:E1; try discriminate. cbn [obind] in E.
    assert (K1 : ok N w1 /\ f_clock w1 = f_clock w + 1).
    { assert (K0 : ok N (advanceMillis 1 (setPacketLoss l w))) by (destruct K as [[? ? ? ?] ? ?]; constructor; [constructor|..]; auto; cbn; lia).
      destruct (FakeTick_ok s N _ K0) as (evs & w2 & E2 & K2 & _ & _ & _ & _ & _ & _ & Ck & _). rewrite E1 in E2. injection E2 as <-. auto. }
    destruct K1 as [K1 Ck1].
    enough (f_clock w1 = f_clock w + 1 /\ early_or_held w1) as [Ck H1] by (apply (IH w1 w' H1); try lia; assumption).
    destruct H as [[C Hw]|[(b & U & A & R) Hw]].
    + pose proof (hush_advance name due c0 N _ 1 ltac:(lia) (hush_loss name due c0 N w l C)) as C'.
      destruct (Z.le_gt_cases (f_clock w + 1) (due m)) as [L|L].
      * destruct (hush_tick s name due c0 N _ w1 C') as [C2 Ck]; [|exact E1|].
        { intros i Hi. cbn. destruct (Nat.eq_dec i m) as [->|Ne]; [lia|]. specialize (First i Hi Ne). lia. }
        split; [exact Ck|]. left. split; [exact C2|]. rewrite Ck. cbn. lia.
      * destruct (hush_takes_over s name due c0 N m _ _ C' Hm Some_time ltac:(cbn; lia) ltac:(cbn; lia) First E1) as (Ck & R).
        split; [exact Ck|]. right. split; [exact R|]. rewrite Ck. cbn. lia.
    + destruct (held_round (setPacketLoss l w) b U A w1 (held_loss name due c0 N m w l b U A R)) as (Ck & R'); [cbn; lia|cbn; lia| |exact E1|].
      { intros i Hi Ne. cbn [setPacketLoss set_loss f_clock f_node].
        destruct (h_patience _ _ _ _ _ _ _ _ _ R i Hi Ne) as (P1 & P2 & P3).
        destruct (Tch i Hi Ne (f_clock w + 1) ltac:(lia)) as [(t' & A1 & A2 & A3)|[A1 A2]].
        - destruct (Z.le_gt_cases t' (f_clock w)) as [L|L].
          + left. rewrite LgE in A3. apply (took_before _ _ _ (f_clock w)) in A3; [|exact FE|lia]. specialize (P1 t' A1 A3). lia.
          + right. assert (t' = f_clock w + 1) as -> by lia.
            destruct (lossy_log s N ls w1 w' K1 E) as (_ & _ & new1 & Lg1 & F1). rewrite Lg1 in A3. apply (took_before _ _ _ (f_clock w1)) in A3; [exact A3|exact F1|lia].
        - left. rewrite P2; [exact A2|]. intros t' B1 B2. pose proof (P3 t' B2). apply (A1 t' ltac:(lia)). rewrite LgE. apply took_later. exact B2. }
      cbn [setPacketLoss set_loss f_clock] in Ck. split; [exact Ck|]. right. split; [exact R'|]. lia.
Qed.
End Loss.

(** ** Without loss everybody stays in touch *)
Lemma tick_new s N w w' : ok N w -> FakeTick s N (advanceMillis 1 w) = Ok w' ->
  f_clock w' = f_clock w + 1 /\ exists new, f_log w' = f_log w ++ new /\ Forall (fun x => f_clock w < at_ (snd x)) new.
Proof.
  intros K E. assert (K0 : ok N (advanceMillis 1 w)) by (destruct K as [[? ? ? ?] ? ?]; constructor; [constructor|..]; auto; cbn; lia).
  destruct (FakeTick_ok s N _ K0) as (evs & w1 & E1 & K1 & Tm & Lg & _ & _ & _ & _ & Ck & _). rewrite E in E1. injection E1 as <-.
  split; [exact Ck|]. cbn [advanceMillis set_clock f_clock f_log] in *. eexists. split; [exact Lg|].
  apply Forall_forall. intros x I. apply in_flat_map in I as (i & Hi & I). apply in_map_iff in I as (ev & <- & I). apply in_seq in Hi.
  destruct (Tm i ltac:(lia)) as [Ei _]. apply machine_at in Ei. rewrite Forall_forall in Ei. cbn [snd]. rewrite (Ei ev I). lia.
Qed.

Lemma touch_extend name due c0 N m log new c : in_touch name due c0 N m log c -> Forall (fun x : nat * event => c < at_ (snd x)) new ->
  (forall i, (i < N)%nat -> i <> m ->
    (exists t', c0 < t' /\ c + 1 - 5000 <= t' <= c + 1 /\ took (log ++ new) (name i) t') \/
    ((forall t', c0 < t' < c + 1 -> ~ took (log ++ new) (name i) t') /\ c + 1 <= due i)) ->
  in_touch name due c0 N m (log ++ new) (c + 1).
Proof.
  intros H F G i Hi Ne t Ht. destruct (Z.eq_dec t (c + 1)) as [->|Nt]; [exact (G i Hi Ne)|].
  destruct (H i Hi Ne t ltac:(lia)) as [(t' & A & B & C)|[A B]].
  - left. exists t'. split; [exact A|]. split; [exact B|]. apply took_later. exact C.
  - right. split; [|exact B]. intros t' Ht' C. apply (A t' Ht'). apply (took_before log new (name i) c); [exact F|lia|exact C].
Qed.

Section Touch.
Variable s : source.
Variable name : nat -> nat.
Variable Old : nat -> list Z.
Variable due : nat -> Z.
Variable c0 : Z.
Variables N m : nat.
Hypothesis small : (N <= 900)%nat.
Hypothesis Pos : 0 <= c0 <= due m.
Hypothesis Hm : (m < N)%nat.
Hypothesis Some_time : due m <> 0.
Hypothesis First : forall i, (i < N)%nat -> i <> m -> due m < due i.

Definition minded (w : fakenet) : Prop :=
  in_touch name due c0 N m (f_log w) (f_clock w) /\
  ((calm name Old due N w /\ hush name due c0 N w /\ f_clock w <= due m) \/
   exists D T U fly j s1 h g a kills, reign name Old N m w D T U fly j s1 h g a kills /\ due m < f_clock w /\
     (g <= due m -> a = OnAir) /\ (due m < g -> g <= f_clock w /\ forall i, (i < N)%nat -> i <> m -> took (f_log w) (name i) g)).

Lemma minded_ok w : minded w -> ok N w.
Proof. intros [_ [(C & _)|(D & T & U & fly & j & s1 & h & g & a & kills & R & _)]]; [apply C|apply R]. Qed.

Lemma minded_step w w' : minded w -> f_clock w + 1 < 4294967296 - 70000 -> FakeTick s N (advanceMillis 1 w) = Ok w' ->
  (forall own, all_ids (calls_of (name m) (f_log w')) = Old m ++ own -> unused N m Old own) -> minded w'.
Proof.
  intros M Hc E Sp. destruct (tick_new s N w w' (minded_ok w M) E) as (Ck & new & Lg & Fn). destruct M as [Tc [(C & Hu & Hw)|(D & T & U & fly & j & s1 & h & g & a & kills & R & Hw & G1 & G2)]].
  - pose proof (calm_advance name Old due N small w 1 ltac:(lia) C) as C'. pose proof (hush_advance name due c0 N w 1 ltac:(lia) Hu) as Hu'.
    assert (Tc' : in_touch name due c0 N m (f_log w') (f_clock w')).
    { rewrite Ck, Lg. apply touch_extend; [exact Tc|exact Fn|]. intros i Hi Ne. right. specialize (First i Hi Ne). split; [|lia].
      intros t' Ht' Tk. apply (took_before _ _ _ (f_clock w)) in Tk; [|exact Fn|lia]. pose proof (u_took _ _ _ _ _ Hu i t' Hi Tk). lia. }
    destruct (Z.le_gt_cases (f_clock w + 1) (due m)) as [L|L].
    + assert (Wa : forall i, (i < N)%nat -> f_clock (advanceMillis 1 w) <= due i).
      { intros i Hi. cbn. destruct (Nat.eq_dec i m) as [->|Ne]; [lia|]. specialize (First i Hi Ne). lia. }
      destruct (calm_tick s name Old due N small _ w' C' Wa E) as [C2 _]. destruct (hush_tick s name due c0 N _ w' Hu' Wa E) as [H2 _].
      split; [exact Tc'|]. left. split; [exact C2|]. split; [exact H2|]. lia.
    + destruct (takes_over s name Old due N small _ _ m C' Hm Some_time ltac:(cbn; lia) ltac:(cbn; lia) First E Sp) as (_ & (x & R) & _).
      split; [exact Tc'|]. right. do 10 eexists. split; [exact R|]. split; [lia|]. cbn [advanceMillis set_clock f_clock]. split; [reflexivity|intros; lia].
  - pose proof R as [K _ Nm Inj Tk Ls Ids Len Ms Hb Wt Sl Air_].
    destruct (reign_round s name Old N m small w D T U fly j s1 h g a kills w' R Hc E Sp)
      as (_ & evs & Tm & Mine & D' & T' & U' & fly' & j' & s1' & h' & g' & a' & kills' & R' & Mv & Still & Begun & Gone & Eg).
    set (t := f_clock w + 1) in *. pose proof (k_clock _ _ K) as K0.
    assert (So : inc_sound (option_map zero_tail (cell w Air))).
    { intros p. destruct (cell w Air) as [c|] eqn:C; [|discriminate]. cbn. intros [= <-]. apply zero_tail_sound. exact (cell_air_sound _ _ _ (k_mem _ _ K) C). }
    assert (Dec : a = OnAir \/ a <> OnAir) by (destruct a; (left; reflexivity) || (right; discriminate)). destruct Dec as [Ea|Na].
    + (* the heartbeat on the air arrives *)
      assert (Now : forall i, (i < N)%nat -> i <> m -> took (f_log w') (name i) t).
      { intros i Hi Ne. destruct fly; [|exfalso; destruct Air_ as (_ & _ & _ & Q & _); contradiction].
        destruct Air_ as (X & CA & PX & New & Nr & [[Ty _]|[_ Q]]); [|contradiction].
        destruct (Sl i Hi Ne) as (St & Kn & _ & _). specialize (Tm i Hi). rewrite CA in Tm. cbn [option_map] in Tm.
        assert (Sx : sound (zero_tail X)) by (apply So; rewrite CA; reflexivity).
        destruct (slave_takes (env_of s (name i)) t (f_node w i) (Old i ++ D) (zero_tail X) eq_refl (k_nodes _ _ K i Hi) St Kn Sx ltac:(subst t; lia) (New i Hi Ne))
          as (n' & ev & E' & O & _); [left; exact Ty|].
        pose proof (slave_took_it (env_of s (name i)) t (f_node w i) (zero_tail X) n' ev eq_refl (k_nodes _ _ K i Hi) St Sx ltac:(subst t; lia) E' O Ty) as Y.
        assert (K1 : ok N (advanceMillis 1 w)) by (destruct K as [[? ? ? ?] ? ?]; constructor; [constructor|..]; auto; cbn; lia).
        destruct (FakeTick_ok s N _ K1) as (evs2 & w2 & E2 & _ & Tm2 & Lg2 & _). rewrite E in E2. injection E2 as <-.
        destruct (Tm2 i Hi) as [Em2 _]. cbn [advanceMillis set_clock f_name f_node f_ticked f_clock f_log] in Em2, Lg2. fold t in Em2.
        apply (took_round name evs2 N (f_log w) (f_log w') t i t Inj).
        - rewrite Lg2. f_equal. rewrite !flat_map_concat_map. f_equal. apply map_ext_in. intros q Iq. apply in_seq in Iq. rewrite Nm by lia. reflexivity.
        - exact Hi.
        - exact (machine_at _ _ _ _ _ _ _ Em2).
        - right. split; [reflexivity|]. rewrite Nm, Tk in Em2 by exact Hi.
          assert (Rc : receives s (advanceMillis 1 w) i = Some (zero_tail X)).
          { unfold receives, keeps. change (f_loss (advanceMillis 1 w)) with (f_loss w). rewrite Ls. cbn [Z.eqb orb]. change (cell (advanceMillis 1 w) Air) with (cell w Air). rewrite CA. reflexivity. }
          rewrite Rc, E' in Em2. injection Em2 as _ Q. rewrite <- Q. exact Y. }
      subst a. split.
      * rewrite Ck, Lg. apply touch_extend; [exact Tc|exact Fn|]. intros i Hi Ne. left. exists t. rewrite <- Lg. split; [lia|]. split; [subst t; lia|]. exact (Now i Hi Ne).
      * right. exists D', T', U', fly', j', s1', h', g', a', kills'. split; [exact R'|]. split; [lia|]. rewrite Eg. split; [intros; lia|].
        intros _. split; [lia|exact Now].
    + assert (Eg' : g' = g) by (rewrite Eg; destruct a; congruence).
      assert (Gd : due m < g) by (destruct (Z.lt_ge_cases (due m) g) as [L|L]; [exact L|exfalso; apply Na; apply G1; exact L]).
      assert (M0 : ms t (f_node w m) (cell w (Radio m)) T U s1 h g a kills).
      { apply ms_next; [exact Ms|exact Hb|]. intros NU. destruct (Wt NU) as (_ & B & _ & C). lia. }
      pose proof (ms_patience _ _ _ _ _ _ _ _ _ _ M0 Na) as Pt. split.
      * rewrite Ck, Lg. apply touch_extend; [exact Tc|exact Fn|]. intros i Hi Ne. left. exists g. split; [lia|].
        destruct (G2 Gd) as [Gc Tg]. split; [subst t; lia|apply took_later; exact (Tg i Hi Ne)].
      * right. exists D', T', U', fly', j', s1', h', g', a', kills'. split; [exact R'|]. split; [lia|]. rewrite Eg'. split; [intros; lia|].
        intros _. destruct (G2 Gd) as [Gc Tg]. split; [lia|]. intros i Hi Ne. rewrite Lg. apply took_later. exact (Tg i Hi Ne).
Qed.

Lemma minded_ticks k : forall w w', minded w -> f_clock w + Z.of_nat k < 4294967296 - 70000 ->
  fsteps s N (runTicks k) w = Ok w' ->
  (forall own, all_ids (calls_of (name m) (f_log w')) = Old m ++ own -> unused N m Old own) -> minded w'.
Proof.
  induction k as [|k IH]; intros w w' H Hc E Sp.
  - cbn in E. injection E as <-. exact H.
  - cbn [runTicks fsteps fstep obind] in E. destruct (FakeTick s N (advanceMillis 1 w)) as [w1| |] eqn:E1; try discriminate. cbn [obind] in E.
    pose proof (minded_ok w H) as K.
    assert (K1 : ok N w1).
    { assert (K0 : ok N (advanceMillis 1 w)) by (destruct K as [[? ? ? ?] ? ?]; constructor; [constructor|..]; auto; cbn; lia).
      destruct (FakeTick_ok s N _ K0) as (evs & w2 & E2 & K2 & _). rewrite E1 in E2. injection E2 as <-. exact K2. }
    destruct (ticks_log s N k w1 w' K1 E) as (_ & _ & new & Lg). destruct (tick_new s N w w1 K E1) as [Ck _].
    apply (IH w1 w'); [|lia|exact E|exact Sp]. apply (minded_step w w1 H ltac:(lia) E1).
    intros own Eo. rewrite Lg, calls_of_app in Sp. unfold all_ids in *. rewrite map_app, concat_app, map_app, Eo, <- app_assoc in Sp.
    exact (unused_prefix _ _ _ _ _ (Sp _ eq_refl)).
Qed.
End Touch.

(** ** When everything gets lost *)
Lemma master_alone e t n out n' : state n = Master -> tick e t n None out n' -> state n' = Master.
Proof. intros St T. inversion T; subst; try congruence; try discriminate; exact St. Qed.

Lemma alone_machine e t n due n' evs : plat e = Host -> nodeok n -> 0 <= t < 4294967296 -> 0 < due ->
  machine e t true None n = Ok (n', evs) ->
  (state n = Master -> state n' = Master) /\
  (state n = Slave -> t_hb n = due -> if t <=? due then state n' = Slave /\ t_hb n' = due else state n' = Master).
Proof.
  intros Pl Nk Ht Hd Em. unfold machine in Em. rewrite u32_id in Em by lia. assert (I : inc_sound None) by (intros p [=]).
  destruct (nodeok_runs e t n None Pl Nk I Ht) as (n1 & o1 & E1 & T1). rewrite E1 in Em.
  destruct (tick_nodeok e t n None _ _ Nk I ltac:(lia) T1) as [Nk1 _].
  destruct (nodeok_runs e t n1 None Pl Nk1 I Ht) as (n2 & o2 & E2 & T2). rewrite E2 in Em. injection Em as <- <-. split.
  - intros St. apply (master_alone e t n1 o2 n2); [|exact T2]. exact (master_alone e t n o1 n1 St T1).
  - intros St Hb. destruct (Z.leb_spec t due) as [L|L].
    + assert (N1 : o1 = [] /\ n1 = n) by (apply (not_due_slave e t n None); [exact St|lia|lia|reflexivity|exact T1]). destruct N1 as [-> ->].
      assert (N2 : o2 = [] /\ n2 = n) by (apply (not_due_slave e t n None); [exact St|lia|lia|reflexivity|exact T2]). destruct N2 as [-> ->]. auto.
    + apply (master_alone e t n1 o2 n2); [|exact T2].
      assert (D : timer_due t (t_hb n) = true) by (apply timer_due_iff; lia).
      inversion T1; subst; try congruence; try discriminate; [|reflexivity]. destruct H0; congruence.
Qed.

Record alone (due : nat -> Z) (l : Z) (N : nat) (w : fakenet) : Prop := mkAlone {
  n_ok : ok N w;
  n_ticked : forall i, (i < N)%nat -> f_ticked w i = true;
  n_loss : f_loss w = l;
  n_nodes : forall i, (i < N)%nat -> if f_clock w <=? due i then state (f_node w i) = Slave /\ t_hb (f_node w i) = due i else state (f_node w i) = Master
}.

Lemma alone_ticks s due l N k : l <> 0 -> (forall d, Z.of_N (s_loss s d) mod Z.abs l = 0) -> (forall i, (i < N)%nat -> 0 < due i) ->
  forall w w', alone due l N w -> f_clock w + Z.of_nat k < 4294967296 -> fsteps s N (runTicks k) w = Ok w' ->
  alone due l N w' /\ f_clock w' = f_clock w + Z.of_nat k.
Proof.
  intros Nl Hit Pos. induction k as [|k IH]; intros w w' H Hc E.
  - cbn in E. injection E as <-. split; [exact H|lia].
  - cbn [runTicks fsteps fstep obind] in E. destruct H as [K Tk Ls Nd].
    assert (K0 : ok N (advanceMillis 1 w)) by (destruct K as [[? ? ? ?] ? ?]; constructor; [constructor|..]; auto; cbn; lia).
    destruct (FakeTick_ok s N _ K0) as (evs & w1 & E1 & K1 & Tm & _ & _ & _ & Ls1 & _ & Ck & _). rewrite E1 in E. cbn [obind] in E.
    cbn [advanceMillis set_clock f_clock f_ticked f_node f_loss f_name] in Ck, Tm, Ls1.
    assert (H1 : alone due l N w1).
    { constructor; [exact K1|intros i Hi; apply (Tm i Hi)|congruence|]. intros i Hi. destruct (Tm i Hi) as [Em _]. rewrite Tk in Em by exact Hi.
      assert (Rc : receives s (advanceMillis 1 w) i = None).
      { unfold receives, keeps. cbn [advanceMillis set_clock f_loss f_lost]. rewrite Ls, Hit. destruct (Z.eqb_spec l 0); [contradiction|]. reflexivity. }
      rewrite Rc in Em. pose proof (k_clock _ _ K).
      destruct (alone_machine (env_of s (f_name w i)) (f_clock w + 1) (f_node w i) (due i) _ _ eq_refl (k_nodes _ _ K i Hi) ltac:(lia) (Pos i Hi) Em) as [A B].
      specialize (Nd i Hi). rewrite Ck. destruct (Z.leb_spec (f_clock w) (due i)) as [L|L].
      - destruct Nd as [Nd1 Nd2]. exact (B Nd1 Nd2).
      - destruct (Z.leb_spec (f_clock w + 1) (due i)); [lia|]. exact (A Nd). }
    destruct (IH w1 w' H1 ltac:(lia) E) as [H2 Ck2]. split; [exact H2|]. lia.
Qed.

(** ** When nothing gets lost *)
(** [v] is [w] with the packet loss switched off. *)
Definition unharmed (N : nat) (w v : fakenet) : Prop :=
  (forall i, (i < N)%nat -> f_node v i = f_node w i /\ f_ticked v i = f_ticked w i /\ f_name v i = f_name w i /\
     cell v (Radio i) = cell w (Radio i)) /\
  f_born v = f_born w /\ f_clock v = f_clock w /\ f_log v = f_log w /\ cell v Air = cell w Air /\ f_loss v = 0.

Definition ticks (os : list fop) : nat := length (filter (fun o => match o with FTick => true | _ => false end) os).
Definition is_loss (o : fop) : bool := match o with FLoss _ => true | _ => false end.

Lemma FakeTick_unharmed s N w v w' : ok N w -> ok N v -> unharmed N w v -> FakeTick s N w = Ok w' ->
  (forall i, (i < N)%nat -> keeps s (f_loss w) (f_lost w) i = true) ->
  exists v', FakeTick s N v = Ok v' /\ unharmed N w' v'.
Proof.
  intros K Kv (A1 & A2 & A5 & A6 & A7 & A8) E Keep.
  destruct (FakeTick_ok s N w K) as (ev & w1 & E1 & K1 & B1 & B2 & B3 & B4 & B5 & B6 & B7 & B8). rewrite E in E1. injection E1 as <-.
  destruct (FakeTick_ok s N v Kv) as (ev' & v1 & E2 & K2 & C1 & C2 & C3 & C4 & C5 & C6 & C7 & C8).
  exists v1. split; [exact E2|].
  assert (X : forall i, (i < N)%nat -> f_node v1 i = f_node w' i /\ ev' i = ev i).
  { intros i Hi. destruct (A1 i Hi) as (X1 & X2 & X3 & X4). destruct (B1 i Hi) as [Y _]. destruct (C1 i Hi) as [Z _].
    unfold receives in *. rewrite (Keep i Hi) in Y. unfold keeps in Z. rewrite A8 in Z. cbn [Z.eqb orb] in Z.
    rewrite X1, X2, X3, A5, A7 in Z. rewrite Y in Z. injection Z as Z1 Z2. auto. }
  assert (F : forall i, (i < N)%nat -> after_out (cell v (Radio i)) (outs (ev' i)) = after_out (cell w (Radio i)) (outs (ev i))).
  { intros i Hi. destruct (A1 i Hi) as (X1 & X2 & X3 & X4). destruct (X i Hi) as [_ ->]. rewrite X4. reflexivity. }
  cbv zeta in *.
  rewrite (find_ext (fun i => is_some (after_out (cell v (Radio i)) (outs (ev' i)))) (fun i => is_some (after_out (cell w (Radio i)) (outs (ev i))))) in C8
    by (intros x I; apply in_seq in I; rewrite F by lia; reflexivity).
  assert (Cells : (forall i, (i < N)%nat -> cell v1 (Radio i) = cell w' (Radio i)) /\ cell v1 Air = cell w' Air).
  { destruct (find _ _) as [k|] eqn:Ek; destruct B8 as [Ba Bb], C8 as [Ca Cb].
    - apply find_some in Ek as [Ik _]. apply in_seq in Ik. split; [|rewrite Ca, Ba; apply F; lia].
      intros i Hi. rewrite Bb, Cb by exact Hi. rewrite F by exact Hi. reflexivity.
    - split; [|congruence]. intros i Hi. rewrite Bb, Cb by exact Hi. reflexivity. }
  destruct Cells as [Cr Ca]. split; [|split; [|split; [|split; [|split]]]]; try congruence.
  - intros i Hi. destruct (A1 i Hi) as (X1 & X2 & X3 & X4). destruct (X i Hi) as [Y _]. split; [exact Y|]. split; [|split; [|apply Cr; exact Hi]].
    + destruct (B1 i Hi) as [_ ->], (C1 i Hi) as [_ ->]. reflexivity.
    + rewrite B3, C3. exact X3.
  - rewrite B2, C2, A6. f_equal. rewrite !flat_map_concat_map. f_equal. apply map_ext_in. intros i I. apply in_seq in I.
    destruct (A1 i ltac:(lia)) as (X1 & X2 & X3 & X4). destruct (X i ltac:(lia)) as [_ ->]. rewrite X3. reflexivity.
Qed.

Lemma reinit_unharmed s N w v i : junk_ok s -> ok N w -> ok N v -> (i < N)%nat -> unharmed N w v ->
  exists w' v', reinitNode s i w = Ok w' /\ reinitNode s i v = Ok v' /\ unharmed N w' v' /\ f_loss w' = f_loss w /\ f_lost w' = f_lost w.
Proof.
  intros J K Kv Hi (A1 & A2 & A5 & A6 & A7 & A8).
  destruct (new_node_ok s N w i J (k_mem _ _ K) Hi (fun j Hj _ => k_nodes _ _ K j Hj) (k_clock _ _ K))
    as (w' & E & K' & B1 & B2 & B3 & B4 & B5 & B6 & B7 & B8 & B9 & _).
  destruct (new_node_ok s N v i J (k_mem _ _ Kv) Hi (fun j Hj _ => k_nodes _ _ Kv j Hj) (k_clock _ _ Kv))
    as (v' & E' & Kv' & C1 & C2 & C3 & C4 & C5 & C6 & C7 & C8 & C9 & _).
  exists w', v'. split; [exact E|]. split; [exact E'|]. split; [|split; congruence].
  split; [|split; [|split; [|split; [|split]]]]; try congruence.
  - intros j Hj. destruct (A1 j Hj) as (X1 & X2 & X3 & X4). rewrite B1, B2, B3, C1, C2, C3, A2, A5. unfold upd.
    destruct (B9 (Radio j)) as [_ ->], (C9 (Radio j)) as [_ ->]. destruct (Nat.eqb_spec j i); auto.
  - destruct (B9 Air) as [_ ->], (C9 Air) as [_ ->]. exact A7.
Qed.

Lemma alike_unharmed N a b c d : unharmed N a b -> alike N a c -> alike N b d -> unharmed N c d.
Proof.
  intros (A1 & A2 & A3 & A4 & A5 & A6) (B1 & B2 & B3 & B4 & B5 & B6 & B7) (C1 & C2 & C3 & C4 & C5 & C6 & C7).
  split; [|repeat split; congruence]. intros i Hi. destruct (A1 i Hi) as (? & ? & ? & ?), (B1 i Hi) as (? & ? & ? & ?), (C1 i Hi) as (? & ? & ? & ?).
  repeat split; congruence.
Qed.

Lemma fsteps_unharmed s N os : junk_ok s -> Forall (fop_ok N) os -> forall w v w', ok N w -> traced s N w -> ok N v -> traced s N v -> unharmed N w v ->
  (forall d, (f_lost w <= d < f_lost w + N * ticks os)%nat -> forall l, l = f_loss w \/ In (FLoss l) os -> l = 0 \/ Z.of_N (s_loss s d) mod Z.abs l <> 0) ->
  fsteps s N os w = Ok w' ->
  exists v', fsteps s N (filter (fun o => negb (is_loss o)) os) v = Ok v' /\ unharmed N w' v'.
Proof.
  intros J F. induction F as [|o os O F IH]; intros w v w' K T Kv Tv A Luck E; [cbn in E; injection E as <-; exists v; split; [reflexivity|exact A]|].
  cbn [fsteps filter] in *. destruct (fstep_ok s N o w J K T O) as (w1 & E1 & K1 & T1). rewrite E1 in E. cbn [obind] in E.
  destruct o as [d| |i|n|p]; cbn [is_loss negb fsteps].
  - cbn [fstep] in *. injection E1 as <-. cbn [obind]. destruct (advance_ok s N v d O Kv Tv) as [Kv1 Tv1]. apply (IH (advanceMillis d w)); try assumption.
    + destruct A as (A1 & A2 & A5 & A6 & A7 & A8). split; [exact A1|]. cbn. rewrite A5. auto 10.
    + intros k Hk l Hl. apply (Luck k Hk l). destruct Hl as [->|I]; [left; reflexivity|right; right; exact I].
  - cbn [fstep] in *. destruct (FakeTick_unharmed s N w v w1 K Kv A E1) as (v1 & Ev & A').
    { intros i Hi. unfold keeps. destruct (Luck (f_lost w + i)%nat) with (l := f_loss w) as [->|Q]; [cbn [ticks filter length]; lia|left; reflexivity|reflexivity|].
      destruct (Z.eqb_spec (f_loss w) 0); [reflexivity|]. cbn [orb]. apply negb_true_iff. apply Z.eqb_neq. exact Q. }
    rewrite Ev. cbn [obind]. destruct (FakeTick_ok s N w K) as (evs & w2 & E2 & _ & _ & _ & _ & _ & Ls & Lo & _). rewrite E1 in E2. injection E2 as <-.
    destruct (FakeTick_ok s N v Kv) as (evs' & v2 & E2 & Kv1 & _). rewrite Ev in E2. injection E2 as <-.
    apply (IH w1); try assumption; [exact (FakeTick_traced s N v v1 Kv Tv Ev)|].
    intros k Hk l Hl. change (ticks (FTick :: os)) with (S (ticks os)) in Luck. revert Lo. destruct (Z.eqb_spec (f_loss w) 0) as [Z0|Nz]; intros Lo.
    + destruct Hl as [->|I]; [left; congruence|]. apply (Luck k); [nia|right; right; exact I].
    + apply (Luck k); [nia|]. destruct Hl as [->|I]; [left; congruence|right; right; exact I].
  - cbn [fstep] in *. destruct (reinit_unharmed s N w v i J K Kv O A) as (w2 & v1 & Ew & Ev & A' & Ls & Lo). rewrite E1 in Ew. injection Ew as <-.
    rewrite Ev. cbn [obind]. destruct (reinit_ok s N v i J Kv Tv O) as (v2 & Ev2 & Kv1 & Tv1 & _). rewrite Ev in Ev2. injection Ev2 as <-.
    apply (IH w1); try assumption. rewrite Ls, Lo. intros k Hk l Hl. apply (Luck k Hk l). destruct Hl as [->|I]; [left; reflexivity|right; right; exact I].
  - cbn [fstep] in *. injection E1 as <-. apply (IH (setPacketLoss n w)); try assumption.
    intros k Hk l Hl. apply (Luck k Hk l). right. destruct Hl as [->|I]; [left; reflexivity|right; exact I].
  - cbn [fstep] in *. destruct (TransmitPacket_ok s N p w K T O) as (w2 & Ew & K2 & T2 & A2). rewrite E1 in Ew. injection Ew as <-.
    destruct (TransmitPacket_ok s N p v Kv Tv O) as (v1 & Ev & Kv1 & Tv1 & Av). rewrite Ev. cbn [obind].
    apply (IH w1); try assumption; [eapply alike_unharmed; eassumption|]. destruct A2 as (_ & _ & L1 & L2 & _). rewrite L1, L2.
    intros k Hk l Hl. apply (Luck k Hk l). destruct Hl as [->|I]; [left; reflexivity|right; right; exact I].
Qed.
