(** Tick, the function the main loop calls: C42. *)
From Coq Require Import ZArith Lia List Bool.
From Verif Require Import CInt CIntFacts Packet NetMgr Rsm RsmHist RsmFacts RsmRun.
Import ListNotations.
Open Scope Z_scope.

(** What a program does with a node: [UTick] is one call of Tick, with the clock
    readings and deliveries of its first and (if it happens) second radio tick. *)
Inductive use :=
| UTick (t1 : Z) (inc1 : option packet) (t2 : Z) (inc2 : option packet)
| USetEffect (t : Z) (p : packet)
| USetNumPalettes (t v : Z)
| USetNumEffects (t v : Z).

Definition do_use (e : env) (u : use) : M unit :=
  match u with
  | UTick t1 inc1 t2 inc2 => Tick e (u32 t1) inc1 (u32 t2) inc2
  | USetEffect t p => SetEffect e (u32 t) p
  | USetNumPalettes t v => SetNumPalettes v
  | USetNumEffects t v => SetNumEffects v
  end.

Fixpoint do_uses (e : env) (us : list use) : M unit :=
  match us with
  | [] => mret tt
  | u :: us => do_use e u ;; do_uses e us
  end.

(** The specification: the calls below Tick.  [started] tells whether Tick was
    called before. *)
Fixpoint radio_calls (started : bool) (us : list use) : list (Z * op) :=
  match us with
  | [] => []
  | UTick t1 inc1 t2 inc2 :: us =>
      (t1, OTick inc1) :: (if started then [(t2, OTick inc2)] else []) ++ radio_calls true us
  | USetEffect t p :: us => (t, OSetEffect p) :: radio_calls started us
  | USetNumPalettes t v :: us => (t, OSetNumPalettes v) :: radio_calls started us
  | USetNumEffects t v :: us => (t, OSetNumEffects v) :: radio_calls started us
  end.

(** Nothing reads or writes the flag except Tick. *)
Definition lift_flag {A} (b : bool) (x : outcome (A * node * list rtx)) : outcome (A * node * list rtx) :=
  match x with Ok (a, n, o) => Ok (a, with_tick_run b n, o) | Undef => Undef | Abort => Abort end.
Definition blind {A} (c : M A) : Prop :=
  forall b n, c (with_tick_run b n) = lift_flag b (c n) /\
    (forall a n' o, c n = Ok (a, n', o) -> tick_run n' = tick_run n).

Lemma blind_bind {A B} (c : M A) (f : A -> M B) : blind c -> (forall a, blind (f a)) -> blind (mbind c f).
Proof.
  intros C F b n. destruct (C b n) as [C1 C2]. unfold mbind. rewrite C1. destruct (c n) as [[[a n1] o1]| |]; cbn.
  - destruct (F a b n1) as [F1 F2]. rewrite F1. destruct (f a n1) as [[[x n2] o2]| |]; cbn; (split; [reflexivity|]); intros ? ? ? E; inversion E; subst.
    rewrite (F2 _ _ _ eq_refl). exact (C2 _ _ _ eq_refl).
  - split; [reflexivity|discriminate].
  - split; [reflexivity|discriminate].
Qed.

Lemma blind_ret {A} (a : A) : blind (mret a).
Proof. intros b n. split; [reflexivity|]. intros ? ? ? E; inversion E; auto. Qed.
Lemma blind_get {A} (f : node -> A) : (forall b n, f (with_tick_run b n) = f n) -> blind (mget f).
Proof. intros H b n. unfold mget. rewrite H. split; [reflexivity|]. intros ? ? ? E; inversion E; auto. Qed.
Lemma blind_upd f : (forall b n, f (with_tick_run b n) = with_tick_run b (f n) /\ tick_run (f n) = tick_run n) -> blind (mupd f).
Proof. intros H b n. unfold mupd. destruct (H b n) as [H1 H2]. rewrite H1. split; [reflexivity|]. intros ? ? ? E; inversion E; auto. Qed.
Lemma blind_lift {A} (x : outcome A) : blind (mlift x).
Proof. intros b n. destruct x; (split; [reflexivity|]); intros ? ? ? E; inversion E; auto. Qed.
Lemma blind_draw e : blind (mdraw e).
Proof. intros b n. split; [reflexivity|]. intros ? ? ? E; inversion E; auto. Qed.
Lemma blind_rand e : blind (mrand e).
Proof. apply blind_bind; [apply blind_draw|intros; apply blind_ret]. Qed.
Lemma blind_random e lo hi : blind (mrandom e lo hi).
Proof. apply blind_bind; [apply blind_draw|intros; apply blind_lift]. Qed.
Lemma blind_send e s p : blind (msend e s p).
Proof.
  apply blind_bind; [apply blind_draw|]. intros r b n. cbn.
  destruct (nm_send (plat e) r (nm n) p) as [[[? ?] ?]| |]; (split; [reflexivity|]); intros ? ? ? E; inversion E; auto.
Qed.
Lemma blind_receive inc : blind (mreceive inc).
Proof.
  intros b n. unfold mreceive. cbn.
  destruct (nm_receive (nm n) inc) as [[[? ?] ?]| |]; (split; [reflexivity|]); intros ? ? ? E; inversion E; auto.
Qed.
Lemma blind_timer now t d : blind (SetTimer now t d).
Proof. unfold SetTimer. destruct t; first [apply blind_ret | apply blind_upd; intros; split; reflexivity]. Qed.

Ltac blind :=
  repeat match goal with
  | |- forall _, _ => intros
  | |- blind (mbind _ _) => apply blind_bind
  | |- blind (mret _) => apply blind_ret
  | |- blind (mget _) => apply blind_get; intros; reflexivity
  | |- blind (mupd _) => apply blind_upd; intros; split; reflexivity
  | |- blind (mlift _) => apply blind_lift
  | |- blind (mrand _) => apply blind_rand
  | |- blind (mrandom _ _ _) => apply blind_random
  | |- blind (msend _ _ _) => apply blind_send
  | |- blind (mreceive _) => apply blind_receive
  | |- blind (SetTimer _ _ _) => apply blind_timer
  | |- blind (if ?c then _ else _) => destruct c
  | |- blind (match ?c with _ => _ end) => destruct c
  end.

Lemma blind_step e now o : blind (step e now o).
Proof.
  destruct o; cbn [step]; [unfold RadioTick|unfold SetEffect|unfold SetNumPalettes|unfold SetNumEffects];
  unfold handleSlavePacket, handleMasterPacket, handleSlaveTimer, handleMasterTimer, finish_tick, beginMaster, beginSlave, SendHeartbeat, PerformMasterElection; blind.
Qed.

(** One radio call extends a history, whatever the flag is. *)
Definition same_but_flag (m n : node) : Prop := n = with_tick_run (tick_run n) m.

Lemma flag_flag b c n : with_tick_run b (with_tick_run c n) = with_tick_run b n.
Proof. reflexivity. Qed.

Lemma one_call e t0 h m n t o n' out : hist e t0 h m -> same_but_flag m n ->
  t0 <= t -> (forall ev, In ev h -> at_ ev <= t) -> op_ok o ->
  step e (u32 t) o n = Ok (tt, n', out) ->
  exists m', hist e t0 (h ++ [mkEv t o m m' out]) m' /\ same_but_flag m' n' /\ tick_run n' = tick_run n.
Proof.
  intros H Q L1 L2 O S. pose proof (proj2 (blind_step e (u32 t) o false n) _ _ _ S) as K.
  unfold same_but_flag in Q. rewrite Q in S. rewrite (proj1 (blind_step e (u32 t) o _ m)) in S.
  destruct (step e (u32 t) o m) as [[[[] m'] o']| |] eqn:E; cbn in S; try discriminate.
  inversion S; subst. exists m'. split; [constructor; auto|]. split; [|exact K].
  unfold same_but_flag. reflexivity.
Qed.

Fixpoint sorted_from (t : Z) (cs : list (Z * op)) : Prop :=
  match cs with [] => True | (t', o) :: cs => t <= t' /\ op_ok o /\ sorted_from t' cs end.

(** From any point of a history on. *)
Lemma uses_hist e t0 : forall us h m n1 last n out, hist e t0 h m -> same_but_flag m n1 ->
  t0 <= last -> (forall ev, In ev h -> at_ ev <= last) ->
  sorted_from last (radio_calls (tick_run n1) us) -> do_uses e us n1 = Ok (tt, n, out) ->
  exists h2 m2, hist e t0 (h ++ h2) m2 /\ map (fun ev => (at_ ev, call ev)) h2 = radio_calls (tick_run n1) us /\
    concat (map sent h2) = out /\ same_but_flag m2 n.
Proof.
  intros us. induction us as [|u us IH]; intros h m n1 last n out H Q L1 L2 S E.
    - cbn in E. inversion E; subst. exists [], m. rewrite app_nil_r. auto.
    - cbn [do_uses] in E. unfold mbind at 1 in E.
      destruct (do_use e u n1) as [[[[] n2] o1]| |] eqn:D; try discriminate.
      destruct (do_uses e us n2) as [[[[] n3] o2]| |] eqn:D2; try discriminate. inversion E; subst n3 out; clear E.
      assert (One : forall t o, last <= t -> op_ok o -> step e (u32 t) o n1 = Ok (tt, n2, o1) ->
        radio_calls (tick_run n1) (u :: us) = (t, o) :: radio_calls (tick_run n1) us ->
        sorted_from t (radio_calls (tick_run n1) us) ->
        exists h2 m2, hist e t0 (h ++ h2) m2 /\ map (fun ev => (at_ ev, call ev)) h2 = radio_calls (tick_run n1) (u :: us) /\
          concat (map sent h2) = o1 ++ o2 /\ same_but_flag m2 n).
      { intros t o Lt O St Rc Sr. destruct (one_call e t0 h m n1 t o n2 o1) as (m' & H' & Q' & F'); auto; [lia|intros; etransitivity; eauto|].
        destruct (IH (h ++ [mkEv t o m m' o1]) m' n2 t n o2) as (h2 & m2 & J1 & J2 & J3 & J4); auto; [lia| | |].
        { intros ev I. apply in_app_or in I as [I|[<-|[]]]; [etransitivity; eauto|cbn; lia]. }
        { rewrite F'; auto. }
        rewrite F' in J2. exists (mkEv t o m m' o1 :: h2), m2. split; [|split; [|split; [|exact J4]]].
        - replace (h ++ mkEv t o m m' o1 :: h2) with ((h ++ [mkEv t o m m' o1]) ++ h2) by (rewrite <- app_assoc; reflexivity). exact J1.
        - rewrite Rc. cbn. rewrite J2. reflexivity.
        - cbn. rewrite J3. reflexivity. }
      destruct u as [t1 inc1 t2 inc2|t p|t v|t v]; cbn [radio_calls sorted_from] in S; cbn [do_use] in D.
      + clear One. destruct S as (S1 & S2 & S3). unfold Tick in D. unfold mbind at 1 in D.
        destruct (RadioTick e (u32 t1) inc1 n1) as [[[[] na] oa]| |] eqn:Da; try discriminate.
        destruct (one_call e t0 h m n1 t1 (OTick inc1) na oa) as (ma & Ha & Qa & Fa); auto; [lia|intros; etransitivity; eauto|].
        unfold mget in D. unfold mbind at 1 in D. rewrite Fa in D.
        assert (La : forall ev, In ev (h ++ [mkEv t1 (OTick inc1) m ma oa]) -> at_ ev <= t1).
        { intros ev I. apply in_app_or in I as [I|[<-|[]]]; [etransitivity; eauto|cbn; lia]. }
        destruct (tick_run n1) eqn:Fn.
        * destruct S3 as (S3 & S4 & S5). unfold mbind in D.
          destruct (RadioTick e (u32 t2) inc2 na) as [[[[] nb] ob]| |] eqn:Db; try discriminate.
          unfold mupd in D. inversion D; subst n2 o1; clear D.
          destruct (one_call e t0 _ ma na t2 (OTick inc2) nb ob Ha Qa) as (mb & Hb & Qb & Fb); auto; [lia|intros; etransitivity; [apply La; auto|lia]|].
          destruct (IH _ mb (with_tick_run true nb) t2 n o2 Hb) as (h2 & m2 & J1 & J2 & J3 & J4); auto; [|lia| |].
          { unfold same_but_flag in *. rewrite Qb. reflexivity. }
          { intros ev I. apply in_app_or in I as [I|[<-|[]]]; [etransitivity; [apply La; auto|lia]|cbn; lia]. }
          exists (mkEv t1 (OTick inc1) m ma oa :: mkEv t2 (OTick inc2) ma mb ob :: h2), m2.
          split; [|split; [|split; [|exact J4]]].
          -- rewrite <- !app_assoc in J1. exact J1.
          -- cbn. cbn in J2. rewrite J2. reflexivity.
          -- cbn. rewrite J3. rewrite app_nil_r, <- !app_assoc. reflexivity.
        * unfold mbind, mret, mupd in D. inversion D; subst n2 o1; clear D.
          destruct (IH _ ma (with_tick_run true na) t1 n o2 Ha) as (h2 & m2 & J1 & J2 & J3 & J4); auto; [|lia|].
          { unfold same_but_flag in *. rewrite Qa. reflexivity. }
          exists (mkEv t1 (OTick inc1) m ma oa :: h2), m2.
          split; [|split; [|split; [|exact J4]]].
          -- rewrite <- !app_assoc in J1. exact J1.
          -- cbn. cbn in J2. rewrite J2. reflexivity.
          -- cbn. rewrite J3. rewrite app_nil_r. reflexivity.
      + destruct S as (S1 & S2 & S3). eapply One; eauto.
      + destruct S as (S1 & S2 & S3). eapply One; eauto.
      + destruct S as (S1 & S2 & S3). eapply One; eauto.
Qed.

(** C42: a program that uses Tick drives the node exactly like the sequence of
    radio ticks the specification lists: one for the first Tick and two for
    every later one.  What is transmitted is the same, and the node ends up the
    same except for the flag that remembers the first Tick; so every theorem
    about histories of radio ticks applies to programs that use Tick. *)
Theorem C42_tick_is_one_then_two_radio_ticks e t0 us ty1 ty2 d1 d2 n0 n out :
  0 <= t0 -> wf_packet (mkPacket 0 ty1 0 d1) -> wf_packet (mkPacket 0 ty2 0 d2) ->
  construct e (u32 t0) ty1 ty2 d1 d2 = Ok n0 ->
  sorted_from t0 (radio_calls false us) ->
  do_uses e us n0 = Ok (tt, n, out) ->
  exists h m, hist e t0 h m /\
    map (fun ev => (at_ ev, call ev)) h = radio_calls false us /\
    concat (map sent h) = out /\
    n = with_tick_run (tick_run n) m.
Proof.
  intros P W1 W2 C.
  assert (F0 : tick_run n0 = false) by (rewrite construct_eq in C; inversion C; reflexivity).
  assert (H0 : hist e t0 [] n0) by (apply (hist_start e t0 ty1 ty2 d1 d2); auto).
  intros S E.
  destruct (uses_hist e t0 us [] n0 n0 t0 n out) as (h & m & J1 & J2 & J3 & J4); auto.
  - unfold same_but_flag. destruct n0; reflexivity.
  - lia.
  - intros ev [].
  - rewrite F0. exact S.
  - rewrite F0 in J2. exists h, m. auto.
Qed.
Print Assumptions C42_tick_is_one_then_two_radio_ticks.

(** So k calls of Tick make 2 k - 1 radio ticks. *)
Theorem C42_count us : (forall u, In u us -> exists a b c d, u = UTick a b c d) -> us <> [] ->
  length (radio_calls false us) = (2 * length us - 1)%nat.
Proof.
  intros A N.
  assert (X : forall us, (forall u, In u us -> exists a b c d, u = UTick a b c d) ->
    length (radio_calls true us) = (2 * length us)%nat).
  { clear. induction us as [|u us IH]; intros A; [reflexivity|].
    destruct (A u (or_introl eq_refl)) as (a & b & c & d & ->). cbn. rewrite IH; [lia|]. intros; apply A; right; auto. }
  destruct us as [|u us]; [congruence|]. destruct (A u (or_introl eq_refl)) as (a & b & c & d & ->).
  cbn. rewrite X; [lia|]. intros; apply A; right; auto.
Qed.
Print Assumptions C42_count.

(** Two Ticks: the first handles one delivery, the second two. *)
Definition C42_uses : list use :=
  [UTick 1 (Some (effect_pkt 50 7 0 0)) 2 None; UTick 3 None 4 (Some (effect_pkt 51 8 0 0))].

Example C42_example : exists n0 n out, construct (env0 Arduino) (u32 0) 0 0 zero58 zero58 = Ok n0 /\
  sorted_from 0 (radio_calls false C42_uses) /\
  do_uses (env0 Arduino) C42_uses n0 = Ok (tt, n, out) /\ out = [Forwarded (effect_pkt 50 7 0 0); Forwarded (effect_pkt 51 8 0 0)] /\
  GetEffectIndex n = 8 /\ length (radio_calls false C42_uses) = 3%nat.
Proof.
  eexists _, _, _. split; [vm_compute; reflexivity|]. split.
  - cbn. repeat split; try lia; apply wf_packetb_ok; vm_compute; reflexivity.
  - split; [vm_compute; reflexivity|]. split; [reflexivity|]. split; reflexivity.
Qed.
