(** A master that is called often enough is heard often enough: C147 from below. *)
From Coq Require Import ZArith Lia List Bool.
From Coq Require Import ZifyBool.
From Verif Require Import CInt CIntFacts Packet SpecPacket PacketFacts NetMgr NetHist SpecNet NetFacts Rsm RsmStep RsmEval RsmHist SpecRsm RsmFacts RsmTime RoleFacts EffectFacts RsmRun PropHeartbeat PropTraffic.
Import ListNotations.
Open Scope Z_scope.
Ltac Zify.zify_post_hook ::= Z.div_mod_to_equations.

(** The calls that sent a heartbeat. *)
Definition beats (ev : event) : bool :=
  existsb (fun x => match x with Own _ p => ptype p =? 0 | Forwarded _ => false end) (sent ev).

Lemma beats_iff ev : beats ev = true <-> own_heartbeat ev.
Proof.
  unfold beats, own_heartbeat, originated. rewrite existsb_exists. split.
  - intros ([p|s p] & I & E); [discriminate E|]. exists p. split; [exists s; exact I|lia].
  - intros (p & (s & I) & E). exists (Own s p). split; [exact I|]. cbn. lia.
Qed.

Definition within (x y : Z) (ev : event) : bool := beats ev && (x <? at_ ev) && (at_ ev <=? y).

Lemma within_split x y z win : x <= y <= z -> count (within x y) win + count (within y z) win = count (within x z) win.
Proof.
  intros L. unfold count. induction win as [|ev win IH]; [reflexivity|]. cbn [filter]. unfold within in *.
  destruct (beats ev); cbn [andb] in *; [|exact IH].
  destruct (Z.ltb_spec x (at_ ev)), (Z.leb_spec (at_ ev) y), (Z.ltb_spec y (at_ ev)), (Z.leb_spec (at_ ev) z); cbn [andb length] in *; lia.
Qed.

Lemma within_some x y win ev : In ev win -> own_heartbeat ev -> x < at_ ev <= y -> 1 <= count (within x y) win.
Proof.
  intros I B L. unfold count. assert (J : In ev (filter (within x y) win)).
  { apply filter_In. split; [exact I|]. unfold within. apply beats_iff in B. rewrite B. cbn. lia. }
  destruct (filter (within x y) win); [destruct J|cbn; lia].
Qed.

Lemma within_le x y win : count (within x y) win <= count beats win.
Proof.
  unfold count. induction win as [|ev win IH]; [apply Z.le_refl|]. cbn [filter]. unfold within in *.
  destruct (beats ev); cbn [andb length]; [|exact IH]. destruct ((x <? at_ ev) && (at_ ev <=? y)); cbn [length]; lia.
Qed.

(** A node that is master for [T] ms and has a call without packet in every [P] ms sends at
    least one heartbeat in every 1000 + P ms of them. *)
Theorem C147_heartbeats_at_least e t0 pre win a T P :
  history e t0 (pre ++ win) -> api_ok (pre ++ win) -> all_before (wrap - 7000) t0 (pre ++ win) ->
  (forall ev, In ev pre -> at_ ev <= a) -> (forall ev, In ev win -> role_before ev = Master) ->
  0 <= T -> 0 < P ->
  (forall x, a <= x -> x + P <= a + T -> exists ev, In ev win /\ packet_free ev /\ x < at_ ev <= x + P) ->
  T / (1000 + P) <= count beats win.
Proof.
  intros [n H] A B Pre Ma T0 P0 Calls.
  assert (One : forall x, a <= x -> x + 1000 + P <= a + T -> 1 <= count (within x (x + 1000 + P)) win).
  { intros x Lx Ux. destruct (Z_lt_ge_dec 0 (count (within x (x + 1000 + P)) win)) as [|No]; [lia|].
    destruct (Calls (x + 1000) ltac:(lia) ltac:(lia)) as (ev & I & F & L).
    apply (within_some _ _ _ ev I); [|lia].
    pose proof I as I0. apply in_split in I as (h1 & h2 & E).
    assert (E2 : pre ++ win = ((pre ++ h1) ++ [ev]) ++ h2) by (rewrite E, <- !app_assoc; reflexivity).
    rewrite E2 in H, A, B. apply hist_prefix in H as (n1 & H). apply api_ok_app in A. apply all_before_app in B.
    apply (C20_heartbeat_due_is_sent e t0 (pre ++ h1) ev (ex_intro _ _ H) A B (Ma ev I0) F).
    intros v Iv Bv. apply in_app_or in Iv as [Iv|Iv]; [specialize (Pre v Iv); lia|].
    destruct (Z_le_gt_dec (at_ v) x) as [|Late]; [lia|exfalso].
    apply hist_last in H as (_ & _ & _ & _ & _ & Ord & _). specialize (Ord v ltac:(apply in_or_app; right; exact Iv)).
    pose proof (within_some x (x + 1000 + P) win v ltac:(rewrite E; apply in_or_app; left; exact Iv) Bv ltac:(lia)). lia. }
  assert (Many : forall k : nat, Z.of_nat k * (1000 + P) <= T -> Z.of_nat k <= count (within a (a + Z.of_nat k * (1000 + P))) win).
  { induction k as [|k IH]; intros Lk; [unfold count; lia|].
    rewrite Nat2Z.inj_succ in *. unfold Z.succ in *.
    rewrite <- (within_split a (a + Z.of_nat k * (1000 + P)) (a + (Z.of_nat k + 1) * (1000 + P)) win) by nia.
    specialize (IH ltac:(nia)). pose proof (One (a + Z.of_nat k * (1000 + P)) ltac:(nia) ltac:(nia)) as O.
    replace (a + (Z.of_nat k + 1) * (1000 + P)) with (a + Z.of_nat k * (1000 + P) + 1000 + P) by ring. lia. }
  assert (Q : 0 <= T / (1000 + P)) by (apply Z.div_pos; lia).
  pose proof (Many (Z.to_nat (T / (1000 + P)))) as M. rewrite Z2Nat.id in M by exact Q.
  specialize (M ltac:(rewrite Z.mul_comm; apply Z.mul_div_le; lia)).
  pose proof (within_le a (a + T / (1000 + P) * (1000 + P)) win). lia.
Qed.
Print Assumptions C147_heartbeats_at_least.

(** And never more than one in 1001 ms. *)
Theorem C147_heartbeats_at_most e t0 pre win a T :
  history e t0 (pre ++ win) -> api_ok (pre ++ win) -> all_before (wrap - 7000) t0 (pre ++ win) ->
  (forall ev, In ev win -> a <= at_ ev <= a + T) -> 0 <= T ->
  count beats win <= T / 1001 + 1.
Proof.
  intros HH A B W T0.
  assert (X : count beats win = 0 \/ exists v, In v win /\ own_heartbeat v /\ 1001 * (count beats win - 1) <= at_ v - a).
  { induction win as [|ev win IH] using rev_ind; [left; reflexivity|].
    assert (IH' : count beats win = 0 \/ exists v, In v win /\ own_heartbeat v /\ 1001 * (count beats win - 1) <= at_ v - a).
    { rewrite app_assoc in HH, A, B. apply IH; [|apply (api_ok_app _ _ A)|apply (all_before_app _ _ _ _ B)|intros; apply W, in_or_app; auto].
      destruct HH as [n H]. apply hist_last in H as (H & _). eexists; exact H. }
    assert (We : a <= at_ ev <= a + T) by (apply W, in_or_app; right; left; reflexivity).
    rewrite count_snoc. destruct (beats ev) eqn:Be.
    - apply beats_iff in Be. right. exists ev. split; [apply in_or_app; right; left; reflexivity|]. split; [exact Be|].
      destruct IH' as [->|(v & Iv & Bv & L)]; [lia|]. apply in_split in Iv as (h1 & h2 & E).
      replace (pre ++ win ++ [ev]) with ((pre ++ h1) ++ v :: h2 ++ [ev]) in HH, A, B by (rewrite E, <- !app_assoc; reflexivity).
      pose proof (C20_heartbeats_apart e t0 (pre ++ h1) v h2 ev HH A B Bv Be). lia.
    - rewrite Z.add_0_r. destruct IH' as [Z0|(v & Iv & R)]; [left; exact Z0|right; exists v; split; [apply in_or_app; auto|exact R]]. }
  destruct X as [->|(v & Iv & _ & L)]; [lia|]. specialize (W v Iv). lia.
Qed.
Print Assumptions C147_heartbeats_at_most.

(** A master called every 700 ms: three heartbeats in 4200 ms; at least two are promised. *)
Example C147_example_beats : exists pre win n, hist (env0 Arduino) 0 (pre ++ win) n /\
  api_ok (pre ++ win) /\ all_before (wrap - 7000) 0 (pre ++ win) /\
  (forall ev, In ev pre -> at_ ev <= 7000) /\ (forall ev, In ev win -> role_before ev = Master) /\
  (forall x, 7000 <= x -> x + 700 <= 7000 + 4200 -> exists ev, In ev win /\ packet_free ev /\ x < at_ ev <= x + 700) /\
  count beats win = 3 /\ 4200 / (1000 + 700) = 2.
Proof.
  run_as H (env0 Arduino) 0 [(7000, OTick None); (7700, OTick None); (8400, OTick None); (9100, OTick None); (9800, OTick None);
    (10500, OTick None); (11200, OTick None)].
  match type of H with hist _ _ [?a; ?b; ?c; ?d; ?f; ?g; ?h] _ => exists [a], [b; c; d; f; g; h];
    set (B := b) in *; set (C := c) in *; set (D := d) in *; set (F := f) in *; set (G := g) in *; set (K := h) in * end.
  eexists. split; [exact H|]. split; [|split; [|split; [|split; [|split; [|split; reflexivity]]]]].
  - intros ev p I Q. repeat (destruct I as [<-|I]; [discriminate Q|]). destruct I.
  - split; [reflexivity|]. intros ev I. repeat (destruct I as [<-|I]; [reflexivity|]). destruct I.
  - intros ev [<-|[]]. cbn. lia.
  - intros ev I. repeat (destruct I as [<-|I]; [reflexivity|]). destruct I.
  - intros x L U.
    assert (X : x < 7700 \/ 7700 <= x < 8400 \/ 8400 <= x < 9100 \/ 9100 <= x < 9800 \/ 9800 <= x < 10500 \/ 10500 <= x) by lia.
    destruct X as [X|[X|[X|[X|[X|X]]]]]; [exists B|exists C|exists D|exists F|exists G|exists K];
      (split; [cbn [In]; auto 20|split; [|cbn [at_ B C D F G K]; lia]]);
      (split; [eexists; reflexivity|intros p I; cbn in I; intuition discriminate]).
Qed.
