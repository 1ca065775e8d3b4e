(** The wait after power-up on real devices: C113. *)
From Coq Require Import ZArith NArith Lia List Bool.
From Coq Require Import ZifyBool.
From Verif Require Import CInt CIntFacts Packet SpecPacket PacketFacts NetMgr NetHist SpecNet NetFacts Rsm RsmStep RsmEval RsmHist SpecRsm RsmFacts RsmTime RoleFacts RsmRun EffectFacts PropRole PropHeartbeat PropPair PropNetTime PropNetwork PropOneMaster PropStartUp Seed.
Import ListNotations.
Open Scope Z_scope.
Ltac Zify.zify_post_hook ::= Z.div_mod_to_equations.

(** Whatever the readings of the analogue pin, all devices wait equally long
    after power-up: the wait is drawn before the generator is seeded. *)
Definition power_up_wait (gen : N -> nat -> N) : Z := 5000 + Z.of_N (gen 1%N 0%nat) mod 2000.

Lemma device_patience gen a b t0 : patience_ends (device_env gen a b) t0 = t0 + power_up_wait gen.
Proof.
  unfold patience_ends, power_up_wait. change (draw (device_env gen a b) 0%nat) with (gen 1%N 0%nat). lia.
Qed.

(** A lonely slave takes over at its first packet-free tick later than the wait. *)
Theorem C113_everybody_waits_equally_long gen a b t0 h ev :
  history (device_env gen a b) t0 (h ++ [ev]) -> all_before (wrap - 7000) t0 (h ++ [ev]) ->
  (forall x, In x h -> ~ contact x) -> role_before ev = Slave ->
  (took_over ev <-> packet_free ev /\ power_up_wait gen < at_ ev - t0).
Proof.
  intros H B Nc R. rewrite (C104_a_lonely_node_takes_over _ _ _ _ H B Nc R).
  rewrite device_patience. intuition lia.
Qed.
Print Assumptions C113_everybody_waits_equally_long.

(** Somebody who once finds the radio silent after its patience ended, and hears
    nothing of a master, is master from then on. *)
Lemma lonely_master e t0 h n : hist e t0 h n -> all_before (wrap - 7000) t0 h ->
  (forall x, In x h -> ~ contact x) ->
  (exists y, In y h /\ packet_free y /\ patience_ends e t0 < at_ y) -> state n = Master.
Proof.
  revert n. induction h as [|ev h IH] using rev_ind; intros n H B Nc (y & Iy & Fy & Ly); [destruct Iy|].
  pose proof H as H'. apply hist_last in H' as (H1 & -> & _). pose proof B as B'. apply all_before_last in B' as [B1 _].
  assert (Nh : forall x, In x h -> ~ contact x) by (intros x I; apply Nc; apply in_or_app; left; exact I).
  assert (Keep : role_before ev = Master -> role_after ev = Master).
  { intros Rb. apply (no_contact_keeps_master e t0 h ev (ex_intro _ _ H) Rb). intros p A L.
    apply (Nc ev); [apply in_or_app; right; left; reflexivity|exists p; split; [exact A|exact L]]. }
  apply in_app_or in Iy as [Iy|[->|[]]].
  - apply Keep. apply (IH _ H1 B1 Nh). exists y. auto.
  - destruct (role_before y) eqn:Rb; [|apply Keep; reflexivity].
    apply (C104_a_lonely_node_takes_over e t0 h y (ex_intro _ _ H) B Nh Rb). auto.
Qed.

(** What a node hears of a master was transmitted at least L ms earlier. *)
Definition signs_take (w : network) (tr : run) (L : Z) : Prop :=
  forall a i ev b p, tr = a ++ (i, ev) :: b -> accepted ev p -> life_sign p ->
    exists j y x, In (j, y) a /\ In x (sent y) /\ ptype (rtx_packet x) = ptype p /\
      global w j y + L <= global w i ev.

(** Finding: devices switched on together all become master.  N devices are
    switched on between g and g + d, each finds the radio silent at least every P
    ms, and d + P is shorter than the time L a packet takes.  Then at time
    g + wait + d + P all N devices are masters. *)
Section Together.
Variables (gen : N -> nat -> N) (w : network) (N : nat) (tr : run) (g d P L stop : Z).
Hypothesis (Dev : forall i, (i < N)%nat -> exists a b, n_env w i = device_env gen a b).
Hypothesis (New : forall i, n_past w i = []).
Hypothesis (R : is_run w tr) (O : ordered w tr).
Hypothesis (Bd : forall i ev, In (i, ev) tr -> (i < N)%nat /\ global w i ev <= stop).
Hypothesis (W : forall i, (i < N)%nat -> all_before (wrap - 7000) (n_start w i) (calls_at i tr)).
Hypothesis (On : forall i, (i < N)%nat -> g <= n_start w i - n_off w i <= g + d).
Hypothesis (Sg : signs_take w tr L).

Lemma tg_ends i : (i < N)%nat -> ends w i - n_off w i = n_start w i - n_off w i + power_up_wait gen.
Proof using All.
  intros Ni. rewrite ends_new by apply New. destruct (Dev i Ni) as (a & b & ->).
  rewrite device_patience. lia.
Qed.

Lemma tg_genuine : forall a i ev b p, tr = a ++ (i, ev) :: b -> accepted ev p -> life_sign p ->
  exists j ev' x, In (j, ev') a /\ In x (sent ev') /\ ptype (rtx_packet x) = ptype p.
Proof using All.
  intros a i ev b p E A Lp. destruct (Sg a i ev b p E A Lp) as (j & y & x & I & Ix & Tx & _). eauto 10.
Qed.

(** Nobody sends a sign of life before the wait is over. *)
Lemma tg_silent j y x : In (j, y) tr -> In x (sent y) -> life_sign (rtx_packet x) -> g + power_up_wait gen < global w j y.
Proof using All.
  intros I Ix Lx.
  assert (In_N : forall i ev, In (i, ev) tr -> (i < N)%nat) by (intros i ev Ii; apply (Bd i ev Ii)).
  destruct (first_takeover tr) as [(pre & k & u & rest & E & TO & Nt)|Nt].
  - destruct (before_first_takeover w tr N (new_leaderless w N New) R In_N tg_genuine pre _ E Nt) as [A B].
    assert (Iu : In (k, u) tr) by (rewrite E; apply in_or_app; right; left; reflexivity).
    assert (Nk : (k < N)%nat) by (apply (In_N k u Iu)).
    assert (Lu : g + power_up_wait gen < global w k u).
    { assert (Rp : is_run w (pre ++ (k, u) :: rest)) by (rewrite <- E; exact R).
      destruct (run_split _ _ _ _ _ Rp) as (n & H & _). rewrite New in H. pose proof H as H1. apply hist_last in H1 as (H1 & _). cbn [app] in *.
      assert (Bu : all_before (wrap - 7000) (n_start w k) (calls_at k pre ++ [u])).
      { destruct (W k Nk) as [W1 W2]. split; [exact W1|]. intros z Iz. apply W2. apply in_calls_at.
        apply in_app_or in Iz as [Iz|[<-|[]]]; [|exact Iu]. apply in_calls_at in Iz. rewrite E. apply in_or_app; auto. }
      destruct (Dev k Nk) as (a & b & De). rewrite De in H.
      apply (C113_everybody_waits_equally_long gen a b (n_start w k) (calls_at k pre) u (ex_intro _ _ H) Bu) in TO as [_ TO].
      - pose proof (On k Nk). unfold global. lia.
      - intros z Iz. apply in_calls_at in Iz. apply (A k z Iz).
      - exact (proj1 TO). }
    rewrite E in I. apply in_app_or in I as [I|[I|I]].
    + exfalso. destruct (A j y I) as (_ & _ & _ & Q). exact (Q x Ix Lx).
    + injection I as <- <-. exact Lu.
    + apply in_split in I as (c & e & Er). specialize (O pre k u c j y e). rewrite E, Er in O. specialize (O eq_refl). lia.
  - exfalso. destruct (before_first_takeover w tr N (new_leaderless w N New) R In_N tg_genuine tr [] (eq_sym (app_nil_r tr)) Nt) as [A _].
    destruct (A j y I) as (_ & _ & _ & Q). exact (Q x Ix Lx).
Qed.

Lemma tg_no_contact i ev : In (i, ev) tr -> global w i ev <= g + power_up_wait gen + L -> ~ contact ev.
Proof using All.
  intros I Le (p & A & Lp). apply in_split in I as (a & b & E).
  destruct (Sg a i ev b p E A Lp) as (j & y & x & Iy & Ix & Tx & Lt).
  assert (X : g + power_up_wait gen < global w j y).
  { apply (tg_silent j y x); [rewrite E; apply in_or_app; left; exact Iy|exact Ix|]. unfold life_sign in *. rewrite Tx. exact Lp. }
  lia.
Qed.
End Together.

Theorem C113_devices_switched_on_together_all_become_master gen w N tr g d P L stop :
  (forall i, (i < N)%nat -> exists a b, n_env w i = device_env gen a b) ->
  (forall i, n_past w i = []) ->
  is_run w tr -> ordered w tr ->
  (forall i ev, In (i, ev) tr -> (i < N)%nat /\ global w i ev <= stop) ->
  (forall i, (i < N)%nat -> all_before (wrap - 7000) (n_start w i) (calls_at i tr)) ->
  (forall i, (i < N)%nat -> g <= n_start w i - n_off w i <= g + d) ->
  signs_take w tr L ->
  (forall i, (i < N)%nat -> free_ticks w i tr (g + power_up_wait gen) stop P) ->
  let t := g + power_up_wait gen + d + P in
  d + P <= L -> t < stop ->
  forall pre post, tr = pre ++ post ->
  (forall i ev, In (i, ev) pre -> global w i ev <= t) -> (forall i ev, In (i, ev) post -> t < global w i ev) ->
  forall i n, (i < N)%nat -> hist (n_env w i) (n_start w i) (calls_at i pre) n -> GetCurrentState n = Master.
Proof.
  intros Dev New R O Bd W On Sg Fr t DL St pre post E Bef Aft i n Ni H.
  destruct (W i Ni) as [W1 W2]. pose proof (On i Ni) as Oi.
  apply (lonely_master _ _ _ _ H).
  - split; [exact W1|]. intros z I. apply W2. apply in_calls_at in I. apply in_calls_at. rewrite E. apply in_or_app; left; exact I.
  - intros z I. apply in_calls_at in I.
    apply (tg_no_contact gen w N tr g d P L stop Dev New R O Bd W On Sg i z); [rewrite E; apply in_or_app; left; exact I|].
    pose proof (Bef i z I). unfold t in *. lia.
  - assert (Pw : 5000 <= power_up_wait gen) by (unfold power_up_wait; lia).
    destruct (Fr i Ni (n_start w i - n_off w i + power_up_wait gen)) as (y & I & F & Ly); [lia|unfold t in St; lia|].
    exists y. split; [|split; [exact F|]].
    + apply in_calls_at. rewrite E in I. apply in_app_or in I as [I|I]; [exact I|]. pose proof (Aft i y I). unfold t in *. lia.
    + destruct (Dev i Ni) as (a & b & ->). rewrite device_patience. unfold global in *. lia.
Qed.
Print Assumptions C113_devices_switched_on_together_all_become_master.

(** Non-vacuous: with newlib's generator the wait is 6933 ms; two devices switched
    on 2 ms apart, ticked every 10 ms while a packet takes 15 ms, are both master
    at 6945 ms, and device 0 hears the other 15 ms later. *)
Example C113_example : exists (w : network) (tr : run) (n0 n1 : node),
  (forall i, (i < 2)%nat -> exists a b, n_env w i = device_env newlib a b) /\
  (forall i, n_past w i = []) /\ power_up_wait newlib = 6933 /\
  is_run w tr /\ ordered w tr /\
  (forall i ev, In (i, ev) tr -> (i < 2)%nat /\ global w i ev <= 6960) /\
  (forall i, (i < 2)%nat -> all_before (wrap - 7000) (n_start w i) (calls_at i tr)) /\
  (forall i, (i < 2)%nat -> 0 <= n_start w i - n_off w i <= 0 + 2) /\
  signs_take w tr 15 /\
  (forall i, (i < 2)%nat -> free_ticks w i tr (0 + power_up_wait newlib) 6960 10) /\
  (exists ev, In (0%nat, ev) tr /\ contact ev) /\
  hist (n_env w 0%nat) (n_start w 0%nat) (calls_at 0 (firstn 4 tr)) n0 /\ GetCurrentState n0 = Master /\
  hist (n_env w 1%nat) (n_start w 1%nat) (calls_at 1 (firstn 4 tr)) n1 /\ GetCurrentState n1 = Master.
Proof.
  run_as H0 (device_env newlib 512 300) 0 [(6930, OTick None); (6940, OTick None); (6950, OTick None); (6960, OTick (Some (heartbeat_pkt 16349 6945)))].
  run_as H1 (device_env newlib 77 300) 2 [(6935, OTick None); (6945, OTick None); (6955, OTick None)].
  run_as H2 (env0 Arduino) 0 (@nil (Z * op)).
  run_as K0 (device_env newlib 512 300) 0 [(6930, OTick None); (6940, OTick None)].
  run_as K1 (device_env newlib 77 300) 2 [(6935, OTick None); (6945, OTick None)].
  match type of H0 with hist _ _ [?a; ?b; ?c; ?d] _ => match type of H1 with hist _ _ [?p; ?q; ?r] _ =>
  match type of K0 with hist _ _ _ ?n0 => match type of K1 with hist _ _ _ ?n1 =>
    set (A := a) in *; set (B := b) in *; set (C := c) in *; set (D := d) in *;
    set (P := p) in *; set (Q := q) in *; set (R := r) in *;
    exists (mkNetwork (fun i => match i with 0%nat => device_env newlib 512 300 | 1%nat => device_env newlib 77 300 | _ => env0 Arduino end)
       (fun i => match i with 1%nat => 2 | _ => 0 end) (fun _ => 0) (fun _ => [])),
      [(0%nat, A); (1%nat, P); (0%nat, B); (1%nat, Q); (0%nat, C); (1%nat, R); (0%nat, D)], n0, n1
  end end end end.
  split. { intros [|[|i]] L; [exists 512%N, 300%N; reflexivity|exists 77%N, 300%N; reflexivity|lia]. }
  split; [reflexivity|]. split; [reflexivity|].
  split.
  { intros [|[|i]].
    - split; [eexists; exact H0|]. intros x p I K. repeat (destruct I as [<-|I]; [discriminate K|]). destruct I.
    - split; [eexists; exact H1|]. intros x p I K. repeat (destruct I as [<-|I]; [discriminate K|]). destruct I.
    - split; [eexists; exact H2|]. intros x p []. }
  split.
  { intros a i u b j v c E.
    repeat (destruct a as [|? a]; [injection E as <- <- E;
       repeat (destruct b as [|? b]; [injection E as <- <- E; vm_compute; congruence|injection E as _ E]);
       try (destruct b; discriminate E)|injection E as _ E]); destruct a; discriminate E. }
  split.
  { intros i ev I. repeat (destruct I as [I|I]; [injection I as <- <-; split; [lia|vm_compute; congruence]|]). destruct I. }
  split.
  { intros [|[|i]] L; [| |lia]; (split; [reflexivity|]); intros x I; repeat (destruct I as [<-|I]; [reflexivity|]); destruct I. }
  split. { intros [|[|i]] L; [| |lia]; cbn; lia. }
  split.
  { intros a i ev b p E [Ca Fw] Lp. exists 1%nat, Q.
    do 6 (destruct a as [|? a]; [injection E as <- <- E; discriminate Ca|injection E as <- E]).
    destruct a as [|? a]; [|injection E as <- E; destruct a; discriminate E].
    injection E as <- <- E. injection Ca as <-.
    eexists. split; [cbn [In]; auto 30|]. split; [left; reflexivity|]. split; [reflexivity|vm_compute; congruence]. }
  split.
  { change (power_up_wait newlib) with 6933.
    intros [|[|i]] L x L1 L2; [| |lia].
    - assert (X : x < 6940 \/ 6940 <= x) by lia. destruct X as [X|X]; [exists B|exists C]; (split; [cbn [In]; auto 30|]);
        (split; [split; [eexists; reflexivity|intros p I; cbn in I; intuition discriminate]|]); unfold global; cbn; lia.
    - assert (X : x < 6935 \/ 6935 <= x < 6945 \/ 6945 <= x) by lia. destruct X as [X|[X|X]]; [exists P|exists Q|exists R]; (split; [cbn [In]; auto 30|]);
        (split; [split; [eexists; reflexivity|intros p I; cbn in I; intuition discriminate]|]); unfold global; cbn; lia. }
  split.
  { exists D. split; [cbn [In]; auto 30|]. eexists. split; [split; [reflexivity|left; reflexivity]|left; reflexivity]. }
  split; [exact K0|]. split; [reflexivity|]. split; [exact K1|reflexivity].
Qed.

(** ** What the seed does decide *)
(** Every number drawn after start-up: those of the generator seeded with
    1024 a + b, from the second on, when the two readings of the pin are a and b.
    If both are 0 nothing is seeded and the device goes on with the numbers that
    every device starts with. *)
Theorem C113_what_the_seed_decides : forall gen a b k, (a < 1024)%N -> (b < 1024)%N ->
  device_draw gen a b 0 = gen 1%N 0%nat /\
  device_draw gen a b (S k) = if ((a =? 0) && (b =? 0))%N%bool then gen 1%N (S (S k)) else gen (1024 * a + b)%N (S k).
Proof.
  intros gen a b k Ha Hb. split; [reflexivity|]. unfold device_draw, boot, rand, unseeded, randomSeed, seed_of. cbn [fst snd].
  assert (S : N.lor (N.shiftl a 10) b = (1024 * a + b)%N).
  { rewrite <- (N.lxor_lor (N.shiftl a 10) b), <- N.add_nocarry_lxor.
    - rewrite N.shiftl_mul_pow2. change (2 ^ 10)%N with 1024%N. lia.
    - apply N.bits_inj. intros i. rewrite N.land_spec, N.bits_0. destruct (N.lt_ge_cases i 10) as [L|L].
      + rewrite N.shiftl_spec_low by exact L. reflexivity.
      + rewrite (N.bits_above_log2 b i), andb_false_r; [reflexivity|]. destruct (N.eq_dec b 0) as [->|Nz]; [cbn; lia|].
        assert (N.log2 b < 10)%N by (apply N.log2_lt_pow2; [lia|exact Hb]). lia.
    - apply N.bits_inj. intros i. rewrite N.land_spec, N.bits_0. destruct (N.lt_ge_cases i 10) as [L|L].
      + rewrite N.shiftl_spec_low by exact L. reflexivity.
      + rewrite (N.bits_above_log2 b i), andb_false_r; [reflexivity|]. destruct (N.eq_dec b 0) as [->|Nz]; [cbn; lia|].
        assert (N.log2 b < 10)%N by (apply N.log2_lt_pow2; [lia|exact Hb]). lia. }
  rewrite S. destruct (N.eqb_spec (1024 * a + b) 0) as [Q|Q]; destruct (N.eqb_spec a 0), (N.eqb_spec b 0); cbn [andb]; try lia; reflexivity.
Qed.
Print Assumptions C113_what_the_seed_decides.

Example C113_seed_example : device_draw newlib 512 300 1 = newlib 524588 1 /\ device_draw newlib 77 300 1 = newlib 79148 1 /\
  device_draw newlib 512 300 1 <> device_draw newlib 77 300 1 /\ device_draw newlib 0 0 1 = newlib 1 2.
Proof. repeat split; vm_compute; congruence. Qed.
