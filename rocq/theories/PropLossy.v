(** A network that loses packets: C141. *)
From Coq Require Import ZArith Lia List Bool.
From Coq Require Import ZifyBool.
From Verif Require Import CInt CIntFacts Packet SpecPacket PacketFacts NetMgr NetHist SpecNet NetFacts Fastled Palette Device LedMgr SpecLed Effects SpecEffect Show ShowFacts PropShow Rsm RsmStep RsmEval RsmHist SpecRsm RsmFacts RsmTime RoleFacts RsmRun EffectFacts PropRole PropHeartbeat PropEffect PropHold PropPair PropNetTime PropNetwork PropOneMaster PropCatchUp PropInStep PropDrift Settled.
Import ListNotations.
Open Scope Z_scope.
Ltac Zify.zify_post_hook ::= Z.div_mod_to_equations.

(** The clocks do not go backwards, and while [Gap] ms pass none of them shows that
    more than five seconds have passed. *)
Record patient (clk : nat -> Z -> Z) (N : nat) (Gap : Z) : Prop := mkPatient {
  pt_forward : forall i x y, (i < N)%nat -> x <= y -> clk i x <= clk i y;
  pt_five : forall i x, (i < N)%nat -> clk i (x + Gap) <= clk i x + 5000
}.

(** As [in_reach] of C140, but packets get lost, and nothing is said about how often the
    master is called.  All that is asked is that no other node goes without a heartbeat
    for more than [Gap] ms, and that the heartbeats and claims a node accepts are at most D ms
    old. *)
Record in_earshot (w : network) (clk : nat -> Z -> Z) (N m : nat) (tr : timed) (g stop D Gap : Z) : Prop := mkEarshot {
  es_run : is_run w (untimed tr);
  es_ordered : forall a i x u b j y v c, tr = a ++ (i, (x, u)) :: b ++ (j, (y, v)) :: c -> x <= y;
  es_times : forall i x ev, In (i, (x, ev)) tr -> (i < N)%nat /\ at_ ev = clk i x /\ x <= stop;
  es_wrap : forall i, (i < N)%nat -> all_before (wrap - 7000) (n_start w i) (n_past w i ++ calls_at i (untimed tr));
  es_hears : forall i x, (i < N)%nat -> i <> m -> g <= x -> x + Gap < stop ->
    exists y c q, In (i, (y, c)) tr /\ accepted c q /\ ptype q = 0 /\ x < y <= x + Gap;
  es_prompt : forall a i x ev b p, tr = a ++ (i, (x, ev)) :: b -> accepted ev p -> life_sign p -> sent_before a i x p D
}.

(** What [Settled.v] asks for. *)
Lemma earshot_aired w clk N m tr g stop D Gap : in_earshot w clk N m tr g stop D Gap -> aired w clk N tr stop D.
Proof. intros [R O T W _ P]. constructor; assumption. Qed.

(** Nobody else takes over: everybody hears a heartbeat in time. *)
Lemma earshot_quiet w clk N m tr g stop D Gap : in_earshot w clk N m tr g stop D Gap -> patient clk N Gap ->
  (forall i x ev, In (i, (x, ev)) tr -> i <> m -> x <= g + Gap -> ~ took_over ev) ->
  forall i x ev, In (i, (x, ev)) tr -> i <> m -> ~ took_over ev.
Proof.
  intros IR SY NoR i x ev Ii Ne TOs.
  destruct (Z_le_gt_dec x (g + Gap)) as [Near|Far]; [exact (NoR i x ev Ii Ne Near TOs)|].
  destruct (es_times _ _ _ _ _ _ _ _ _ IR i x ev Ii) as (Ni & At & Ti).
  destruct (es_hears _ _ _ _ _ _ _ _ _ IR i (x - Gap - 1) Ni Ne ltac:(lia) ltac:(lia)) as (u & c & q & Ic & Ac & Tq & Lc).
  apply (late_takeover w clk N tr stop D (earshot_aired _ _ _ _ _ _ _ _ _ IR) i x ev u c Ii TOs Ic); [lia|exists q; split; [exact Ac|left; exact Tq]|].
  destruct SY as [F Five]. specialize (Five i (x - Gap) Ni). replace (x - Gap + Gap) with x in Five by lia.
  specialize (F i (x - Gap) u Ni ltac:(lia)). lia.
Qed.

(** ** C141 *)

(** Node m sends a heartbeat with call m0 at time g; the others are slaves then, and
    nobody takes over within the first [Gap] ms.  Whatever packets get lost, as long as nobody
    misses all heartbeats for more than [Gap] ms, m is the only master up to [stop]. *)
Theorem C141_one_master w clk N m m0 rest g stop D Gap :
  let tr := (m, (g, m0)) :: rest in
  in_earshot w clk N m tr g stop D Gap -> patient clk N Gap -> own_heartbeat m0 ->
  (forall i n, (i < N)%nat -> i <> m -> hist (n_env w i) (n_start w i) (n_past w i) n -> GetCurrentState n = Slave) ->
  (forall i x ev, In (i, (x, ev)) tr -> i <> m -> x <= g + Gap -> ~ took_over ev) ->
  forall i x ev, In (i, (x, ev)) tr -> role_after ev = if Nat.eqb i m then Master else Slave.
Proof.
  intros tr IR SY TO Sl NoR. apply (es_roles w clk N m m0 rest g stop D (earshot_aired _ _ _ _ _ _ _ _ _ IR) TO Sl).
  exact (earshot_quiet _ _ _ _ _ _ _ _ _ IR SY NoR).
Qed.
Print Assumptions C141_one_master.

(** However many packets got lost: at the end of the run the network times of any node
    and of the master differ by at most 2 E ms one way and D + 2 E ms the other, where E is how
    wrong a clock can be after Gap + D ms. *)
Theorem C141_times_stay_together w clk N m m0 rest g stop D Gap E :
  let tr := (m, (g, m0)) :: rest in
  in_earshot w clk N m tr g stop D Gap -> patient clk N Gap -> own_heartbeat m0 ->
  (forall i n, (i < N)%nat -> i <> m -> hist (n_env w i) (n_start w i) (n_past w i) n -> GetCurrentState n = Slave) ->
  (forall i x ev, In (i, (x, ev)) tr -> i <> m -> x <= g + Gap -> ~ took_over ev) ->
  accurate clk N (Gap + D) E -> g + Gap < stop ->
  forall i n nm, (i < N)%nat -> i <> m ->
    hist (n_env w i) (n_start w i) (n_past w i ++ calls_at i (untimed tr)) n ->
    hist (n_env w m) (n_start w m) (n_past w m ++ calls_at m (untimed tr)) nm ->
    exists L, - (2 * E) <= L <= D + 2 * E /\
      GetNetworkMillis (u32 (clk i stop)) n = u32 (GetNetworkMillis (u32 (clk m stop)) nm - L).
Proof.
  intros tr IR SY TO Sl NoR Acc Late i n nm Ni Nm.
  apply (settled_times w clk N m m0 rest g stop D Gap E (earshot_aired _ _ _ _ _ _ _ _ _ IR) TO Sl (earshot_quiet _ _ _ _ _ _ _ _ _ IR SY NoR) Acc i n nm Ni Nm).
  destruct (es_hears _ _ _ _ _ _ _ _ _ IR i (stop - Gap - 1) Ni Nm ltac:(lia) ltac:(lia)) as (y & c & q & Ic & Ac & Tq & Lc).
  exists y, c, q. repeat (split; [assumption|]). lia.
Qed.
Print Assumptions C141_times_stay_together.

(** From time x on the master shows K and nobody orders anything else.  A node that
    hears some announcement in the [T] ms after x + D shows K at the end, whatever else it missed. *)
Theorem C141_told_once_shows_it w clk N m m0 rest g stop D Gap x T K i n :
  let tr := (m, (g, m0)) :: rest in
  in_earshot w clk N m tr g stop D Gap -> patient clk N Gap -> own_heartbeat m0 ->
  (forall i n, (i < N)%nat -> i <> m -> hist (n_env w i) (n_start w i) (n_past w i) n -> GetCurrentState n = Slave) ->
  (forall i x ev, In (i, (x, ev)) tr -> i <> m -> x <= g + Gap -> ~ took_over ev) ->
  about_effects K -> news_prompt tr (x + D) D ->
  (forall y ev, In (m, (y, ev)) tr -> x < y -> says (GetSetEffect (after ev)) K) ->
  (forall j y ev q, In (j, (y, ev)) tr -> j <> m -> x < y -> call ev = OSetEffect q -> says q K) ->
  (i < N)%nat -> i <> m ->
  (exists y c q, In (i, (y, c)) tr /\ accepted c q /\ about_effects q /\ x + D < y <= x + D + T) ->
  hist (n_env w i) (n_start w i) (n_past w i ++ calls_at i (untimed tr)) n -> says (GetSetEffect n) K.
Proof.
  intros tr IR SY TO Sl NoR.
  exact (settled_told_once w clk N m m0 rest g stop D x T K i n (earshot_aired _ _ _ _ _ _ _ _ _ IR) TO Sl (earshot_quiet _ _ _ _ _ _ _ _ _ IR SY NoR)).
Qed.
Print Assumptions C141_told_once_shows_it.

(** Then it draws, on any strip, the picture the master draws at its own network time
    L ms earlier.  [delta r] is when the r-th LED is computed; [o] and [o'] are the random
    offsets of the two nodes. *)
Corollary C141_one_animation w clk N m m0 rest g stop D Gap E x T K i n nm :
  let tr := (m, (g, m0)) :: rest in
  in_earshot w clk N m tr g stop D Gap -> patient clk N Gap -> own_heartbeat m0 ->
  (forall i n, (i < N)%nat -> i <> m -> hist (n_env w i) (n_start w i) (n_past w i) n -> GetCurrentState n = Slave) ->
  (forall i x ev, In (i, (x, ev)) tr -> i <> m -> x <= g + Gap -> ~ took_over ev) ->
  accurate clk N (Gap + D) E -> g + Gap < stop ->
  about_effects K -> news_prompt tr (x + D) D ->
  (forall y ev, In (m, (y, ev)) tr -> x < y -> says (GetSetEffect (after ev)) K) -> says (GetSetEffect nm) K ->
  (forall j y ev q, In (j, (y, ev)) tr -> j <> m -> x < y -> call ev = OSetEffect q -> says q K) ->
  (i < N)%nat -> i <> m ->
  (exists y c q, In (i, (y, c)) tr /\ accepted c q /\ about_effects q /\ x + D < y <= x + D + T) ->
  hist (n_env w i) (n_start w i) (n_past w i ++ calls_at i (untimed tr)) n ->
  hist (n_env w m) (n_start w m) (n_past w m ++ calls_at m (untimed tr)) nm ->
  exists L, - (2 * E) <= L <= D + 2 * E /\
    forall fl md d o o' delta buf,
    o = o' \/ (ptype K = 2 -> ~ per_node (nth 0 (pdata K) 0 mod 35)) ->
    Show Arduino fl md d o (GetSetEffect n) (fun r => GetNetworkMillis (u32 (clk i stop + delta r)) n) buf =
    Show Arduino fl md d o' (GetSetEffect nm) (fun r => GetNetworkMillis (u32 (clk m stop - L + delta r)) nm) buf.
Proof.
  intros tr IR SY TO Sl NoR Acc Late AK NP Kx Sm NoSet Ni Nm Told Hn Hm.
  apply (settled_animation w clk N m m0 rest g stop D Gap E x T K i n nm (earshot_aired _ _ _ _ _ _ _ _ _ IR) TO Sl (earshot_quiet _ _ _ _ _ _ _ _ _ IR SY NoR) Acc); auto.
  destruct (es_hears _ _ _ _ _ _ _ _ _ IR i (stop - Gap - 1) Ni Nm ltac:(lia) ltac:(lia)) as (y & c & q & Ic & Ac & Tq & Lc).
  exists y, c, q. repeat (split; [assumption|]). lia.
Qed.
Print Assumptions C141_one_animation.

(** Five seconds are the limit but for the two that are drawn.  In any run: a slave that
    has heard its last life sign at time x or before, and gets a free tick when its clock has
    counted 7000 ms since, takes over, whoever else is master. *)
Theorem C141_seven_seconds_are_too_long w clk g x a i y ev b :
  let tr := a ++ (i, (y, ev)) :: b in
  is_run w (untimed tr) -> all_before (wrap - 7000) (n_start w i) (n_past w i ++ calls_at i (untimed tr)) ->
  (forall z c, In (i, (z, c)) tr -> at_ c = clk i z) -> (forall u v, u <= v -> clk i u <= clk i v) ->
  (forall c, In c (n_past w i) -> at_ c <= clk i g) -> n_start w i <= clk i g ->
  role_before ev = Slave -> packet_free ev -> g <= x -> clk i x + 7000 <= clk i y ->
  (forall z c, In (i, (z, c)) a -> contact c \/ stepped_down c -> z <= x) ->
  role_after ev = Master /\ own_heartbeat ev.
Proof.
  intros tr R W Times F Past St Rb Fr Gx Long Sil. unfold tr in R. rewrite untimed_app, untimed_cons in R.
  destruct (run_split _ _ _ _ _ R) as (n & H & _).
  assert (At : at_ ev = clk i y) by (apply Times; apply in_or_app; right; left; reflexivity).
  pose proof (F g x Gx) as Fx.
  assert (Wa : all_before (wrap - 7000) (n_start w i) ((n_past w i ++ calls_at i (untimed a)) ++ [ev])).
  { destruct W as [W1 W2]. split; [exact W1|]. intros z I. apply W2. unfold tr. rewrite untimed_app, untimed_cons, calls_at_app.
    replace (calls_at i ((i, ev) :: untimed b)) with (ev :: calls_at i (untimed b)) by (unfold calls_at; cbn; rewrite PeanoNat.Nat.eqb_refl; reflexivity).
    apply in_app_or in I as [I|[<-|[]]]; [|apply in_or_app; right; apply in_or_app; right; left; reflexivity].
    apply in_app_or in I as [I|I]; apply in_or_app; [left; exact I|right; apply in_or_app; left; exact I]. }
  destruct (C18_silent_network_gets_a_master _ _ _ _ (ex_intro _ _ H) Wa Rb Fr) as (Ra & p & Sp & Tp & _).
  - lia.
  - intros c I K. apply in_app_or in I as [I|I]; [specialize (Past c I); lia|].
    apply in_calls in I as (z & I). specialize (Sil z c I K).
    pose proof (Times z c ltac:(apply in_or_app; left; exact I)). pose proof (F z x Sil). lia.
  - split; [exact Ra|]. exists p. split; [|exact Tp]. exists ByHeartbeat. rewrite Sp. left; reflexivity.
Qed.
Print Assumptions C141_seven_seconds_are_too_long.

(** Node 1 hears the heartbeat of 6000 and then nothing; at 13100 there are two masters. *)
Example C141_ex_two_masters : exists w a y ev,
  let tr := a ++ [(1%nat, (y, ev))] in
  is_run w (untimed tr) /\ all_before (wrap - 7000) (n_start w 1%nat) (n_past w 1%nat ++ calls_at 1 (untimed tr)) /\
  (forall i z c, In (i, (z, c)) tr -> at_ c = z) /\ n_start w 1%nat <= 0 /\ n_past w 1%nat = [] /\
  role_before ev = Slave /\ packet_free ev /\ 6050 + 7000 <= y /\
  (forall z c, In (1%nat, (z, c)) a -> contact c \/ stepped_down c -> z <= 6050) /\
  (exists z c, In (1%nat, (z, c)) a /\ contact c) /\
  (exists z c, In (0%nat, (z, c)) a /\ role_after c = Master /\ own_heartbeat c /\ y - 100 <= z).
Proof.
  run_as H0 (env0 Arduino) 0 [(6000, OTick None); (7100, OTick None); (13000, OTick None)].
  run_as H1 (env_const Arduino 0%N) 0 [(6050, OTick (Some (heartbeat_pkt 77 6000))); (9000, OTick None); (13100, OTick None)].
  run_as H2 (env0 Arduino) 0 (@nil (Z * op)).
  match type of H0 with hist _ _ [?a; ?b; ?c] ?nm =>
  match type of H1 with hist _ _ [?p; ?q; ?r] ?n =>
    set (A := a) in *; set (B := b) in *; set (C := c) in *; set (P := p) in *; set (Q := q) in *; set (R := r) in *;
    exists (mkNetwork (fun w0 => match w0 with 1%nat => env_const Arduino 0%N | _ => env0 Arduino end) (fun _ => 0)
      (fun _ => 0) (fun _ => [])), [(0%nat, (6000, A)); (1%nat, (6050, P)); (0%nat, (7100, B)); (1%nat, (9000, Q)); (0%nat, (13000, C))], 13100, R
  end end.
  cbv zeta. split.
  { intros [|[|i]].
    - split; [eexists; exact H0|]. intros x p I K. repeat (destruct I as [<-|I]; [discriminate K|]). destruct I.
    - split; [eexists; exact H1|]. intros x p I K. repeat (destruct I as [<-|I]; [discriminate K|]). destruct I.
    - split; [eexists; exact H2|]. intros x p []. }
  split; [split; [reflexivity|]; intros x I; repeat (destruct I as [<-|I]; [reflexivity|]); destruct I|].
  split; [intros i z c I; repeat (destruct I as [I|I]; [injection I as <- <- <-; reflexivity|]); destruct I|].
  split; [cbn; lia|]. split; [reflexivity|]. split; [reflexivity|].
  split; [split; [eexists; reflexivity|intros p I; cbn in I; intuition discriminate]|].
  split; [lia|]. split.
  { intros z c I K. repeat (destruct I as [I|I]; [first [discriminate I|injection I as <- <-]; try lia|]); [|destruct I].
    exfalso. destruct K as [(p & [K _] & _)|[K _]]; discriminate K. }
  split; [exists 6050, P; split; [cbn [In]; auto 30|]; eexists; split; [split; [reflexivity|left; reflexivity]|left; reflexivity]|].
  exists 13000, C. split; [cbn [In]; auto 30|]. split; [reflexivity|]. split; [|lia].
  eexists; split; [eexists; left; reflexivity|reflexivity].
Qed.

(** C140's assumptions are a special case: nobody waits longer than A + P + D ms. *)
Theorem C141_covers_C140 w clk N m m0 rest g stop P D A B :
  let tr := (m, (g, m0)) :: rest in
  in_reach w clk N m tr g stop P D -> steady clk N A B -> own_heartbeat m0 ->
  (forall i n, (i < N)%nat -> i <> m -> hist (n_env w i) (n_start w i) (n_past w i) n -> GetCurrentState n = Slave) ->
  0 <= P -> 0 <= D -> A + P + D <= B + 1 ->
  (forall i x ev, In (i, (x, ev)) tr -> i <> m -> x <= g + D -> ~ took_over ev) ->
  in_earshot w clk N m tr g stop D (A + P + D - 1) /\ patient clk N (A + P + D - 1) /\ forall from, news_prompt tr from D.
Proof.
  intros tr IR SY TO Sl P0 D0 PD NoR.
  assert (A0 : 0 < A) by exact (dr_A w clk N m m0 rest g stop P D A B IR SY).
  pose proof (dr_roles w clk N m m0 rest g stop P D A B IR SY TO Sl D0 PD NoR) as Roles. fold tr in Roles.
  split; [|split].
  - constructor; [apply IR|apply IR|apply IR|apply IR| |].
    2: intros a i x ev b p E Ac Lp; exact (ir_prompt _ _ _ _ _ _ _ _ _ IR a i x ev b p E Ac (or_introl Lp)).
    intros i x Ni Nm Gx Ux.
    pose proof (beat_in_window w clk N m m0 rest g stop P D A B) as BW. feed BW.
    destruct (BW tr [] (x + (A + P + D)) (A + P + D - 1) (eq_sym (app_nil_r tr))) as (y & z & Iz & (p & Op & Tp) & L1 & L2);
      [intros ? ? ? []| |lia|lia|].
    { intros y z I. specialize (Roles m y z I). rewrite PeanoNat.Nat.eqb_refl in Roles. exact Roles. }
    destruct (ir_arrive _ _ _ _ _ _ _ _ _ IR y z p i Iz Op (or_introl Tp) Ni Nm ltac:(lia)) as (u & c & q & Ic & Ac & Sq & Lc).
    exists u, c, q. split; [exact Ic|]. split; [exact Ac|]. split; [destruct Sq; congruence|lia].
  - destruct SY as [F _ Five]. constructor; [exact F|]. intros i x Ni. specialize (Five i x Ni).
    pose proof (F i (x + (A + P + D - 1)) (x + B) Ni ltac:(lia)). lia.
  - intros from a i x ev b p E _ Ac Lp. exact (ir_prompt _ _ _ _ _ _ _ _ _ IR a i x ev b p E Ac (or_intror Lp)).
Qed.
Print Assumptions C141_covers_C140.

(** A run can be cut at any time; so all of this holds at every time. *)
Lemma in_earshot_cut w clk N m pre post g stop D Gap t : in_earshot w clk N m (pre ++ post) g stop D Gap -> t <= stop ->
  (forall i x ev, In (i, (x, ev)) pre -> x <= t) -> (forall i x ev, In (i, (x, ev)) post -> t < x) ->
  in_earshot w clk N m pre g t D Gap.
Proof.
  intros [R O Bd W He Prompt] Lt QA QB. constructor.
  - rewrite untimed_app in R. eapply run_prefix. exact R.
  - intros a i x u b j y v c E. apply (O a i x u b j y v (c ++ post)). rewrite E, <- app_assoc. cbn. rewrite <- app_assoc. reflexivity.
  - intros i x ev I. destruct (Bd i x ev) as (B1 & B2 & _); [apply in_or_app; left; exact I|]. repeat split; eauto.
  - intros i Ni. destruct (W i Ni) as [W1 W2]. split; [exact W1|]. intros z I. apply W2.
    rewrite untimed_app, calls_at_app. apply in_app_or in I as [I|I]; apply in_or_app; [left; exact I|right]. apply in_or_app; left; exact I.
  - intros i x Ni Nm L U. destruct (He i x Ni Nm L ltac:(lia)) as (y & c & q & I & F & T & Ly). exists y, c, q. split; [|auto].
    apply in_app_or in I as [I|I]; [exact I|]. specialize (QB i y c I). lia.
  - intros a i x ev b p E Ac Lp. apply (Prompt a i x ev (b ++ post) p); auto. rewrite E, <- app_assoc. reflexivity.
Qed.

(** As in the example of C140, but the second node misses the announcement of 9050
    and the heartbeat of 9200. *)
Example C141_example : exists w m0 rest K n nm,
  let tr := (0%nat, (7000, m0)) :: rest in
  in_earshot w fast_clock 2 0 tr 7000 11300 100 2300 /\ news_prompt tr (7000 + 100) 100 /\ patient fast_clock 2 2300 /\ accurate fast_clock 2 (2300 + 100) 25 /\ own_heartbeat m0 /\
  (forall i n, (i < 2)%nat -> i <> 0%nat -> hist (n_env w i) (n_start w i) (n_past w i) n -> GetCurrentState n = Slave /\ GetEffectIndex n <> 9) /\
  (forall i x ev, In (i, (x, ev)) tr -> i <> 0%nat -> x <= 7000 + 2300 -> ~ took_over ev) /\
  about_effects K /\
  (forall y ev, In (0%nat, (y, ev)) tr -> 7000 < y -> says (GetSetEffect (after ev)) K) /\ says (GetSetEffect nm) K /\
  (forall i y ev q, In (i, (y, ev)) tr -> i <> 0%nat -> 7000 < y -> call ev = OSetEffect q -> says q K) /\
  (exists y c q, In (1%nat, (y, c)) tr /\ accepted c q /\ about_effects q /\ 7000 + 100 < y <= 7000 + 100 + 4100) /\
  hist (n_env w 1%nat) (n_start w 1%nat) (n_past w 1%nat ++ calls_at 1 (untimed tr)) n /\
  hist (n_env w 0%nat) (n_start w 0%nat) (n_past w 0%nat ++ calls_at 0 (untimed tr)) nm /\
  (** a heartbeat and an announcement that never arrive *)
  (exists y ev p, In (0%nat, (y, ev)) tr /\ originated ev p /\ ptype p = 0 /\ y + 100 < 11300 /\
     forall z c q, In (1%nat, (z, c)) tr -> accepted c q -> pid q <> pid p) /\
  (exists y ev p, In (0%nat, (y, ev)) tr /\ originated ev p /\ about_effects p /\ y + 100 < 11300 /\
     forall z c q, In (1%nat, (z, c)) tr -> accepted c q -> pid q <> pid p) /\
  GetEffectIndex n = 9 /\ GetNetworkMillis (u32 (fast_clock 1 11300)) n = 11260 /\ GetNetworkMillis (u32 (fast_clock 0 11300)) nm = 11300.
Proof.
  run_as H0 (env0 Arduino) 0 [(7, OTick (Some (effect_pkt 50 9 3 2))); (7000, OTick None); (7060, OTick (Some (heartbeat_pkt 24 7000)));
    (7900, OTick None); (8100, OTick None); (9050, OTick None); (9200, OTick None); (10100, OTick None); (10300, OTick None);
    (11100, OTick None); (11290, OTick None)].
  run_as H1 (env_const Arduino 0%N) 0 [(4000, OTick (Some (heartbeat_pkt 77 3500)));
    (7620, OTick (Some (heartbeat_pkt 24 7000))); (8731, OTick (Some (heartbeat_pkt 41 8100)));
    (10953, OTick (Some (heartbeat_pkt 92 10300))); (11761, OTick (Some (effect_pkt 109 9 3 2)))].
  run_as H2 (env0 Arduino) 0 (@nil (Z * op)).
  match type of H0 with hist _ _ [?z; ?a; ?b; ?c; ?d; ?f; ?g; ?h; ?i; ?j; ?k] ?nm =>
  match type of H1 with hist _ _ [?p; ?q; ?r; ?u; ?v] ?n =>
    set (Z0 := z) in *; set (A := a) in *; set (B := b) in *; set (C := c) in *; set (D := d) in *; set (F := f) in *; set (G := g) in *;
    set (HH := h) in *; set (II := i) in *; set (JJ := j) in *; set (KK := k) in *;
    set (PP := p) in *; set (Q := q) in *; set (R := r) in *; set (U := u) in *; set (V := v) in *;
    exists (mkNetwork (fun w0 => match w0 with 1%nat => env_const Arduino 0%N | _ => env0 Arduino end) (fun _ => 0)
      (fun _ => 0) (fun w0 => match w0 with 0%nat => [Z0] | 1%nat => [PP] | _ => [] end)),
      A, [(1%nat, (7050, Q)); (0%nat, (7060, B)); (0%nat, (7900, C)); (0%nat, (8100, D)); (1%nat, (8150, R)); (0%nat, (9050, F)); 
          (0%nat, (9200, G)); (0%nat, (10100, HH)); (0%nat, (10300, II)); (1%nat, (10350, U)); (0%nat, (11100, JJ));
          (1%nat, (11150, V)); (0%nat, (11290, KK))], (effect_pkt 0 9 3 2), n, nm
  end end.
  cbv zeta.
  split; [constructor|].
  { intros [|[|i]].
    - split; [eexists; exact H0|]. intros x p I K. repeat (destruct I as [<-|I]; [discriminate K|]). destruct I.
    - split; [eexists; exact H1|]. intros x p I K. repeat (destruct I as [<-|I]; [discriminate K|]). destruct I.
    - split; [eexists; exact H2|]. intros x p []. }
  { intros a i x u b j y v c E.
    repeat (destruct a as [|? a]; [injection E as <- <- <- E;
       repeat (destruct b as [|? b]; [injection E as <- <- <- E; lia|injection E as _ E]);
       try (destruct b; discriminate E)|injection E as _ E]); destruct a; discriminate E. }
  { intros i x ev I. repeat (destruct I as [I|I]; [injection I as <- <- <-; split; [lia|split; [reflexivity|lia]]|]). destruct I. }
  { intros [|[|i]] L; [| |lia]; (split; [reflexivity|]); intros x I; repeat (destruct I as [<-|I]; [reflexivity|]); destruct I. }
  { intros [|[|i]] x Ni Nm L L2; [congruence| |lia].
    assert (X : x < 7050 \/ 7050 <= x < 8150 \/ 8150 <= x) by lia.
    destruct X as [X|[X|X]]; [exists 7050, Q|exists 8150, R|exists 10350, U]; eexists; (split; [cbn [In]; auto 30|]);
      (split; [split; [reflexivity|left; reflexivity]|]); (split; [reflexivity|lia]). }
  { intros a i x ev b p E [Ca Fw] Tp. exists 0%nat.
    repeat (destruct a as [|? a]; [injection E as <- <- <- E; first [discriminate Ca|injection Ca as <-; cbn in Fw;
       first [exfalso; intuition discriminate|idtac]];
       first [eexists 7000, A, _; split; [discriminate|]; split; [cbn [In]; auto 30|]; split; [eexists; left; reflexivity|]; split; [split; reflexivity|lia]
             |eexists 8100, D, _; split; [discriminate|]; split; [cbn [In]; auto 30|]; split; [eexists; left; reflexivity|]; split; [split; reflexivity|lia]
             |eexists 9050, F, _; split; [discriminate|]; split; [cbn [In]; auto 30|]; split; [eexists; left; reflexivity|]; split; [split; reflexivity|lia]
             |eexists 9200, G, _; split; [discriminate|]; split; [cbn [In]; auto 30|]; split; [eexists; left; reflexivity|]; split; [split; reflexivity|lia]
             |eexists 10300, II, _; split; [discriminate|]; split; [cbn [In]; auto 30|]; split; [eexists; left; reflexivity|]; split; [split; reflexivity|lia]
             |eexists 11100, JJ, _; split; [discriminate|]; split; [cbn [In]; auto 30|]; split; [eexists; left; reflexivity|]; split; [split; reflexivity|lia]]
       |injection E as ? E; subst]); destruct a; discriminate E. }
  split.
  { intros a i x ev b p E _ [Ca Fw] Tp. exists 0%nat.
    repeat (destruct a as [|? a]; [injection E as <- <- <- E; first [discriminate Ca|injection Ca as <-; cbn in Fw;
       first [exfalso; intuition discriminate|idtac]];
       first [eexists 7000, A, _; split; [discriminate|]; split; [cbn [In]; auto 30|]; split; [eexists; left; reflexivity|]; split; [split; reflexivity|lia]
             |eexists 8100, D, _; split; [discriminate|]; split; [cbn [In]; auto 30|]; split; [eexists; left; reflexivity|]; split; [split; reflexivity|lia]
             |eexists 9050, F, _; split; [discriminate|]; split; [cbn [In]; auto 30|]; split; [eexists; left; reflexivity|]; split; [split; reflexivity|lia]
             |eexists 9200, G, _; split; [discriminate|]; split; [cbn [In]; auto 30|]; split; [eexists; left; reflexivity|]; split; [split; reflexivity|lia]
             |eexists 10300, II, _; split; [discriminate|]; split; [cbn [In]; auto 30|]; split; [eexists; left; reflexivity|]; split; [split; reflexivity|lia]
             |eexists 11100, JJ, _; split; [discriminate|]; split; [cbn [In]; auto 30|]; split; [eexists; left; reflexivity|]; split; [split; reflexivity|lia]]
       |injection E as ? E; subst]); destruct a; discriminate E. }
  split.
  { constructor; intros [|[|i]]; intros; unfold fast_clock; lia. }
  split.
  { intros [|[|i]] x y Ni L; unfold fast_clock; lia. }
  split; [eexists; split; [eexists; left; reflexivity|reflexivity]|].
  split.
  { intros [|[|i]] n L N H; [congruence| |lia]. cbn [n_env n_start n_past] in H.
    change [PP] with ([] ++ [PP]) in H. apply hist_last in H as (_ & -> & _). split; [reflexivity|discriminate]. }
  split.
  { intros i x ev I N L [TR1 TR2]. repeat (destruct I as [I|I]; [injection I as <- <- <-; first [congruence|discriminate TR2|lia]|]). destruct I. }
  split; [left; reflexivity|].
  split.
  { intros y ev I L. repeat (destruct I as [I|I]; [first [discriminate I|injection I as <- <-]; split; reflexivity|]). destruct I. }
  split; [split; reflexivity|].
  split.
  { intros i y ev q I N L C0. repeat (destruct I as [I|I]; [injection I as <- <- <-; discriminate C0|]). destruct I. }
  split.
  { eexists 11150, V, _. split; [cbn [In]; auto 30|]. split; [split; [reflexivity|left; reflexivity]|]. split; [left; reflexivity|lia]. }
  split; [exact H1|]. split; [exact H0|].
  split.
  { eexists 9200, G, _. split; [cbn [In]; auto 30|]. split; [eexists; left; reflexivity|]. split; [reflexivity|]. split; [lia|].
    intros z c q I [C0 _]. repeat (destruct I as [I|I]; [first [discriminate I|injection I as <- <-; injection C0 as <-; discriminate]|]). destruct I. }
  split.
  { eexists 9050, F, _. split; [cbn [In]; auto 30|]. split; [eexists; left; reflexivity|]. split; [left; reflexivity|]. split; [lia|].
    intros z c q I [C0 _]. repeat (destruct I as [I|I]; [first [discriminate I|injection I as <- <-; injection C0 as <-; discriminate]|]). destruct I. }
  repeat split.
Qed.
