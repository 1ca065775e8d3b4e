(** Nodes that come and go: C144. *)
From Coq Require Import ZArith Lia List Bool.
From Coq Require Import ZifyBool.
From Verif Require Import CInt CIntFacts Packet SpecPacket PacketFacts NetMgr NetHist SpecNet NetFacts Fastled Palette Device LedMgr SpecLed Effects SpecEffect Show ShowFacts PropShow Rsm RsmStep RsmEval RsmHist SpecRsm RsmFacts RsmTime RoleFacts RsmRun EffectFacts PropRole PropHeartbeat PropEffect PropHold PropApi PropPair PropNetTime PropNetwork PropOneMaster PropCatchUp PropInStep PropOrder PropStartUp PropDrift Settled PropLossy PropLossyOrder.
Import ListNotations.
Open Scope Z_scope.
Ltac Zify.zify_post_hook ::= Z.div_mod_to_equations.

(** Node i is on from time [on i] to time [off i].  While it is on it does not go without a
    heartbeat for more than [Gap] ms.  (A node that is switched on again is a new node.) *)
Record in_and_out (w : network) (clk : nat -> Z -> Z) (N m : nat) (tr : timed) (g stop D Gap : Z) (on off : nat -> Z) : Prop := mkInOut {
  io_air : aired w clk N tr stop D;
  io_there : forall i x ev, In (i, (x, ev)) tr -> i <> m -> on i <= x <= off i;
  io_hears : forall i x, (i < N)%nat -> i <> m -> g <= x -> on i <= x -> x + Gap < stop -> x + Gap < off i ->
    exists y c q, In (i, (y, c)) tr /\ accepted c q /\ ptype q = 0 /\ x < y <= x + Gap
}.

(** Every other node is there from the start, a slave that does not take over at once, or it
    is switched on later: it has no past, and its clock starts where it starts. *)
Definition old_or_new (w : network) (clk : nat -> Z -> Z) (N m : nat) (tr : timed) (g Gap : Z) (on : nat -> Z) : Prop :=
  forall i, (i < N)%nat -> i <> m ->
  on i <= g /\ (forall n, hist (n_env w i) (n_start w i) (n_past w i) n -> GetCurrentState n = Slave) /\
    (forall x ev, In (i, (x, ev)) tr -> x <= g + Gap -> ~ took_over ev) \/
  g <= on i /\ n_past w i = [] /\ clk i (on i) <= n_start w i.

Lemma io_slaves w clk N m tr g Gap on : old_or_new w clk N m tr g Gap on ->
  forall i n, (i < N)%nat -> i <> m -> hist (n_env w i) (n_start w i) (n_past w i) n -> GetCurrentState n = Slave.
Proof.
  intros ON i n Ni Ne H. destruct (ON i Ni Ne) as [(_ & Q & _)|(_ & P & _)]; [auto|].
  rewrite P in H. apply (new_leaderless (mkNetwork (n_env w) (n_start w) (fun _ => 0) (fun _ => [])) N (fun _ => eq_refl) i n Ni H).
Qed.

Lemma io_quiet w clk N m tr g stop D Gap on off : in_and_out w clk N m tr g stop D Gap on off -> patient clk N Gap ->
  old_or_new w clk N m tr g Gap on -> forall i x ev, In (i, (x, ev)) tr -> i <> m -> ~ took_over ev.
Proof.
  intros [AI Th He] [F Five] ON i x ev Ii Ne TO.
  destruct (ai_times _ _ _ _ _ _ AI i x ev Ii) as (Ni & At & Ti). destruct (Th i x ev Ii Ne) as [Ton Toff].
  assert (Late : g + Gap < x -> on i + Gap < x -> False).
  { intros L1 L2.
    destruct (He i (x - Gap - 1) Ni Ne ltac:(lia) ltac:(lia) ltac:(lia) ltac:(lia)) as (u & c & q & Ic & Ac & Tq & Lc).
    apply (late_takeover w clk N tr stop D AI i x ev u c Ii TO Ic); [lia|exists q; split; [exact Ac|left; exact Tq]|].
    specialize (Five i (x - Gap) Ni). replace (x - Gap + Gap) with x in Five by lia.
    specialize (F i (x - Gap) u Ni ltac:(lia)). lia. }
  destruct (ON i Ni Ne) as [(O1 & _ & Q)|(O1 & _ & O2)].
  - destruct (Z_le_gt_dec x (g + Gap)) as [Near|Far]; [exact (Q x ev Ii Near TO)|apply Late; lia].
  - destruct (Z_le_gt_dec x (on i + Gap)) as [Near|Far]; [|apply Late; lia].
    pose proof (early_takeover w clk N tr stop D AI i x ev Ii TO).
    pose proof (F i x (on i + Gap) Ni Near). specialize (Five i (on i) Ni). lia.
Qed.

(** Who has been on for more than Gap ms has heard a heartbeat in the last Gap ms. *)
Lemma io_beat w clk N m tr g stop D Gap on off i : in_and_out w clk N m tr g stop D Gap on off ->
  (i < N)%nat -> i <> m -> g + Gap < stop -> on i + Gap < stop -> stop <= off i ->
  exists y c q, In (i, (y, c)) tr /\ accepted c q /\ ptype q = 0 /\ stop - Gap <= y.
Proof.
  intros IO Ni Ne L1 L2 L3.
  destruct (io_hears _ _ _ _ _ _ _ _ _ _ _ IO i (stop - Gap - 1) Ni Ne ltac:(lia) ltac:(lia) ltac:(lia) ltac:(lia)) as (y & c & q & Ic & Ac & Tq & Lc).
  exists y, c, q. repeat (split; [assumption|]). lia.
Qed.

(** ** C144 *)

(** Node m sends a heartbeat with call m0 at time g.  Whatever packets get lost, and whoever
    else is switched on or off, m is the only master. *)
Theorem C144_one_master w clk N m m0 rest g stop D Gap on off :
  let tr := (m, (g, m0)) :: rest in
  in_and_out w clk N m tr g stop D Gap on off -> patient clk N Gap -> own_heartbeat m0 -> old_or_new w clk N m tr g Gap on ->
  (forall i x ev, In (i, (x, ev)) tr -> role_after ev = if Nat.eqb i m then Master else Slave) /\
  (forall i n, (i < N)%nat -> hist (n_env w i) (n_start w i) (n_past w i ++ calls_at i (untimed tr)) n ->
     GetCurrentState n = if Nat.eqb i m then Master else Slave).
Proof.
  intros tr IO SY TO ON.
  pose proof (io_quiet _ _ _ _ _ _ _ _ _ _ _ IO SY ON) as Q. pose proof (io_slaves _ _ _ _ _ _ _ _ ON) as Sl.
  pose proof (es_roles w clk N m m0 rest g stop D (io_air _ _ _ _ _ _ _ _ _ _ _ IO) TO Sl Q) as R.
  split; [exact R|]. intros i n Ni H. destruct (PeanoNat.Nat.eqb_spec i m) as [->|Ne].
  - apply (es_master w clk N m m0 rest g stop D (io_air _ _ _ _ _ _ _ _ _ _ _ IO) Q tr [] n (eq_sym (app_nil_r tr))); [discriminate| |exact H].
    intros x y I. specialize (R m x y I). rewrite PeanoNat.Nat.eqb_refl in R. exact R.
  - apply (proj2 (es_all w clk N m m0 rest g stop D (io_air _ _ _ _ _ _ _ _ _ _ _ IO) TO Sl Q tr [] (eq_sym (app_nil_r tr))) i n Ni Ne H).
Qed.
Print Assumptions C144_one_master.

(** A node that has been on for more than Gap ms shows the master's time, up to 2 E ms one
    way and D + 2 E ms the other. *)
Theorem C144_times_stay_together w clk N m m0 rest g stop D Gap on off E :
  let tr := (m, (g, m0)) :: rest in
  in_and_out w clk N m tr g stop D Gap on off -> patient clk N Gap -> own_heartbeat m0 -> old_or_new w clk N m tr g Gap on ->
  accurate clk N (Gap + D) E ->
  forall i n nm, (i < N)%nat -> i <> m -> g + Gap < stop -> on i + Gap < stop -> stop <= off i ->
    hist (n_env w i) (n_start w i) (n_past w i ++ calls_at i (untimed tr)) n ->
    hist (n_env w m) (n_start w m) (n_past w m ++ calls_at m (untimed tr)) nm ->
    exists L, - (2 * E) <= L <= D + 2 * E /\
      GetNetworkMillis (u32 (clk i stop)) n = u32 (GetNetworkMillis (u32 (clk m stop)) nm - L).
Proof.
  intros tr IO SY TO ON Acc i n nm Ni Ne L1 L2 L3.
  apply (settled_times w clk N m m0 rest g stop D Gap E (io_air _ _ _ _ _ _ _ _ _ _ _ IO) TO (io_slaves _ _ _ _ _ _ _ _ ON) (io_quiet _ _ _ _ _ _ _ _ _ _ _ IO SY ON) Acc i n nm Ni Ne).
  apply (io_beat _ _ _ _ _ _ _ _ _ _ _ i IO Ni Ne L1 L2 L3).
Qed.
Print Assumptions C144_times_stay_together.

(** If it has also heard one announcement since x + D, it draws, on any strip, the picture
    the master draws at its own network time L ms earlier; x is a time since when the master
    has shown K and nobody has ordered anything else. *)
Theorem C144_one_animation w clk N m m0 rest g stop D Gap on off E x K i n nm :
  let tr := (m, (g, m0)) :: rest in
  in_and_out w clk N m tr g stop D Gap on off -> patient clk N Gap -> own_heartbeat m0 -> old_or_new w clk N m tr g Gap on ->
  accurate clk N (Gap + D) E -> about_effects K -> news_prompt tr (x + D) D ->
  (forall y ev, In (m, (y, ev)) tr -> x < y -> says (GetSetEffect (after ev)) K) -> says (GetSetEffect nm) K ->
  (forall j y ev q, In (j, (y, ev)) tr -> j <> m -> x < y -> call ev = OSetEffect q -> says q K) ->
  (i < N)%nat -> i <> m -> g + Gap < stop -> on i + Gap < stop -> stop <= off i ->
  (exists y c q, In (i, (y, c)) tr /\ accepted c q /\ about_effects q /\ x + D < y) ->
  hist (n_env w i) (n_start w i) (n_past w i ++ calls_at i (untimed tr)) n ->
  hist (n_env w m) (n_start w m) (n_past w m ++ calls_at m (untimed tr)) nm ->
  exists L, - (2 * E) <= L <= D + 2 * E /\
    forall fl md d o o' delta buf,
    o = o' \/ (ptype K = 2 -> ~ per_node (nth 0 (pdata K) 0 mod 35)) ->
    Show Arduino fl md d o (GetSetEffect n) (fun r => GetNetworkMillis (u32 (clk i stop + delta r)) n) buf =
    Show Arduino fl md d o' (GetSetEffect nm) (fun r => GetNetworkMillis (u32 (clk m stop - L + delta r)) nm) buf.
Proof.
  intros tr IO SY TO ON Acc AK NP Kx Sm NoSet Ni Ne L1 L2 L3 (y & c & q & Iy & Ac & Aq & Ly) Hn Hm.
  apply (settled_animation w clk N m m0 rest g stop D Gap E x (y - (x + D)) K i n nm (io_air _ _ _ _ _ _ _ _ _ _ _ IO) TO (io_slaves _ _ _ _ _ _ _ _ ON) (io_quiet _ _ _ _ _ _ _ _ _ _ _ IO SY ON) Acc); auto.
  - exists y, c, q. repeat (split; [assumption|]). lia.
  - apply (io_beat _ _ _ _ _ _ _ _ _ _ _ i IO Ni Ne L1 L2 L3).
Qed.
Print Assumptions C144_one_animation.

(** An order the master learns of at time x1 is obeyed as in C142, also by nodes that were
    switched on after it was given. *)
Theorem C144_order_obeyed w clk N m m0 rest g stop D Gap on off x1 c K :
  let tr := (m, (g, m0)) :: rest in
  in_and_out w clk N m tr g stop D Gap on off -> patient clk N Gap -> own_heartbeat m0 -> old_or_new w clk N m tr g Gap on ->
  0 <= D -> news_prompt tr (x1 - 1) D -> In (m, (x1, c)) tr -> ptype K = 2 -> wf_packet K ->
  (exists q, says q K /\ (accepted c q \/ call c = OSetEffect q)) ->
  (forall i y ev q, In (i, (y, ev)) tr -> x1 - D <= y -> call ev = OSetEffect q -> says q K) ->
  (forall y ev, In (m, (y, ev)) tr -> at_ ev + 255000 < wrap) ->
  (0 < nth 1 (pdata K) 0 /\ clk m stop <= clk m x1 + 1000 * nth 1 (pdata K) 0 \/
   nth 1 (pdata K) 0 = 0 /\ (forall y ev q, In (m, (y, ev)) tr -> x1 <= y -> call ev <> OSetEffect q)) ->
  (forall nm, hist (n_env w m) (n_start w m) (n_past w m ++ calls_at m (untimed tr)) nm -> says (GetSetEffect nm) K) /\
  forall i n, (i < N)%nat -> i <> m ->
    (exists y u q, In (i, (y, u)) tr /\ accepted u q /\ about_effects q /\ x1 + D < y) ->
    hist (n_env w i) (n_start w i) (n_past w i ++ calls_at i (untimed tr)) n -> says (GetSetEffect n) K.
Proof.
  intros tr IO SY TO ON.
  pose proof (io_air _ _ _ _ _ _ _ _ _ _ _ IO) as AI.
  apply (settled_order w clk N m m0 rest g stop D x1 c K); auto.
  - intros x y. apply (pt_forward _ _ _ SY). apply (ai_times _ _ _ _ _ _ AI m g m0). left; reflexivity.
  - exact (io_slaves _ _ _ _ _ _ _ _ ON).
  - exact (io_quiet _ _ _ _ _ _ _ _ _ _ _ IO SY ON).
Qed.
Print Assumptions C144_order_obeyed.

(** C141's network is the case that everybody is there all the time. *)
Lemma in_earshot_in_and_out w clk N m m0 rest g stop D Gap :
  let tr := (m, (g, m0)) :: rest in
  in_earshot w clk N m tr g stop D Gap ->
  (forall i n, (i < N)%nat -> i <> m -> hist (n_env w i) (n_start w i) (n_past w i) n -> GetCurrentState n = Slave) ->
  (forall i x ev, In (i, (x, ev)) tr -> i <> m -> x <= g + Gap -> ~ took_over ev) ->
  in_and_out w clk N m tr g stop D Gap (fun _ => g) (fun _ => stop) /\ old_or_new w clk N m tr g Gap (fun _ => g).
Proof.
  intros tr ES Sl NoR. split; [constructor|].
  - exact (earshot_aired _ _ _ _ _ _ _ _ _ ES).
  - intros i x ev I _. split; [|apply (es_times _ _ _ _ _ _ _ _ _ ES i x ev I)].
    destruct I as [I|I]; [inversion I; subst; lia|]. apply in_split in I as (a & b & ->).
    apply (es_ordered _ _ _ _ _ _ _ _ _ ES [] m g m0 a i x ev b). reflexivity.
  - intros i x Ni Ne L1 _ L2 _. exact (es_hears _ _ _ _ _ _ _ _ _ ES i x Ni Ne L1 L2).
  - intros i Ni Ne. left. split; [lia|]. split; [intros n; apply Sl; auto|]. intros x ev I. apply (NoR i x ev I Ne).
Qed.

(** Non-vacuous: node 1 is there from the start and switched off at 9400; node 2, whose clock
    is one percent fast, is switched on at 8000, misses the announcement of 9050 and hears the
    one of 11100. *)
Example C144_example : exists w m0 rest K n nm,
  let tr := (0%nat, (7000, m0)) :: rest in
  let on := fun i => match i with 2%nat => 8000 | _ => 7000 end in
  let off := fun i => match i with 1%nat => 9400 | _ => 20000 end in
  in_and_out w three_clocks 3 0 tr 7000 11300 100 2300 on off /\ patient three_clocks 3 2300 /\ own_heartbeat m0 /\
  old_or_new w three_clocks 3 0 tr 7000 2300 on /\ accurate three_clocks 3 (2300 + 100) 25 /\
  n_past w 2%nat = [] /\ about_effects K /\ news_prompt tr (7000 + 100) 100 /\
  (forall y ev, In (0%nat, (y, ev)) tr -> 7000 < y -> says (GetSetEffect (after ev)) K) /\ says (GetSetEffect nm) K /\
  (forall i y ev q, In (i, (y, ev)) tr -> i <> 0%nat -> 7000 < y -> call ev = OSetEffect q -> says q K) /\
  (exists y c q, In (2%nat, (y, c)) tr /\ accepted c q /\ about_effects q /\ 7000 + 100 < y) /\
  hist (n_env w 2%nat) (n_start w 2%nat) (n_past w 2%nat ++ calls_at 2 (untimed tr)) n /\
  hist (n_env w 0%nat) (n_start w 0%nat) (n_past w 0%nat ++ calls_at 0 (untimed tr)) nm /\
  GetEffectIndex n = 9 /\ GetNetworkMillis (u32 (three_clocks 2 11300)) n = 11260 /\ GetNetworkMillis (u32 (three_clocks 0 11300)) nm = 11300.
Proof.
  run_as H0 (env0 Arduino) 0 [(7, OTick (Some (effect_pkt 50 9 3 2))); (7000, OTick None); (7060, OTick (Some (heartbeat_pkt 24 7000)));
    (7900, OTick None); (8100, OTick None); (9050, OTick None); (9200, OTick None); (10100, OTick None); (10300, OTick None);
    (11100, OTick None); (11290, OTick None)].
  run_as H1 (env_const Arduino 0%N) 0 [(4000, OTick (Some (heartbeat_pkt 77 3500)));
    (7550, OTick (Some (heartbeat_pkt 24 7000))); (8650, OTick (Some (heartbeat_pkt 41 8100))); (9700, OTick None)].
  run_as H2 (env_const Arduino 3%N) 8380 [(9642, OTick (Some (heartbeat_pkt 75 9200)));
    (10753, OTick (Some (heartbeat_pkt 92 10300))); (11561, OTick (Some (effect_pkt 109 9 3 2)))].
  run_as H3 (env0 Arduino) 0 (@nil (Z * op)).
  match type of H0 with hist _ _ [?z; ?a; ?b; ?c; ?d; ?f; ?g; ?h; ?i; ?j; ?k] ?nm =>
  match type of H1 with hist _ _ [?p; ?q; ?r; ?s] _ =>
  match type of H2 with hist _ _ [?u; ?v; ?y] ?n =>
    set (Z0 := z) in *; set (A := a) in *; set (B := b) in *; set (C := c) in *; set (D := d) in *; set (F := f) in *; set (G := g) in *;
    set (HH := h) in *; set (II := i) in *; set (JJ := j) in *; set (KK := k) in *;
    set (PP := p) in *; set (Q := q) in *; set (R := r) in *; set (S := s) in *; set (U := u) in *; set (V := v) in *; set (Y := y) in *;
    exists (mkNetwork (fun w0 => match w0 with 1%nat => env_const Arduino 0%N | 2%nat => env_const Arduino 3%N | _ => env0 Arduino end)
      (fun w0 => match w0 with 2%nat => 8380 | _ => 0 end)
      (fun _ => 0) (fun w0 => match w0 with 0%nat => [Z0] | 1%nat => [PP] | _ => [] end)),
      A, [(1%nat, (7050, Q)); (0%nat, (7060, B)); (0%nat, (7900, C)); (0%nat, (8100, D)); (1%nat, (8150, R)); (0%nat, (9050, F));
          (1%nat, (9200, S)); (0%nat, (9200, G)); (2%nat, (9250, U)); (0%nat, (10100, HH)); (0%nat, (10300, II)); (2%nat, (10350, V)); (0%nat, (11100, JJ));
          (2%nat, (11150, Y)); (0%nat, (11290, KK))], (effect_pkt 0 9 3 2), n, nm
  end end end.
  cbv zeta.
  split; [constructor; [constructor| |]|].
  { intros [|[|[|i]]].
    - split; [eexists; exact H0|]. intros x p I K. repeat (destruct I as [<-|I]; [discriminate K|]). destruct I.
    - split; [eexists; exact H1|]. intros x p I K. repeat (destruct I as [<-|I]; [discriminate K|]). destruct I.
    - split; [eexists; exact H2|]. intros x p I K. repeat (destruct I as [<-|I]; [discriminate K|]). destruct I.
    - split; [eexists; exact H3|]. intros x p []. }
  { intros a i x u b j y v c E.
    repeat (destruct a as [|? a]; [injection E as <- <- <- E;
       repeat (destruct b as [|? b]; [injection E as <- <- <- E; lia|injection E as _ E]);
       try (destruct b; discriminate E)|injection E as _ E]); destruct a; discriminate E. }
  { intros i x ev I. repeat (destruct I as [I|I]; [injection I as <- <- <-; split; [lia|split; [reflexivity|lia]]|]). destruct I. }
  { intros [|[|[|i]]] L; [| | |lia]; (split; [reflexivity|]); intros x I; repeat (destruct I as [<-|I]; [reflexivity|]); destruct I. }
  { intros a i x ev b p E [Ca Fw] Tp.
    repeat (destruct a as [|? a]; [injection E as <- <- <- E; first [discriminate Ca|injection Ca as <-; cbn in Fw;
       first [exfalso; intuition discriminate|idtac]];
       let go z X := (eexists 0%nat, z, X, _; split; [discriminate|]; split; [find|]; split; [eexists; left; reflexivity|]; split; [split; reflexivity|lia]) in
       first [go 7000 A|go 8100 D|go 9050 F|go 9200 G|go 10300 II|go 11100 JJ]
       |injection E as ? E; subst]); destruct a; discriminate E. }
  { intros i x ev I N. repeat (destruct I as [I|I]; [injection I as <- <- <-; first [congruence|lia]|]). destruct I. }
  { intros [|[|[|i]]] x Ni Nm L1 L2 L3 L4; [congruence| | |lia].
    - exists 8150, R; eexists; (split; [find|]); (split; [split; [reflexivity|left; reflexivity]|]); (split; [reflexivity|lia]).
    - exists 9250, U; eexists; (split; [find|]); (split; [split; [reflexivity|left; reflexivity]|]); (split; [reflexivity|lia]). }
  split; [constructor; intros [|[|[|i]]]; intros; unfold three_clocks; lia|].
  split; [eexists; split; [eexists; left; reflexivity|reflexivity]|].
  split.
  { intros [|[|[|i]]] Ni Ne; [congruence|left|right|lia].
    - split; [lia|]. split.
      + intros n H. cbn [n_env n_start n_past] in H. change [PP] with ([] ++ [PP]) in H. apply hist_last in H as (_ & -> & _). reflexivity.
      + intros x ev I L [TR1 TR2]. repeat (destruct I as [I|I]; [first [discriminate I|injection I as <- <-; discriminate TR2]|]). destruct I.
    - split; [lia|]. split; [reflexivity|]. vm_compute; discriminate. }
  split; [intros [|[|[|i]]] x y Ni L; unfold three_clocks; lia|].
  split; [reflexivity|]. split; [left; reflexivity|].
  split.
  { intros a i x ev b p E _ [Ca Fw] Tp.
    repeat (destruct a as [|? a]; [injection E as <- <- <- E; first [discriminate Ca|injection Ca as <-; cbn in Fw;
       first [exfalso; intuition discriminate|idtac]];
       let go z X := (eexists 0%nat, z, X, _; split; [discriminate|]; split; [find|]; split; [eexists; left; reflexivity|]; split; [split; reflexivity|lia]) in
       first [go 7000 A|go 8100 D|go 9050 F|go 9200 G|go 10300 II|go 11100 JJ]
       |injection E as ? E; subst]); destruct a; discriminate E. }
  split.
  { intros y ev I L. repeat (destruct I as [I|I]; [first [discriminate I|injection I as <- <-]; split; reflexivity|]). destruct I. }
  split; [split; reflexivity|].
  split.
  { intros i y ev q I N L C0. repeat (destruct I as [I|I]; [injection I as <- <- <-; discriminate C0|]). destruct I. }
  split.
  { eexists 11150, Y, _. split; [find|]. split; [split; [reflexivity|left; reflexivity]|]. split; [left; reflexivity|lia]. }
  split; [exact H2|]. split; [exact H0|]. repeat split.
Qed.
