(** An order in a network that loses packets: C142. *)
From Coq Require Import ZArith Lia List Bool.
From Coq Require Import ZifyBool.
From Verif Require Import CInt CIntFacts Packet SpecPacket PacketFacts NetMgr NetHist SpecNet NetFacts Rsm RsmStep RsmEval RsmHist SpecRsm RsmFacts RsmTime RoleFacts RsmRun EffectFacts PropRole PropHeartbeat PropEffect PropHold PropApi PropPair PropNetTime PropNetwork PropOneMaster PropCatchUp PropInStep PropOrder PropDrift Settled PropLossy.
Import ListNotations.
Open Scope Z_scope.
Ltac Zify.zify_post_hook ::= Z.div_mod_to_equations.

(** ** C142: an order is obeyed although packets get lost *)

(** In a network with a settled master m (as in C141), m learns of the order K with call c
    at time x1: it accepts a packet that says K, or is told so by its own user.  Nobody orders
    anything else from D ms before that on.  Until the hold time is over by the clock of m, m shows
    K, and so does every other node that has heard any announcement since x1 + D, whether it
    missed the order itself or not.  A hold time of zero lasts for ever, unless the order is
    given at m itself. *)
Theorem C142_order_obeyed w clk N m m0 rest g stop D Gap x1 c K :
  let tr := (m, (g, m0)) :: rest in
  in_earshot w clk N m tr g stop D Gap -> patient clk N Gap -> own_heartbeat m0 ->
  (forall i n, (i < N)%nat -> i <> m -> hist (n_env w i) (n_start w i) (n_past w i) n -> GetCurrentState n = Slave) ->
  (forall i x ev, In (i, (x, ev)) tr -> i <> m -> x <= g + Gap -> ~ took_over ev) ->
  0 <= D -> news_prompt tr (x1 - 1) D -> In (m, (x1, c)) tr -> ptype K = 2 -> wf_packet K ->
  (exists q, says q K /\ (accepted c q \/ call c = OSetEffect q)) ->
  (forall i y ev q, In (i, (y, ev)) tr -> x1 - D <= y -> call ev = OSetEffect q -> says q K) ->
  (forall y ev, In (m, (y, ev)) tr -> at_ ev + 255000 < wrap) ->
  (0 < nth 1 (pdata K) 0 /\ clk m stop <= clk m x1 + 1000 * nth 1 (pdata K) 0 \/
   nth 1 (pdata K) 0 = 0 /\ (forall y ev q, In (m, (y, ev)) tr -> x1 <= y -> call ev <> OSetEffect q)) ->
  (forall nm, hist (n_env w m) (n_start w m) (n_past w m ++ calls_at m (untimed tr)) nm -> says (GetSetEffect nm) K) /\
  forall i n, (i < N)%nat -> i <> m ->
    (exists y u q, In (i, (y, u)) tr /\ accepted u q /\ about_effects q /\ x1 + D < y) ->
    hist (n_env w i) (n_start w i) (n_past w i ++ calls_at i (untimed tr)) n -> says (GetSetEffect n) K.
Proof.
  intros tr IR SY TO Sl NoR.
  apply (settled_order w clk N m m0 rest g stop D x1 c K); auto.
  - intros x y. apply (pt_forward _ _ _ SY). apply (es_times _ _ _ _ _ _ _ _ _ IR m g m0). left; reflexivity.
  - exact (earshot_aired _ _ _ _ _ _ _ _ _ IR).
  - exact (earshot_quiet _ _ _ _ _ _ _ _ _ IR SY NoR).
Qed.
Print Assumptions C142_order_obeyed.

Ltac find := repeat match goal with |- In ?x (?x :: _) => left; reflexivity | |- In _ (_ :: _) => right end.

(** Non-vacuous: three nodes, the clock of the third one percent fast, D = 100.  Effect 9
    for 10 s is ordered at node 1, a slave, at time 7500; the master hears of it 50 ms later.
    Node 2 misses that, the master's first repetition (9050) and the heartbeat after it (9200),
    and learns of the order from the second repetition. *)
Definition three_clocks (i : nat) (x : Z) : Z := match i with 1%nat => 500 + x | 2%nat => 300 + x + x / 100 | _ => x end.

Example C142_example : exists w m0 rest c n,
  let tr := (0%nat, (7000, m0)) :: rest in
  let K := effect_pkt 0 9 10 2 in
  in_earshot w three_clocks 3 0 tr 7000 12000 100 2300 /\ news_prompt tr (7550 - 1) 100 /\ patient three_clocks 3 2300 /\ own_heartbeat m0 /\
  (forall i n, (i < 3)%nat -> i <> 0%nat -> hist (n_env w i) (n_start w i) (n_past w i) n -> GetCurrentState n = Slave) /\
  (forall i x ev, In (i, (x, ev)) tr -> i <> 0%nat -> x <= 7000 + 2300 -> ~ took_over ev) /\
  In (0%nat, (7550, c)) tr /\ ptype K = 2 /\ wf_packet K /\
  (exists q, says q K /\ (accepted c q \/ call c = OSetEffect q)) /\
  (forall i y ev q, In (i, (y, ev)) tr -> 7550 - 100 <= y -> call ev = OSetEffect q -> says q K) /\
  (forall y ev, In (0%nat, (y, ev)) tr -> at_ ev + 255000 < wrap) /\
  0 < nth 1 (pdata K) 0 /\ three_clocks 0 12000 <= three_clocks 0 7550 + 1000 * nth 1 (pdata K) 0 /\
  (exists y u q, In (2%nat, (y, u)) tr /\ accepted u q /\ about_effects q /\ 7550 + 100 < y /\ GetEffectIndex (before u) <> 9) /\
  hist (n_env w 2%nat) (n_start w 2%nat) (n_past w 2%nat ++ calls_at 2 (untimed tr)) n /\ GetEffectIndex n = 9.
Proof.
  run_as H0 (env0 Arduino) 0 [(7000, OTick None); (7550, OTick (Some (effect_pkt 2 9 10 2))); (7900, OTick None); (8100, OTick None);
    (9050, OTick None); (9200, OTick None); (10100, OTick None); (10300, OTick None); (11100, OTick None); (11390, OTick None); (11700, OTick None)].
  run_as H1 (env_const Arduino 0%N) 0 [(4000, OTick (Some (heartbeat_pkt 77 3500)));
    (7550, OTick (Some (heartbeat_pkt 24 7000))); (8000, OSetEffect (effect_pkt 0 9 10 2)); (8650, OTick (Some (heartbeat_pkt 41 8100)));
    (9600, OTick (Some (effect_pkt 58 9 10 2))); (9750, OTick (Some (heartbeat_pkt 75 9200)));
    (10850, OTick (Some (heartbeat_pkt 92 10300))); (11650, OTick (Some (effect_pkt 109 9 10 2))); (11940, OTick (Some (heartbeat_pkt 126 11390)))].
  run_as H2 (env_const Arduino 5%N) 0 [(4000, OTick (Some (heartbeat_pkt 77 3500)));
    (7430, OTick (Some (heartbeat_pkt 24 7000))); (8541, OTick (Some (heartbeat_pkt 41 8100)));
    (10763, OTick (Some (heartbeat_pkt 92 10300))); (11571, OTick (Some (effect_pkt 109 9 10 2))); (11864, OTick (Some (heartbeat_pkt 126 11390)))].
  run_as H3 (env0 Arduino) 0 (@nil (Z * op)).
  match type of H0 with hist _ _ [?a; ?b; ?c; ?d; ?f; ?g; ?h; ?i; ?j; ?k; ?l] _ =>
  match type of H1 with hist _ _ [?p; ?q; ?r; ?s; ?t; ?u; ?v; ?x; ?y] _ =>
  match type of H2 with hist _ _ [?p'; ?q'; ?s'; ?v'; ?x'; ?y'] ?n =>
    set (A := a) in *; set (B := b) in *; set (C := c) in *; set (D := d) in *; set (F := f) in *; set (G := g) in *;
    set (HH := h) in *; set (II := i) in *; set (JJ := j) in *; set (KK := k) in *; set (LL := l) in *;
    set (P1 := p) in *; set (Q1 := q) in *; set (R1 := r) in *; set (S1 := s) in *; set (T1 := t) in *; set (U1 := u) in *; set (V1 := v) in *; set (X1 := x) in *; set (Y1 := y) in *;
    set (P2 := p') in *; set (Q2 := q') in *; set (S2 := s') in *; set (V2 := v') in *; set (X2 := x') in *; set (Y2 := y') in *;
    exists (mkNetwork (fun w0 => match w0 with 1%nat => env_const Arduino 0%N | 2%nat => env_const Arduino 5%N | _ => env0 Arduino end) (fun _ => 0)
      (fun _ => 0) (fun w0 => match w0 with 1%nat => [P1] | 2%nat => [P2] | _ => [] end)),
      A, [(1%nat, (7050, Q1)); (2%nat, (7060, Q2)); (1%nat, (7500, R1)); (0%nat, (7550, B)); (0%nat, (7900, C)); (0%nat, (8100, D));
          (1%nat, (8150, S1)); (2%nat, (8160, S2)); (0%nat, (9050, F)); (1%nat, (9100, T1));
          (0%nat, (9200, G)); (1%nat, (9250, U1)); (0%nat, (10100, HH)); (0%nat, (10300, II)); (1%nat, (10350, V1)); (2%nat, (10360, V2));
          (0%nat, (11100, JJ)); (1%nat, (11150, X1)); (2%nat, (11160, X2));
          (0%nat, (11390, KK)); (1%nat, (11440, Y1)); (2%nat, (11450, Y2)); (0%nat, (11700, LL))], B, n
  end end end.
  cbv zeta.
  split; [constructor|].
  { intros [|[|[|i]]].
    - change (history (env0 Arduino) 0 [A; B; C; D; F; G; HH; II; JJ; KK; LL] /\ api_ok [A; B; C; D; F; G; HH; II; JJ; KK; LL]). split; [eexists; exact H0|]. intros x p I K. repeat (destruct I as [<-|I]; [discriminate K|]). destruct I.
    - change (history (env_const Arduino 0%N) 0 [P1; Q1; R1; S1; T1; U1; V1; X1; Y1] /\ api_ok [P1; Q1; R1; S1; T1; U1; V1; X1; Y1]). split; [eexists; exact H1|]. intros x p I K. repeat (destruct I as [<-|I]; [first [discriminate K|injection K as <-; left; reflexivity]|]). destruct I.
    - change (history (env_const Arduino 5%N) 0 [P2; Q2; S2; V2; X2; Y2] /\ api_ok [P2; Q2; S2; V2; X2; Y2]). split; [eexists; exact H2|]. intros x p I K. repeat (destruct I as [<-|I]; [discriminate K|]). destruct I.
    - split; [eexists; exact H3|]. intros x p []. }
  { intros a i x u b j y v c E.
    repeat (destruct a as [|? a]; [injection E as <- <- <- E;
       repeat (destruct b as [|? b]; [injection E as <- <- <- E; lia|injection E as _ E]);
       try (destruct b; discriminate E)|injection E as _ E]); destruct a; discriminate E. }
  { intros i x ev I. repeat (destruct I as [I|I]; [injection I as <- <- <-; split; [lia|split; [reflexivity|lia]]|]). destruct I. }
  { intros [|[|[|i]]] L; [| | |lia];
    [change (all_before (wrap - 7000) 0 [A; B; C; D; F; G; HH; II; JJ; KK; LL])|change (all_before (wrap - 7000) 0 [P1; Q1; R1; S1; T1; U1; V1; X1; Y1])|change (all_before (wrap - 7000) 0 [P2; Q2; S2; V2; X2; Y2])];
    (split; [reflexivity|]); intros x I; repeat (destruct I as [<-|I]; [reflexivity|]); destruct I. }
  { intros [|[|[|i]]] x Ni Nm L L2; [congruence| | |lia].
    - assert (X : x < 7050 \/ 7050 <= x < 8150 \/ 8150 <= x < 9250 \/ 9250 <= x) by lia.
      destruct X as [X|[X|[X|X]]]; [exists 7050, Q1|exists 8150, S1|exists 9250, U1|exists 10350, V1]; eexists; (split; [find|]);
        (split; [split; [reflexivity|left; reflexivity]|]); (split; [reflexivity|lia]).
    - assert (X : x < 7060 \/ 7060 <= x < 8160 \/ 8160 <= x) by lia.
      destruct X as [X|[X|X]]; [exists 7060, Q2|exists 8160, S2|exists 10360, V2]; eexists; (split; [find|]);
        (split; [split; [reflexivity|left; reflexivity]|]); (split; [reflexivity|lia]). }
  { intros a i x ev b p E [Ca Fw] Tp.
    repeat (destruct a as [|? a]; [injection E as <- <- <- E; first [discriminate Ca|injection Ca as <-; cbn in Fw;
       first [exfalso; intuition discriminate|idtac]];
       let go k z X := (eexists k, z, X, _; split; [discriminate|]; split; [find|]; split; [eexists; left; reflexivity|]; split; [split; reflexivity|lia]) in
       first [go 0%nat 7000 A|go 0%nat 8100 D|go 0%nat 9050 F|go 0%nat 9200 G|go 0%nat 10300 II|go 0%nat 11100 JJ|go 0%nat 11390 KK|go 1%nat 7500 R1]
       |injection E as ? E; subst]); destruct a; discriminate E. }
  split.
  { intros a i x ev b p E _ [Ca Fw] Tp.
    repeat (destruct a as [|? a]; [injection E as <- <- <- E; first [discriminate Ca|injection Ca as <-; cbn in Fw;
       first [exfalso; intuition discriminate|idtac]];
       let go k z X := (eexists k, z, X, _; split; [discriminate|]; split; [find|]; split; [eexists; left; reflexivity|]; split; [split; reflexivity|lia]) in
       first [go 0%nat 7000 A|go 0%nat 8100 D|go 0%nat 9050 F|go 0%nat 9200 G|go 0%nat 10300 II|go 0%nat 11100 JJ|go 0%nat 11390 KK|go 1%nat 7500 R1]
       |injection E as ? E; subst]); destruct a; discriminate E. }
  split; [constructor; intros [|[|[|i]]]; intros; unfold three_clocks; lia|].
  split; [eexists; split; [eexists; left; reflexivity|reflexivity]|].
  split.
  { intros [|[|[|i]]] n L N H; [congruence| | |lia]; cbn [n_env n_start n_past] in H.
    - change [P1] with ([] ++ [P1]) in H. apply hist_last in H as (_ & -> & _). reflexivity.
    - change [P2] with ([] ++ [P2]) in H. apply hist_last in H as (_ & -> & _). reflexivity. }
  split.
  { intros i x ev I N L [TR1 TR2]. repeat (destruct I as [I|I]; [injection I as <- <- <-; first [congruence|discriminate TR2|lia]|]). destruct I. }
  split; [find|]. split; [reflexivity|]. split; [vm_compute; repeat split; try congruence; repeat constructor; congruence|].
  split; [eexists; split; [|left; split; [reflexivity|left; reflexivity]]; split; reflexivity|].
  split.
  { intros i y ev q I N C0. repeat (destruct I as [I|I]; [injection I as <- <- <-; first [discriminate C0|injection C0 as <-; split; reflexivity]|]). destruct I. }
  split; [intros y ev I; repeat (destruct I as [I|I]; [first [discriminate I|injection I as <- <-; reflexivity]|]); destruct I|].
  split; [reflexivity|]. split; [vm_compute; congruence|].
  split.
  { eexists 11160, X2, _. split; [find|]. split; [split; [reflexivity|left; reflexivity]|]. split; [left; reflexivity|]. split; [lia|discriminate]. }
  split; [exact H2|reflexivity].
Qed.
