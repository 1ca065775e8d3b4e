(** C15-C16: flooding. *)
From Coq Require Import ZArith Lia List Bool PeanoNat FinFun.
From Verif Require Import CInt CIntFacts Packet NetMgr NetFacts Flood SpecFlood FloodFacts StormFacts.
Import ListNotations.
Open Scope Z_scope.

(** C15. Any number of nodes, any schedule.  No schedule fails; and if at most
    five ids were originated, each by one send, every node transmitted each id
    at most once, so there were at most 5 n transmissions. *)
Theorem C15_flood_terminates :
  forall (pl : platform) (n : nat) (sched : list event),
    exists w, world_run pl (world_init n) sched = Ok w /\
      (NoDup (originated (air w)) -> (length (originated (air w)) <= 5)%nat ->
       (forall i, NoDup (ids_by i (air w))) /\ (length (air w) <= n * 5)%nat).
Proof.
  intros pl n sched.
  destruct (flood_total pl n sched _ (flood_inv_init n)) as (w & E & Hinv & _).
  exists w. split; [exact E|]. intros Hnd Hl.
  assert (Ho : once w).
  { apply (flood_once pl n sched (world_init n) w); auto using flood_inv_init.
    intros i. cbn. constructor. }
  split; [exact Ho|]. apply flood_count; auto.
Qed.
Print Assumptions C15_flood_terminates.

(** Three nodes, two originations, seven deliveries (some repeated): 6 transmissions. *)
Definition ex_sched : list event :=
  [Originate 0 (storm_packet 0) 10; Deliver 1 0; Deliver 2 0; Originate 2 (storm_packet 0) 20;
   Deliver 0 3; Deliver 1 3; Deliver 0 1; Deliver 1 5; Deliver 2 1].
Example C15_example :
  exists w, world_run Arduino (world_init 3) ex_sched = Ok w /\
    originated (air w) = [12; 22] /\ length (air w) = 6%nat /\
    ids_by 0 (air w) = [12; 22] /\ ids_by 1 (air w) = [12; 22] /\ ids_by 2 (air w) = [12; 22].
Proof. eexists. split; [vm_compute; reflexivity|]. vm_compute. repeat split; reflexivity. Qed.

(** C16. Two nodes, six originated ids; every later event is the reception of a
    transmission by the node that did not make it, each transmission heard at
    most once; yet every event causes a transmission, without bound. *)
Theorem C16_storm :
  forall (pl : platform) (bound : nat),
    exists sched w, world_run pl (world_init 2) sched = Ok w /\
      originated (air w) = [2;3;4;5;6;7] /\
      (bound <= length (air w))%nat /\ length (air w) = length sched /\
      NoDup (filter (fun ev => match ev with Deliver _ _ => true | _ => false end) sched) /\
      (forall i k, In (Deliver i k) sched ->
         exists j t, nth_error (air w) k = Some (j, t) /\ j <> i).
Proof.
  intros pl bound. exists (storm bound).
  destruct (storm_runs pl bound) as (w & E & _ & (m0 & m1 & pre & b & -> & _ & _ & _ & _ & Hl & Hb & Ho & Hby)).
  eexists. split; [exact E|]. cbn [air].
  assert (Lb : length b = 6%nat).
  { destruct Hb as [Hf _]. apply (f_equal (@length _)) in Hf. rewrite map_length, repeat_length in Hf. exact Hf. }
  split; [exact Ho|]. split; [rewrite app_length; lia|].
  split; [unfold storm; rewrite !app_length, map_length, seq_length; cbn [storm_start map length]; lia|].
  split.
  - unfold storm. rewrite filter_app. cbn [storm_start map filter app].
    rewrite filter_all.
    + apply Injective_map_NoDup; [|apply seq_NoDup].
      intros x y H. inversion H. reflexivity.
    + intros x Hx. apply in_map_iff in Hx. destruct Hx as (k & <- & _). reflexivity.
  - intros i k Hin. unfold storm in Hin. apply in_app_or in Hin. destruct Hin as [Hin|Hin].
    { apply in_map_iff in Hin. destruct Hin as (? & X & _). discriminate X. }
    apply in_map_iff in Hin. destruct Hin as (k' & X & Hk). apply in_seq in Hk.
    assert (Xk : k' = k) by (injection X; auto). subst k'.
    assert (Xi : (if Nat.even (k / 6) then 1%nat else 0%nat) = i) by (injection X; auto). subst i. clear X.
    assert (Hlt : (k < length (pre ++ b))%nat) by (rewrite app_length; lia).
    destruct (nth_error (pre ++ b) k) as [[j t]|] eqn:En; [|apply nth_error_None in En; lia].
    exists j, t. split; [reflexivity|]. rewrite (Hby k j t En). destruct (Nat.even (k / 6)); discriminate.
Qed.
Print Assumptions C16_storm.

(** One round written out: after 6 originations and 12 receptions, 18 transmissions. *)
Example C16_example :
  exists w, world_run Host (world_init 2) (storm 2) = Ok w /\ length (air w) = 18%nat /\
    ids_by 0 (air w) = [2;3;4;5;6;7;2;3;4;5;6;7] /\ ids_by 1 (air w) = [2;3;4;5;6;7].
Proof. eexists. split; [vm_compute; reflexivity|]. vm_compute. auto. Qed.
