(** A device whose radio does not start: C145. *)
From Coq Require Import ZArith Lia List Bool.
From Coq Require Import ZifyBool.
From Verif Require Import CInt CIntFacts Packet Fastled Device LedMgr Boot Controller DeadRadio.
Import ListNotations.
Open Scope Z_scope.
Ltac Zify.zify_post_hook ::= Z.div_mod_to_equations.

(** What is on display [t] ms after the start of a sequence of pictures that stay for
    the given times. *)
Fixpoint on_display {A} (fs : list (A * Z)) (t : Z) : option A :=
  match fs with
  | [] => None
  | (x, stay) :: rest => if t <? stay then Some x else on_display rest (t - stay)
  end.

(** ** C145 *)

(** A node or fancy node: all its LEDs, and the one on the board, are red for a tenth of a
    second and dark for a tenth of a second, for ever: at every time [t], as soon as the loop
    has come that far. *)
Theorem C145_a_node_blinks_red : forall leds k t, 0 <= t < 200 * Z.of_nat k ->
  exists pic, on_display (FatalErrorAnimation leds k) t = Some pic /\ length pic = leds /\
    forall c, In c pic -> c = if Z.even (t / 100) then mkRGB 64 0 0 else mkRGB 0 0 0.
Proof.
  intros leds k. induction k as [|k IH]; intros t R; [lia|]. cbn [FatalErrorAnimation on_display].
  destruct (Z.ltb_spec t 100) as [L|L].
  { exists (showColor leds (mkRGB 64 0 0)). split; [reflexivity|]. unfold showColor. split; [apply repeat_length|].
    replace (t / 100) with 0 by lia. intros c I. exact (repeat_spec _ _ _ I). }
  destruct (Z.ltb_spec (t - 100) 100) as [L2|L2].
  { exists (showColor leds (mkRGB 0 0 0)). split; [reflexivity|]. unfold showColor. split; [apply repeat_length|].
    replace (t / 100) with 1 by lia. intros c I. exact (repeat_spec _ _ _ I). }
  destruct (IH (t - 100 - 100) ltac:(lia)) as (pic & E & Lp & Q). exists pic. split; [exact E|]. split; [exact Lp|].
  intros c I. rewrite (Q c I). replace (t / 100) with ((t - 100 - 100) / 100 + 2 * 1) by lia.
  rewrite Z.even_add_mul_2. reflexivity.
Qed.
Print Assumptions C145_a_node_blinks_red.

(** So it is with the buffer of every device: the LEDs it describes, and the board's. *)
Corollary C145_every_led_of_a_node : forall d t, 0 <= t ->
  exists k pic, on_display (FatalErrorAnimation (length (new_leds d)) k) t = Some pic /\
    Z.of_nat (length pic) = GetLedCount d + 1 /\
    forall c, In c pic -> c = if Z.even (t / 100) then mkRGB 64 0 0 else mkRGB 0 0 0.
Proof.
  intros d t T. exists (Z.to_nat (t / 200 + 1)).
  destruct (C145_a_node_blinks_red (length (new_leds d)) (Z.to_nat (t / 200 + 1)) t ltac:(lia)) as (pic & E & L & Q).
  exists pic. split; [exact E|]. split; [|exact Q]. rewrite L. unfold new_leds, buffer_size. rewrite repeat_length.
  assert (0 <= GetLedCount d) by (unfold GetLedCount, u8; lia). lia.
Qed.
Print Assumptions C145_every_led_of_a_node.

(** The DMX converter: its LED is off for a tenth of a second and on for a tenth of a
    second, for ever. *)
Theorem C145_the_converter_blinks : forall k t, 0 <= t < 100 * Z.of_nat k ->
  on_display (dmx_no_radio false k) t = Some (Z.odd (t / 100)).
Proof.
  assert (G : forall k on t, 0 <= t < 100 * Z.of_nat k -> on_display (dmx_no_radio on k) t = Some (xorb on (Z.odd (t / 100)))).
  { induction k as [|k IH]; intros on t R; [lia|]. cbn [dmx_no_radio on_display].
    destruct (Z.ltb_spec t 100) as [L|L].
    - replace (t / 100) with 0 by lia. rewrite xorb_false_r. reflexivity.
    - rewrite IH by lia. replace (t / 100) with (Z.succ ((t - 100) / 100)) by lia. rewrite Z.odd_succ, <- Z.negb_odd.
      destruct on, (Z.odd ((t - 100) / 100)); reflexivity. }
  intros k t R. rewrite (G k false t R). destruct (Z.odd (t / 100)); reflexivity.
Qed.
Print Assumptions C145_the_converter_blinks.

(** The controller: in every run of the loop, at time [t] on its clock, the first LED is red
    in even fifths of a second and dark in odd ones; the others are dark. *)
Theorem C145_the_controller_blinks : forall ts n, (forall t, In t ts -> 0 <= t < 2 ^ 32) ->
  exists pics, ctrl_no_radio (map u32 ts) (repeat (mkRGB 0 0 0) (S n)) = Ok pics /\
    pics = map (fun t => (if Z.even (t / 200) then mkRGB 255 0 0 else mkRGB 0 0 0) :: repeat (mkRGB 0 0 0) n) ts.
Proof.
  intros ts n R. eexists. split; [|reflexivity].
  change (repeat (mkRGB 0 0 0) (S n)) with (mkRGB 0 0 0 :: repeat (mkRGB 0 0 0) n). generalize (mkRGB 0 0 0) at 1 as c.
  induction ts as [|t ts IH]; intros c; [reflexivity|]. cbn [map ctrl_no_radio].
  rewrite u32_id by (apply R; left; reflexivity).
  assert (E : forall x, aset (c :: repeat (mkRGB 0 0 0) n) 0 x = Ok (x :: repeat (mkRGB 0 0 0) n)).
  { intros x. reflexivity. }
  rewrite E. cbn [obind]. rewrite IH by (intros; apply R; right; assumption). cbn [obind]. repeat f_equal.
  rewrite Zeven_mod. destruct (Z.eqb_spec ((t / 200) mod 2) 0) as [K|K]; destruct (Zeq_bool ((t / 200) mod 2) 0) eqn:Z0;
    try reflexivity; [apply Zeq_bool_neq in Z0; contradiction|apply Zeq_bool_eq in Z0; contradiction].
Qed.
Print Assumptions C145_the_controller_blinks.

(** Three LEDs of a node, the LED of the converter, two LEDs of a controller. *)
Example C145_example :
  on_display (FatalErrorAnimation 3 10) 1250 = Some (repeat (mkRGB 64 0 0) 3) /\
  on_display (FatalErrorAnimation 3 10) 1350 = Some (repeat (mkRGB 0 0 0) 3) /\
  on_display (dmx_no_radio false 10) 350 = Some true /\
  ctrl_no_radio (map u32 [150; 210; 399; 400]) (repeat (mkRGB 0 0 0) 2) =
    Ok [[mkRGB 255 0 0; mkRGB 0 0 0]; [mkRGB 0 0 0; mkRGB 0 0 0]; [mkRGB 0 0 0; mkRGB 0 0 0]; [mkRGB 255 0 0; mkRGB 0 0 0]].
Proof. repeat split. Qed.
