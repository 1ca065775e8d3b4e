(** Pressing the controller's reset button: when the boot loader runs. *)
From Coq Require Import ZArith List Bool Lia ZifyBool.
From Verif Require Import CInt Reboot.
Import ListNotations.
Open Scope Z_scope.
Ltac Zify.zify_post_hook ::= Z.div_mod_to_equations.

(** What is claimed, in terms of the times of the presses alone: the boot loader
    runs exactly when the button is pressed more than 100 ms and less than a
    second after the last start. *)
Definition wanted (after : Z) : program := if (100 <? after) && (after <? 1000) then Bootloader else Application.

(** 84 years; then the clock's century is over. *)
Definition years_84 : Z := (2100 - 2016) * 365 * 86400.

(** A press not more than 84 years after the last start; if the board restarts
    itself, that takes less than a second. *)
Definition sensible (p : press) : Prop :=
  0 <= p_after p < years_84 * 1000 /\ exists d rest, p_delays p = d :: rest /\ 0 <= d < 1000.

Lemma boot_after : forall a d rest, 0 <= a < years_84 * 1000 -> 0 <= d < 1000 ->
  boot true (d :: rest) (elapse a (mkRtc kEpochTimer 0)) = Some (mkRtc kEpochTimer 0, wanted a).
Proof.
  intros a d rest Ha Hd.
  unfold elapse at 1. cbn [r_epoch r_sub].
  assert (He : year_2000 + (kEpochTimer - year_2000 + (0 + a) / 1000) mod century = kEpochTimer + a / 1000).
  { rewrite Z.mod_small; unfold kEpochTimer, year_2000, century, years_84 in *; lia. }
  rewrite He. cbn [boot]. unfold setup_clock, wanted. cbn [r_epoch r_sub].
  destruct (Z.ltb_spec a 1000).
  - assert (a / 1000 = 0) as -> by lia. assert ((0 + a) mod 1000 = a) as -> by lia.
    rewrite Z.add_0_r, Z.eqb_refl. cbn [andb].
    destruct (100 <? a); cbn [andb].
    + unfold setEpoch at 1, elapse. cbn [r_epoch r_sub].
      assert (year_2000 + (kEpochReset - year_2000 + (0 + d) / 1000) mod century = kEpochReset) as ->.
      { rewrite Z.mod_small; unfold kEpochReset, year_2000, century; lia. }
      destruct rest; reflexivity.
    + reflexivity.
  - replace (kEpochTimer + a / 1000 =? kEpochTimer) with false by lia.
    replace (kEpochTimer + a / 1000 =? kEpochReset) with false by (unfold kEpochTimer, kEpochReset in *; lia).
    cbn [andb]. rewrite andb_false_r. reflexivity.
Qed.

Lemma presses_wanted : forall ps, Forall sensible ps ->
  presses true ps (mkRtc kEpochTimer 0) = Some (map (fun p => wanted (p_after p)) ps).
Proof.
  induction ps as [|p ps IH]; intros H; [reflexivity|].
  inversion H as [|x l [Ha (d & rest & Hd & Hb)] Hps]; subst.
  cbn [presses map]. rewrite Hd, boot_after by assumption. rewrite (IH Hps). reflexivity.
Qed.

(** Switched on with the clock at neither of the two marks (after a power loss it
    shows the year 2000), the controller runs its application; from then on, for
    presses of the reset button without number and at any times, the boot loader
    runs exactly after those presses that come more than 100 ms and less than a
    second after the start before, be that start the application's or the boot
    loader's. *)
Theorem C125_double_press_enters_the_boot_loader : forall r ps,
  r_epoch r <> kEpochTimer -> r_epoch r <> kEpochReset -> Forall sensible ps ->
  switched_on true r ps = Some (Application :: map (fun p => wanted (p_after p)) ps).
Proof.
  intros r ps H1 H2 Hps. unfold switched_on, boot, setup_clock.
  replace (r_epoch r =? kEpochTimer) with false by lia.
  replace (r_epoch r =? kEpochReset) with false by lia.
  cbn [andb]. unfold setEpoch, setSubSeconds. cbn [r_epoch r_sub].
  rewrite (presses_wanted ps Hps). reflexivity.
Qed.
Print Assumptions C125_double_press_enters_the_boot_loader.

(** So a controller that is not pressed twice within a second always runs its
    application: also when the serial chip resets it within 100 ms of being
    switched on. *)
Corollary C125_single_presses_run_the_application : forall r ps,
  r_epoch r <> kEpochTimer -> r_epoch r <> kEpochReset -> Forall sensible ps ->
  Forall (fun p => p_after p <= 100 \/ 1000 <= p_after p) ps ->
  switched_on true r ps = Some (repeat Application (S (length ps))).
Proof.
  intros r ps H1 H2 Hps Hq. rewrite C125_double_press_enters_the_boot_loader by assumption.
  f_equal. cbn [repeat]. f_equal. clear Hps.
  induction Hq as [|p ps Hp _ IH]; [reflexivity|]. cbn [map length repeat]. rewrite IH. f_equal.
  unfold wanted. destruct (Z.ltb_spec 100 (p_after p)), (Z.ltb_spec (p_after p) 1000); cbn; try reflexivity; lia.
Qed.
Print Assumptions C125_single_presses_run_the_application.

Example reboot_case :
  let ps := [mkPress 40 [3]; mkPress 5000 [3]; mkPress 300 [3]; mkPress 999 [3]; mkPress 60000 [3]; mkPress 100 [3]] in
  Forall sensible ps /\
  switched_on true (mkRtc year_2000 0) ps =
  Some [Application; Application; Application; Bootloader; Bootloader; Application; Application].
Proof.
  split; [|reflexivity].
  repeat constructor; cbn; try (unfold years_84; lia); exists 3, []; split; [reflexivity|lia|reflexivity|lia|reflexivity|lia|reflexivity|lia|reflexivity|lia|reflexivity|lia].
Qed.

(** This rests on setEpoch beginning a new second, which the code does not ask
    for when it marks the clock (line 426; it does in line 435).  With a library
    that lets the running second go on, a second press late in the second is lost
    if the restart lasts into the next one. *)
Theorem C125_without_a_new_second_refuted :
  ~ (forall restarts r ps, r_epoch r <> kEpochTimer -> r_epoch r <> kEpochReset -> Forall sensible ps ->
     switched_on restarts r ps = Some (Application :: map (fun p => wanted (p_after p)) ps)).
Proof.
  intros H. specialize (H false (mkRtc year_2000 0) [mkPress 990 [20]]).
  assert (Hs : Forall sensible [mkPress 990 [20]]).
  { repeat constructor; cbn; try (unfold years_84; lia). exists 20, []. split; [reflexivity|lia]. }
  specialize (H ltac:(discriminate) ltac:(discriminate) Hs). vm_compute in H. discriminate.
Qed.
Print Assumptions C125_without_a_new_second_refuted.

(** Exactly those are lost, whatever the library: the press counts if the restart
    ends within the second the press falls into. *)
Theorem C125_without_a_new_second : forall a d, 100 < a < 1000 -> 0 <= d < 1000 ->
  option_map snd (boot false [d] (elapse a (mkRtc kEpochTimer 0))) =
  Some (if a + d <? 1000 then Bootloader else Application).
Proof.
  intros a d Ha Hd. unfold elapse at 1. cbn [r_epoch r_sub].
  assert (year_2000 + (kEpochTimer - year_2000 + (0 + a) / 1000) mod century = kEpochTimer) as ->.
  { rewrite Z.mod_small; unfold kEpochTimer, year_2000, century; lia. }
  assert ((0 + a) mod 1000 = a) as -> by lia.
  cbn [boot]. unfold setup_clock at 1. cbn [r_epoch r_sub]. rewrite Z.eqb_refl.
  replace (100 <? a) with true by lia. cbn [andb].
  unfold setEpoch at 1, elapse. cbn [r_epoch r_sub].
  assert (year_2000 + (kEpochReset - year_2000 + (a + d) / 1000) mod century = kEpochReset + (a + d) / 1000) as ->.
  { rewrite Z.mod_small; unfold kEpochReset, year_2000, century; lia. }
  cbn [boot]. unfold setup_clock. cbn [r_epoch r_sub].
  replace (kEpochReset + (a + d) / 1000 =? kEpochTimer) with false by (unfold kEpochTimer, kEpochReset; lia).
  cbn [andb].
  destruct (Z.ltb_spec (a + d) 1000).
  - replace (kEpochReset + (a + d) / 1000 =? kEpochReset) with true by lia. reflexivity.
  - replace (kEpochReset + (a + d) / 1000 =? kEpochReset) with false by lia. reflexivity.
Qed.
Print Assumptions C125_without_a_new_second.

(** The same for presses without number.  [s] is what the running second showed
    when the clock was set last: nothing after a start of the application, which
    begins a new second (line 435), but the full fraction after a start of the
    boot loader, which does not (line 430).  So after the boot loader the second
    in which the next press counts is shorter by that fraction. *)
Fixpoint without_new_second (s : Z) (ps : list (Z * Z)) : list program :=
  match ps with
  | [] => []
  | (after, restart) :: rest =>
      if (100 <? s + after) && (s + after + restart <? 1000)
      then Bootloader :: without_new_second (s + after + restart) rest
      else Application :: without_new_second 0 rest
  end.

Lemma boot_false s a d rest : 0 <= s < 1000 -> 0 <= a < years_84 * 1000 -> 0 <= d < 1000 ->
  boot false (d :: rest) (elapse a (mkRtc kEpochTimer s)) =
  Some (if (100 <? s + a) && (s + a + d <? 1000) then (mkRtc kEpochTimer (s + a + d), Bootloader) else (mkRtc kEpochTimer 0, Application)).
Proof.
  intros Hs Ha Hd. unfold elapse at 1. cbn [r_epoch r_sub].
  assert (year_2000 + (kEpochTimer - year_2000 + (s + a) / 1000) mod century = kEpochTimer + (s + a) / 1000) as ->.
  { rewrite Z.mod_small; unfold kEpochTimer, year_2000, century, years_84 in *; lia. }
  cbn [boot]. unfold setup_clock at 1. cbn [r_epoch r_sub].
  destruct (Z.ltb_spec (s + a) 1000).
  - assert ((s + a) / 1000 = 0) as -> by lia. assert ((s + a) mod 1000 = s + a) as -> by lia.
    rewrite Z.add_0_r, Z.eqb_refl. cbn [andb]. destruct (Z.ltb_spec 100 (s + a)); cbn [andb].
    + unfold setEpoch at 1, elapse. cbn [r_epoch r_sub].
      assert (year_2000 + (kEpochReset - year_2000 + (s + a + d) / 1000) mod century = kEpochReset + (s + a + d) / 1000) as ->.
      { rewrite Z.mod_small; unfold kEpochReset, year_2000, century; lia. }
      destruct (Z.ltb_spec (s + a + d) 1000).
      * assert ((s + a + d) / 1000 = 0) as -> by lia. assert ((s + a + d) mod 1000 = s + a + d) as -> by lia.
        destruct rest; reflexivity.
      * assert ((s + a + d) / 1000 = 1) as -> by lia. destruct rest; reflexivity.
    + reflexivity.
  - replace (s + a + d <? 1000) with false by lia. rewrite andb_false_r.
    replace (kEpochTimer + (s + a) / 1000 =? kEpochTimer) with false by lia.
    replace (kEpochTimer + (s + a) / 1000 =? kEpochReset) with false by (unfold kEpochTimer, kEpochReset in *; lia).
    cbn [andb]. reflexivity.
Qed.

Theorem C125_presses_without_a_new_second : forall r ps,
  r_epoch r <> kEpochTimer -> r_epoch r <> kEpochReset ->
  Forall (fun p => 0 <= fst p < years_84 * 1000 /\ 0 <= snd p < 1000) ps ->
  switched_on false r (map (fun p => mkPress (fst p) [snd p]) ps) = Some (Application :: without_new_second 0 ps).
Proof.
  intros r ps H1 H2 Hps.
  assert (K : forall s, 0 <= s < 1000 -> presses false (map (fun p => mkPress (fst p) [snd p]) ps) (mkRtc kEpochTimer s) = Some (without_new_second s ps)).
  { induction Hps as [|[a d] ps [Ha Hd] _ IH]; intros s Hs; [reflexivity|]. cbn [fst snd] in *.
    cbn [map presses without_new_second p_after p_delays fst snd]. rewrite boot_false by assumption.
    destruct ((100 <? s + a) && (s + a + d <? 1000)) eqn:C; (rewrite IH; [reflexivity|lia]). }
  unfold switched_on. unfold boot, setup_clock.
  replace (r_epoch r =? kEpochTimer) with false by lia.
  replace (r_epoch r =? kEpochReset) with false by lia.
  cbn [andb]. unfold setEpoch, setSubSeconds. cbn [r_epoch r_sub].
  rewrite K by lia. reflexivity.
Qed.
Print Assumptions C125_presses_without_a_new_second.

(** After the boot loader a press 400 ms later is no longer in time. *)
Example reboot_short_second :
  switched_on false (mkRtc year_2000 700) [mkPress 600 [20]; mkPress 400 [20]; mkPress 600 [20]] =
    Some [Application; Bootloader; Application; Bootloader] /\
  switched_on true (mkRtc year_2000 700) [mkPress 600 [20]; mkPress 400 [20]; mkPress 600 [20]] =
    Some [Application; Bootloader; Bootloader; Bootloader].
Proof. split; reflexivity. Qed.
