(** C68: the stored device description. *)
From Coq Require Import ZArith Lia List Bool.
From Coq Require Import ZifyBool.
From Verif Require Import CInt CIntFacts Packet Device LedMgr Flash SpecFlash.
Import ListNotations.
Open Scope Z_scope.
Ltac Zify.zify_post_hook ::= Z.div_mod_to_equations.

Lemma le32_bytes v : Forall (fun b => 0 <= b < 256) (le32 v).
Proof. unfold le32. repeat constructor; lia. Qed.
Lemma bytes_of_bytes im : Forall (fun b => 0 <= b < 256) (bytes_of im).
Proof. unfold bytes_of. repeat (apply Forall_app; split); apply le32_bytes. Qed.
Lemma bytes_of_length im : length (bytes_of im) = 20%nat.
Proof. reflexivity. Qed.
Lemma word_le32 v : is_word v -> v mod 256 + 256 * (v / 256 mod 256) + 65536 * (v / 65536 mod 256) + 16777216 * (v / 16777216 mod 256) = v.
Proof. unfold is_word. lia. Qed.
Lemma image_roundtrip im rest : proper im -> image_of (bytes_of im ++ rest) = im.
Proof.
  destruct im as [m b e c k]. intros (A & B & C & D & E). cbn [im_milliamps im_begin im_end im_capacity im_check] in *.
  assert (F : is_word k) by (subst; unfold is_word, kCheckValue; lia).
  unfold image_of, word, bytes_of, le32. cbn [app nth Nat.add im_milliamps im_begin im_end im_capacity im_check].
  rewrite !word_le32 by assumption. reflexivity.
Qed.
Lemma check_roundtrip im rest : proper im -> word 16 (bytes_of im ++ rest) = kCheckValue.
Proof. intros P. change (word 16 (bytes_of im ++ rest)) with (im_check (image_of (bytes_of im ++ rest))). rewrite image_roundtrip by assumption. apply P. Qed.

(** The flash after some bytes have been written to erased flash. *)
Lemma land_255 v : 0 <= v < 256 -> Z.land 255 v = v.
Proof. intros H. rewrite Z.land_comm. change 255 with (Z.ones 8). rewrite Z.land_ones by lia. apply Z.mod_small. lia. Qed.
Lemma list_set_app {A} (l r : list A) x v : list_set (l ++ x :: r) (length l) v = l ++ v :: r.
Proof. induction l as [|y l IH]; cbn [app length list_set]; [reflexivity|f_equal; exact IH]. Qed.
Lemma write_ok l : Forall (fun b => 0 <= b < 256) l -> forall done k n, (length l <= n)%nat ->
  apply_ops (done ++ repeat 255 n) (firstn k (write_bytes (length done) l)) =
  done ++ firstn k l ++ repeat 255 (n - length (firstn k l)).
Proof.
  induction 1 as [|v l V F IH]; intros done k n N.
  - cbn [write_bytes]. rewrite !firstn_nil. cbn. rewrite Nat.sub_0_r. reflexivity.
  - destruct k as [|k]; [cbn; rewrite Nat.sub_0_r; reflexivity|].
    destruct n as [|n]; [cbn in N; lia|]. cbn [write_bytes firstn repeat]. unfold apply_ops. cbn [fold_left apply_op].
    rewrite app_nth2 by lia. rewrite Nat.sub_diag. cbn [nth]. rewrite list_set_app, land_255 by assumption.
    specialize (IH (done ++ [v]) k n ltac:(cbn in N; lia)). rewrite app_length in IH. cbn [length] in IH.
    rewrite Nat.add_1_r in IH. unfold apply_ops in IH. rewrite <- !app_assoc in IH. cbn [app] in IH. rewrite IH.
    cbn [app firstn length Nat.sub]. reflexivity.
Qed.

Lemma erase_repeat flash : map (fun _ : Z => 255) flash = repeat 255 (length flash).
Proof. induction flash; cbn; f_equal; auto. Qed.

(** An interrupted store leaves the old contents, or a prefix of the new ones
    followed by erased bytes. *)
Lemma store_prefix l flash k : length flash = kMaxSize -> length l = kMaxSize -> Forall (fun b => 0 <= b < 256) l ->
  let ops := Erase :: write_bytes 0 l in
  k = 0%nat /\ apply_ops flash (firstn k ops) = flash \/
  exists j, (j <= kMaxSize)%nat /\ (length ops <= k -> j = kMaxSize)%nat /\
            apply_ops flash (firstn k ops) = firstn j l ++ repeat 255 (kMaxSize - j).
Proof.
  intros F L B ops. destruct k as [|k]; [left; auto|right].
  exists (Nat.min k kMaxSize). split; [lia|]. split.
  { subst ops. cbn [length]. assert (WL : forall l i, length (write_bytes i l) = length l) by (clear; induction l; intros; cbn; auto).
    rewrite WL. lia. }
  subst ops. cbn [firstn]. unfold apply_ops. cbn [fold_left apply_op]. rewrite erase_repeat, F.
  pose proof (write_ok l B [] k kMaxSize ltac:(lia)) as W. cbn [length app] in W. unfold apply_ops in W. rewrite W.
  assert (FN : firstn k l = firstn (Nat.min k kMaxSize) l).
  { destruct (Nat.le_gt_cases k kMaxSize); [rewrite Nat.min_l by assumption; reflexivity|].
    rewrite Nat.min_r by lia. rewrite !firstn_all2; [reflexivity|lia..]. }
  rewrite <- FN. f_equal. f_equal. rewrite firstn_length. lia.
Qed.

Lemma firstn_app_full {A} j (l r : list A) : (length l <= j)%nat -> firstn j (l ++ r) = l ++ firstn (j - length l) r.
Proof. intros H. rewrite firstn_app, firstn_all2 by assumption. reflexivity. Qed.

(** A prefix that stops inside the record has no valid check value. *)
Lemma prefix_unreadable im rest j n : (j < 20)%nat -> (20 <= n)%nat -> proper im ->
  word 16 (firstn j (bytes_of im ++ rest) ++ repeat 255 n) <> kCheckValue.
Proof.
  intros J N (_ & _ & _ & _ & C). unfold bytes_of. rewrite C.
  do 20 (destruct n as [|n]; [lia|]).
  assert (BM : forall v, 0 <= v mod 256 < 256) by (intros; lia).
  do 20 (destruct j as [|j]; [cbn [firstn app repeat le32 word nth Nat.add]; unfold word, kCheckValue; cbn [nth Nat.add app];
    try (vm_compute; discriminate) | cbn [Nat.add] in *]); try lia.
Qed.

Lemma same_bytes_spec l : forall flash, (length l <= length flash)%nat ->
  (same_bytes l flash = true <-> firstn (length l) flash = l).
Proof.
  induction l as [|v l IH]; intros [|w flash] L; cbn [length firstn same_bytes] in *; try lia; try tauto.
  rewrite andb_true_iff, Z.eqb_eq, IH by lia. split; [intros [-> ->]; reflexivity|intros E; injection E as -> E; auto].
Qed.

(** What is being stored: the record and something behind it. *)
Definition tail (b : board) (f : firmware) (flash : list Z) : list Z :=
  match b with NodeBoard => fw_beyond f | FancyNodeBoard => skipn image_size flash end.
Lemma store_ops_eq b f flash : store_ops b (fw_current f) (fw_beyond f) flash =
  if same_bytes (bytes_of (fw_current f)) flash then [] else Erase :: write_bytes 0 (bytes_of (fw_current f) ++ tail b f flash).
Proof. destruct b; reflexivity. Qed.
Lemma Forall_skipn {A} (P : A -> Prop) n l : Forall P l -> Forall P (skipn n l).
Proof. intros F. rewrite <- (firstn_skipn n l) in F. apply Forall_app in F. apply F. Qed.
Lemma Forall_firstn {A} (P : A -> Prop) n l : Forall P l -> Forall P (firstn n l).
Proof. intros F. rewrite <- (firstn_skipn n l) in F. apply Forall_app in F. apply F. Qed.
Lemma record_length b f flash : proper_firmware f -> length flash = kMaxSize -> Forall (fun b => 0 <= b < 256) flash ->
  length (bytes_of (fw_current f) ++ tail b f flash) = kMaxSize /\
  Forall (fun b => 0 <= b < 256) (bytes_of (fw_current f) ++ tail b f flash).
Proof.
  intros (P & L & B) FL FB. rewrite app_length, bytes_of_length. split.
  - destruct b; cbn [tail]; [rewrite L; reflexivity|]. rewrite skipn_length, FL. reflexivity.
  - apply Forall_app. split; [apply bytes_of_bytes|]. destruct b; cbn [tail]; [exact B|apply Forall_skipn, FB].
Qed.

(** The flash holds no record, or a whole one of a firmware that stored it. *)
Definition whole (fs : list firmware) (flash : list Z) : Prop :=
  length flash = kMaxSize /\ Forall (fun b => 0 <= b < 256) flash /\
  (word 16 flash = kCheckValue -> exists f, In f fs /\ fw_mode f = WRITE_TO_FLASH /\ image_of flash = fw_current f).

Lemma whole_step b fs f flash k : whole fs flash -> proper_firmware f ->
  whole (fs ++ [f]) (apply_ops flash (firstn k (start_ops b (fw_mode f) (fw_current f) (fw_beyond f) flash))).
Proof.
  intros (L & FB & W) PF.
  assert (KEEP : whole (fs ++ [f]) flash).
  { split; [exact L|]. split; [exact FB|]. intros C. destruct (W C) as (g & G & M & I). exists g. split; [apply in_or_app; auto|auto]. }
  unfold start_ops. destruct (fw_mode f) eqn:M; try (rewrite firstn_nil; exact KEEP).
  rewrite store_ops_eq. destruct (same_bytes _ _); [rewrite firstn_nil; exact KEEP|].
  destruct (record_length b f flash PF L FB) as [RL RB].
  destruct (store_prefix _ flash k L RL RB) as [[-> E]|(j & J & _ & E)]; cbv zeta in E; rewrite E; [exact KEEP|].
  split; [rewrite app_length, firstn_length, repeat_length, RL; unfold kMaxSize in *; lia|].
  split; [apply Forall_app; split; [apply Forall_firstn, RB|apply Forall_forall; intros x X; apply repeat_spec in X; lia]|].
  intros C. destruct (Nat.lt_ge_cases j 20) as [S|S].
  - destruct (prefix_unreadable (fw_current f) (tail b f flash) j (kMaxSize - j) S) as []; [unfold kMaxSize; lia|apply PF|exact C].
  - exists f. split; [apply in_or_app; right; left; reflexivity|]. split; [exact M|].
    rewrite firstn_app_full by (rewrite bytes_of_length; exact S). rewrite <- app_assoc. apply image_roundtrip, PF.
Qed.

Lemma whole_after b flash0 fs flash : blank flash0 -> after_starts b flash0 fs flash -> whole fs flash.
Proof.
  intros (L & FB & B) H. induction H as [|fs flash f k H IH PF]; [split; [exact L|split; [exact FB|contradiction]]|]. apply whole_step; assumption.
Qed.

(** ** C68 *)
(** Whatever was cut off when, a start that reads the flash uses the complete
    device of some firmware that stored its device there, or its own. *)
Theorem C68_never_a_partial_record : forall b flash0 fs flash built_in beyond,
  blank flash0 -> after_starts b flash0 fs flash ->
  start_device b READ_FROM_FLASH built_in beyond flash = built_in \/
  exists f, In f fs /\ fw_mode f = WRITE_TO_FLASH /\
            start_device b READ_FROM_FLASH built_in beyond flash = fw_current f.
Proof.
  intros b flash0 fs flash built_in beyond B H. destruct (whole_after _ _ _ _ B H) as (L & _ & W).
  cbn [start_device]. unfold ReadDeviceFromFlash. destruct (word 16 flash =? kCheckValue) eqn:C; [right|left; reflexivity].
  apply W. lia.
Qed.
Print Assumptions C68_never_a_partial_record.

(** Once a storing start runs to its end, the device is stored: it is used at
    once, later starts that read the flash use it whatever their own device, and
    starting the same firmware again leaves the flash alone. *)
Theorem C68_repaired_by_next_start : forall b flash0 fs flash f,
  blank flash0 -> after_starts b flash0 fs flash -> proper_firmware f -> fw_mode f = WRITE_TO_FLASH ->
  let flash' := apply_ops flash (start_ops b (fw_mode f) (fw_current f) (fw_beyond f) flash) in
  start_device b WRITE_TO_FLASH (fw_current f) (fw_beyond f) flash = fw_current f /\
  (forall built_in beyond, start_device b READ_FROM_FLASH built_in beyond flash' = fw_current f) /\
  (forall beyond, start_ops b WRITE_TO_FLASH (fw_current f) beyond flash' = []).
Proof.
  intros b flash0 fs flash f B H PF M flash'. destruct (whole_after _ _ _ _ B H) as (L & FB & W).
  destruct (record_length b f flash PF L FB) as [RL RB].
  assert (FW : exists rest, flash' = bytes_of (fw_current f) ++ rest).
  { subst flash'. rewrite M. cbn [start_ops]. rewrite store_ops_eq. destruct (same_bytes _ _) eqn:SB.
    - apply same_bytes_spec in SB; [|rewrite bytes_of_length, L; unfold kMaxSize; lia].
      exists (skipn (length (bytes_of (fw_current f))) flash). rewrite <- SB at 1. symmetry. apply firstn_skipn.
    - set (ops := Erase :: _). replace ops with (firstn (length ops) ops) by apply firstn_all.
      destruct (store_prefix _ flash (length ops) L RL RB) as [[K _]|(j & J & JJ & E)]; [discriminate|].
      rewrite JJ in E by reflexivity. subst ops. rewrite E. rewrite Nat.sub_diag. cbn [repeat].
      rewrite firstn_all2 by lia. exists (tail b f flash). apply app_nil_r. }
  destruct FW as [rest FW].
  assert (RD : forall b, ReadDeviceFromFlash b flash' = fw_current f).
  { intros c. unfold ReadDeviceFromFlash. rewrite FW, check_roundtrip by apply PF. rewrite Z.eqb_refl. apply image_roundtrip, PF. }
  split; [|split].
  - cbn [start_device]. subst flash'. rewrite M in RD. apply RD.
  - intros c y. apply RD.
  - intros y. cbn [start_ops].
    set (f' := mkFirmware WRITE_TO_FLASH (fw_current f) y). change (store_ops b (fw_current f') (fw_beyond f') flash' = []). rewrite store_ops_eq. cbn [f' fw_current].
    replace (same_bytes (bytes_of (fw_current f)) flash') with true; [reflexivity|]. symmetry.
    apply same_bytes_spec; [rewrite FW, app_length; lia|]. rewrite FW. rewrite firstn_app_full by lia.
    rewrite Nat.sub_diag. cbn [firstn]. apply app_nil_r.
Qed.
Print Assumptions C68_repaired_by_next_start.

(** The strips are not stored, only pointers to them: read by another program, or
    by the same one with another memory layout, the stored device may have other
    strips, or none that exist. *)
Theorem C68_strips_are_not_stored_refuted : exists im flash strips0 (h h' h'' : heap) strips1,
  proper im /\ same_bytes (bytes_of im) flash = true /\
  (forall built_in, ReadDeviceFromFlash built_in flash = im) /\
  device_strips h im = Ok strips0 /\ device_strips h' im = Ok strips1 /\ strips1 <> strips0 /\ device_strips h'' im = Undef.
Proof.
  set (im := mkImage 500 536871000 536871016 536871016 kCheckValue).
  exists im, (bytes_of im ++ repeat 255 108), [StripDescription 30 []; StripDescription 12 [Dim]],
    (fun b e => if (b =? 536871000) && (e =? 536871016) then Ok [StripDescription 30 []; StripDescription 12 [Dim]] else Undef),
    (fun b e => if (b =? 536871000) && (e =? 536871016) then Ok [StripDescription 7 [Off]; StripDescription 9 []] else Undef),
    (fun b e => Undef), [StripDescription 7 [Off]; StripDescription 9 []].
  assert (P : proper im) by (unfold proper, is_word, im; cbn; unfold kCheckValue; lia).
  split; [exact P|]. split; [vm_compute; reflexivity|]. split.
  - intros b. unfold ReadDeviceFromFlash. rewrite check_roundtrip by exact P. rewrite Z.eqb_refl. apply image_roundtrip, P.
  - split; [reflexivity|]. split; [reflexivity|]. split; [discriminate|reflexivity].
Qed.
Print Assumptions C68_strips_are_not_stored_refuted.

(** Two firmwares; the first store is cut off inside the check value. *)
Definition demo_a := mkFirmware WRITE_TO_FLASH (mkImage 500 536871000 536871016 536871016 kCheckValue) (repeat 7 108).
Definition demo_b := mkFirmware WRITE_TO_FLASH (mkImage 2000 536871100 536871132 536871132 kCheckValue) (repeat 9 108).
Definition demo_ops (f : firmware) flash := start_ops NodeBoard (fw_mode f) (fw_current f) (fw_beyond f) flash.
Example C68_example :
  proper_firmware demo_a /\ proper_firmware demo_b /\ blank (repeat 255 kMaxSize) /\
  (let f1 := apply_ops (repeat 255 kMaxSize) (firstn 20 (demo_ops demo_a (repeat 255 kMaxSize))) in
   let f2 := apply_ops f1 (firstn 21 (demo_ops demo_b f1)) in
   let f3 := apply_ops f2 (firstn 5 (demo_ops demo_a f2)) in
   word 16 f1 <> kCheckValue /\ nth 18 f1 0 = 52 /\
   ReadDeviceFromFlash (fw_current demo_a) f2 = fw_current demo_b /\
   ReadDeviceFromFlash (fw_current demo_b) f3 = fw_current demo_b /\ nth 0 f3 0 = 244).
Proof.
  assert (PA : proper_firmware demo_a).
  { unfold proper_firmware, proper, is_word. cbn. unfold kCheckValue. repeat split; try lia. repeat constructor; lia. }
  assert (PB : proper_firmware demo_b).
  { unfold proper_firmware, proper, is_word. cbn. unfold kCheckValue. repeat split; try lia. repeat constructor; lia. }
  split; [exact PA|]. split; [exact PB|]. split; [split; [reflexivity|split; [vm_compute; repeat constructor; discriminate|vm_compute; discriminate]]|].
  vm_compute. repeat split; try reflexivity; discriminate.
Qed.
