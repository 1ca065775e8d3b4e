(** Specification vocabulary for the battery supervision. *)
From Coq Require Import ZArith QArith List Bool.
From Verif Require Import Packet LedMgr Battery.
Import ListNotations.
Open Scope Z_scope.

(** The battery voltage a 10-bit reading stands for: 3.3 V reference, divider of
    62k over 180k. *)
Definition volts (r : Z) : Q := (r * 33 * 242) # (10 * 1024 * 180).

(** The start-up timer, once expired, stays so. *)
Definition stays_expired (xs : list reading) : Prop :=
  forall a x b y c, xs = a ++ x :: b ++ y :: c -> expired x = true -> expired y = true.

(** After the readings [xs] the device ought to be switched off: some reading that
    counts was below [cut], and no later one was above [resume]. *)
Definition off_after (cut resume : Z) (xs : list reading) : Prop :=
  exists before x after, xs = before ++ x :: after /\ expired x = true /\ filtered x < cut /\
    forall y, In y after -> expired y = true -> filtered y <= resume.

(** The picture of a switched-off node with [k] LEDs in its buffer: two dim red
    LEDs, the others dark; and of a switched-off controller: the left status LED
    dim red, the other LEDs dark. *)
Definition off_picture (k : nat) : list rgb := mkRGB 4 0 0 :: mkRGB 4 0 0 :: repeat (mkRGB 0 0 0) (k - 2).
Definition ctrl_off_picture : list rgb :=
  repeat (mkRGB 0 0 0) 7 ++ mkRGB 8 0 0 :: repeat (mkRGB 0 0 0) 34.
