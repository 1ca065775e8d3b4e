(** The random source of a device: who seeds it, and when. *)
From Coq Require Import ZArith NArith List Lia.
From Verif Require Import CInt Rsm.
Open Scope Z_scope.

(** The C library's generator is a parameter: [gen s k] is the k-th number
    rand() returns after srand(s) (k counts from 0).  A program that never calls
    srand gets the numbers of srand(1) (C11 7.22.2.2).  The state of the
    generator is the seed and how many numbers were taken since. *)
Definition source : Type := N * nat.
Definition unseeded : source := (1%N, 0%nat).
Definition rand (gen : N -> nat -> N) (s : source) : N * source := (gen (fst s) (snd s), (fst s, S (snd s))).

(** The Arduino core's randomSeed: srand(v), except that 0 does nothing
    (external; contract taken from the Arduino documentation). *)
Definition randomSeed (v : N) (s : source) : source := if N.eqb v 0 then s else (v, 0%nat).

(** /repo/lib/effect/FireflyEffect.cpp line 7: the only place that seeds the
    generator; [a] and [b] are two readings of the analogue pin A0 (10 bits). *)
Definition seed_of (a b : N) : N := N.lor (N.shiftl a 10) b.

(** What a device does with the generator before its main loop runs.
    [state_machine] is a global object, so its constructor, which draws the
    power-up wait (/repo/src/generic/RadioStateMachine.cpp lines 10-17 and
    223-226), runs before setup() (/repo/src/devices/node/node.cpp line 25,
    /repo/src/devices/fancy-node/fancy-node.cc line 29,
    /repo/src/devices/controller/controller.cpp line 67).  The LED manager is
    constructed later (node.cpp lines 34-48 and 76-91, fancy-node.cc lines 61-79
    and 165, controller.cpp line 68); it constructs one FireflyEffect
    (/repo/lib/led_manager/LedManager.cpp line 15), which seeds the generator and
    draws its own offset (FireflyEffect.cpp lines 5-10).  No other constructor
    uses this generator: FireEffect and RorschachEffect draw from FastLED's. *)
Definition boot (gen : N -> nat -> N) (a b : N) : N * source :=
  let (wait, s) := rand gen unseeded in
  let s := randomSeed (seed_of a b) s in
  let (_, s) := rand gen s in
  (wait, s).

(** The numbers the state machine of a device draws: the one drawn at
    construction, then those drawn in the main loop. *)
Definition device_draw (gen : N -> nat -> N) (a b : N) (k : nat) : N :=
  match k with
  | O => fst (boot gen a b)
  | S k => let s := snd (boot gen a b) in gen (fst s) (snd s + k)%nat
  end.

Definition device_env (gen : N -> nat -> N) (a b : N) : env := mkEnv Arduino (device_draw gen a b).

(** An example of a generator, newlib's: x := 6364136223846793005 x + 1 mod 2^64,
    the result is bits 32 to 62 of x. *)
Fixpoint newlib_state (s : N) (k : nat) : N :=
  match k with
  | O => s
  | S k => ((6364136223846793005 * newlib_state s k + 1) mod 18446744073709551616)%N
  end.
Definition newlib (s : N) (k : nat) : N := N.land (N.shiftr (newlib_state s (S k)) 32) 2147483647.
