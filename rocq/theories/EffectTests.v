(** Model of /repo/test/EffectsTest.cpp and /repo/test/LedManagerTest.cpp,
    statement by statement, with the test bench of UnitTests.v.

    Here the object under test is a state machine together with the LED manager
    of the tests.  An [Effect*] is the object's number in the order of
    construction, beside the object itself: the tests compare pointers. *)
From Coq Require Import ZArith Lia List Bool.
From Verif Require Import CInt Packet NetMgr Rsm Bench UnitTests Fastled Palette Device LedMgr Effects Show.
Import ListNotations.
Open Scope Z_scope.

Definition pointer_to : Type := nat * effect.

(** One call of RunEffect, for the record only: the object that gave the
    colours, the number of the palette in the packet, and the network time. *)
Record drawing := mkDrawing { dr_object : nat; dr_palette : Z; dr_time : Z }.

(** The members of the fixture, EffectsTest.cpp lines 18-21, and the LED
    manager's array [leds]. *)
Record stand := mkStand { st_node : node; st_leds : list rgb; st_drawn : list drawing }.

(** A call on the state machine alone. *)
Definition on_node {A} (c : T node A) : T stand A := fun g =>
  match c (mkRig (g_now g) (st_node (g_sut g)) (g_radio g) (g_ok g)) with
  | Ok (a, h) => Ok (a, mkRig (g_now h) (mkStand (g_sut h) (st_leds (g_sut g)) (st_drawn (g_sut g))) (g_radio h) (g_ok h))
  | Undef => Undef
  | Abort => Abort
  end.

(** The constructors' registrations (LedManager.cpp lines 12-35), with the
    number of each object. *)
Definition numbered {E} (regs : list (E * Z)) : list ((nat * E) * Z) :=
  map (fun kr => ((fst kr, fst (snd kr)), snd (snd kr))) (combine (seq 0 (length regs)) regs).
(** control_effect (LedManager.cpp line 11) is an object of its own. *)
Definition control_pointer : pointer_to := (1000%nat, ControlEffect).

(** /repo/lib/led_manager/LedManager.cpp lines 51-59, with pointers. *)
Definition CurrentPointer (t : table pointer_to) (p : packet) : outcome pointer_to :=
  if ptype p =? SET_CONTROL then Ok control_pointer
  else
    effect_index <- readEffectIndexFromSetEffect Host p ;;
    GetEffect Host t effect_index.

Section Manager.
Variable e : env.
Variable fl : fastled.

(** [new FakeLedManager(device, &state_machine)]: FakeLedManager.cpp lines 5-11
    and LedManager.cpp lines 7-39.  CRGB's constructor leaves its memory as it
    is: [memory]. *)
Definition new_manager (o : offsets) (memory : list rgb) : T stand (table pointer_to) :=
  t <~ lifting (add_all Host empty_table (numbered (builtin o)));
  on_node (set_num_effects (GetNumEffects t)) ;~
  on_node (set_num_palettes (Z.of_nat (length palettes))) ;~
  fun g => Ok (Some t, mkRig (g_now g) (mkStand (st_node (g_sut g)) memory (st_drawn (g_sut g))) (g_radio g) (g_ok g)).

(** [delete manager]: every effect the destructor deletes must exist
    (LedManager.cpp lines 41-49). *)
Definition delete_manager (t : table pointer_to) : T stand unit :=
  _ <~ lifting (destroy t control_pointer); tret tt.

(** [manager->GetCurrentEffect()]. *)
Definition current_pointer (t : table pointer_to) : T stand pointer_to := fun g =>
  lifting (CurrentPointer t (GetSetEffect (st_node (g_sut g)))) g.

(** [manager->RunEffect()]: LedManager.cpp lines 76-107.  The clock of the tests
    stands still meanwhile. *)
Definition run_effect (d : device) (t : table pointer_to) : T stand unit := fun g =>
  let n := st_node (g_sut g) in
  let p := GetSetEffect n in
  let time := GetNetworkMillis (g_now g) n in
  leds <- RunEffect Host Fake d (fun s i tm => x <- CurrentPointer t p ;; GetRGB Host fl (snd x) i tm s p)
            (fun _ => time) (st_leds (g_sut g)) ;;
  let note := match CurrentPointer t p with
              | Ok x => [mkDrawing (fst x) (nth 2 (pdata p) 0) time]
              | _ => []
              end in
  Ok (Some tt, mkRig (g_now g) (mkStand n leds (st_drawn (g_sut g) ++ note)) (g_radio g) (g_ok g)).

(** The loop of EffectsTest.cpp lines 40-43 and 108-111, over the times it
    takes. *)
Fixpoint draw_at (d : device) (t : table pointer_to) (ts : list Z) : T stand unit :=
  match ts with
  | [] => tret tt
  | x :: rest => setMillis x ;~ run_effect d t ;~ draw_at d t rest
  end.

(** [for (uint32_t time = 0; time < maxTime; time += time_step)]: the values of
    [time].  Simplification: a closed form; maxTime + time_step < 2^32 in all
    tests, so nothing wraps. *)
Definition loop_times (maxTime time_step : Z) : list Z :=
  map (fun k => Z.of_nat k * time_step) (seq 0 (Z.to_nat ((maxTime + time_step - 1) / time_step))).

(** EffectsTest.cpp lines 28-44 and 93-113: for each effect number and palette
    number, in order; [a] is the test's packet and [ran] is ran_effects. *)
Fixpoint run_all (d : device) (t : table pointer_to) (ts : list Z) (a : nat) (asked : list (Z * Z)) (ran : list nat)
  : T stand unit :=
  match asked with
  | [] => tret tt
  | (i, k) :: rest =>
      p <~ load (Some a);
      store (Some a) (writeSetEffect i 0 k p) ;~
      on_node (set_effect e a) ;~
      effect <~ current_pointer t;
      if existsb (Nat.eqb (fst effect)) ran then run_all d t ts a rest ran
      else draw_at d t ts ;~ run_all d t ts a rest (ran ++ [fst effect])
  end.

(** [for (uint8_t i = 0; i < n; i++)]. *)
Definition numbers (n : Z) : list Z := map Z.of_nat (seq 0 (Z.to_nat n)).

(** EffectsTest.cpp lines 25-45: runEffectsTest; [j] is what the memory of its
    packet held. *)
Definition runEffectsTest (j : junk) (d : device) (t : table pointer_to) (maxTime time_step : Z) : T stand unit :=
  a <~ declare (j_type j) (j_data j);
  run_all d t (loop_times maxTime time_step) a (map (fun i => (i, 0)) (numbers (GetNumEffects t))) [].

(** EffectsTest.cpp lines 47-53, 55-61 and 74-84: one device, all effects for a
    minute.  [o] are the random offsets of the effects, [memory] the contents of
    the new array. *)
Definition on_device (j : junk) (o : offsets) (memory : list rgb) (d : device) (maxTime time_step : Z) : T stand unit :=
  t <~ new_manager o memory;
  runEffectsTest j d t maxTime time_step ;~
  delete_manager t.

Definition one_led : device := DeviceDescription 2000 [StripDescription 1 []].
Definition hundred_leds : device := DeviceDescription 2000 [StripDescription 100 []].
Definition three_strips : device :=
  DeviceDescription 2000 [StripDescription 20 []; StripDescription 10 [Tiny]; StripDescription 12 [Circular]].
Definition oneLed (j : junk) (o : offsets) (m : list rgb) : T stand unit := on_device j o m one_led 60000 1.
Definition hundredLeds (j : junk) (o : offsets) (m : list rgb) : T stand unit := on_device j o m hundred_leds 60000 1.
Definition multipleStrips (j : junk) (o : offsets) (m : list rgb) : T stand unit :=
  expect (GetLedCount three_strips =? 42) ;~ on_device j o m three_strips 60000 1.

(** EffectsTest.cpp lines 63-72; every round makes a new LED manager for the
    same state machine. *)
Definition strip_of (num_leds : Z) : device := DeviceDescription 2000 [StripDescription num_leds []].
Fixpoint led_values (j : junk) (os : Z -> offsets) (ms : Z -> list rgb) (todo : list Z) : T stand unit :=
  match todo with
  | [] => tret tt
  | num_leds :: rest => on_device j (os num_leds) (ms num_leds) (strip_of num_leds) 10000 100 ;~ led_values j os ms rest
  end.
Definition allLedValues (j : junk) (os : Z -> offsets) (ms : Z -> list rgb) : T stand unit :=
  led_values j os ms (numbers 256).

(** EffectsTest.cpp lines 86-115. *)
Definition allColorPalettes (j : junk) (o : offsets) (m : list rgb) : T stand unit :=
  t <~ new_manager o m;
  a <~ declare (j_type j) (j_data j);
  run_all (strip_of 20) t (loop_times 60000 10) a
    (list_prod (numbers (GetNumEffects t)) (numbers (Z.of_nat (length palettes)))) [] ;~
  delete_manager t.

(** The fixture: the state machine is constructed at whatever time the clock of
    the tests shows, and the radio is destroyed at the end. *)
Definition on_stand (now : Z) (j1 j2 : junk) (body : T stand unit) : outcome (option unit * rig stand) :=
  n <- construct e now (j_type j1) (j_type j2) (j_data j1) (j_data j2) ;;
  body (mkRig now (mkStand n [] []) fr_init true).

(** ** /repo/test/LedManagerTest.cpp *)

(** EXPECT_EQ and EXPECT_NE of two colours. *)
Definition same_rgb (c c' : rgb) : bool := (red c =? red c') && (green c =? green c') && (blue c =? blue c').

(** LedManagerTest.cpp lines 10-46: hasNonRandomEffects.  The new objects get
    the numbers after those of the constructor. *)
Definition hasNonRandomEffects (j : junk) (o : offsets) (memory : list rgb) (fire : Z) : T stand unit :=
  let s := StripDescription 1 [] in
  expect (GetLedCount (DeviceDescription 2000 [s]) =? 1) ;~
  t <~ new_manager o memory;
  cleared <~ lifting (ClearEffects t);
  t <~ lifting (AddEffect Host (snd cleared) (19%nat, SimpleBlinkEffect 10) 4);
  t <~ lifting (AddEffect Host t (20%nat, PoliceEffect) 0);
  t <~ lifting (AddEffect Host t (21%nat, FireEffect fire) 2);
  expect (GetNumEffects t =? 6) ;~
  expect (GetNumUniqueEffects t =? 3) ;~
  i <~ lifting (UniqueEffectNumberToIndex t 0);
  expect (i =? 0) ;~
  i <~ lifting (UniqueEffectNumberToIndex t 1);
  expect (i =? 4) ;~
  i <~ lifting (UniqueEffectNumberToIndex t 2);
  expect (i =? 6) ;~
  a <~ declare (j_type j) (j_data j);
  p <~ load (Some a);
  store (Some a) (writeSetEffect 0 0 0 p) ;~
  p <~ load (Some a);
  effect1 <~ lifting (GetEffect Host t 0);
  alsoEffect1 <~ lifting (GetEffect Host t 1);
  effect2 <~ lifting (GetEffect Host t 4);
  effect3 <~ lifting (GetEffect Host t 6);
  x <~ lifting (GetRGB Host fl (snd effect1) 0 0 s p);
  y <~ lifting (GetRGB Host fl (snd alsoEffect1) 0 0 s p);
  expect (same_rgb x y) ;~
  x <~ lifting (GetRGB Host fl (snd effect1) 0 0 s p);
  y <~ lifting (GetRGB Host fl (snd effect2) 0 0 s p);
  expect (negb (same_rgb x y)) ;~
  x <~ lifting (GetRGB Host fl (snd effect1) 0 15 s p);
  y <~ lifting (GetRGB Host fl (snd effect3) 0 15 s p);
  expect (negb (same_rgb x y)) ;~
  x <~ lifting (GetRGB Host fl (snd effect2) 0 0 s p);
  y <~ lifting (GetRGB Host fl (snd effect3) 0 0 s p);
  expect (negb (same_rgb x y)) ;~
  delete_manager t.

(** LedManagerTest.cpp lines 48-58: effectIndexIsInRange. *)
Definition effectIndexIsInRange (o : offsets) (memory : list rgb) : T stand unit :=
  expect (GetLedCount (DeviceDescription 2000 [StripDescription 1 []]) =? 1) ;~
  t <~ new_manager o memory;
  delete_manager t.

(** [manager.GetLed(i)]: FakeLedManager.cpp lines 21-26. *)
Definition GetLed (d : device) (led_index : Z) : T stand rgb := fun g =>
  lifting (_ <- oassert Host (led_index <? GetLedCount d) ;; aget (st_leds (g_sut g)) led_index) g.

Fixpoint expect_leds (d : device) (want : list (Z * Z)) : T stand unit :=
  match want with
  | [] => tret tt
  | (i, r) :: rest => c <~ GetLed d i; expect (red c =? r) ;~ expect_leds d rest
  end.

(** LedManagerTest.cpp lines 60-94: TestEffect, whose colour is CRGB(led_index,
    0, 0), and callStripInReverse.  The table has one entry, object 19, which is
    this effect; [Effects.effect] has no case for it, so the drawing is spelt
    out here. *)
Definition callStripInReverse (j : junk) (o : offsets) (memory : list rgb) : T stand unit :=
  let d := DeviceDescription 2000 [StripDescription 5 [Reversed]] in
  expect (GetLedCount d =? 5) ;~
  t <~ new_manager o memory;
  cleared <~ lifting (ClearEffects t);
  t <~ lifting (AddEffect Host (empty_table (E := nat)) 19%nat 1);
  a <~ declare (j_type j) (j_data j);
  p <~ load (Some a);
  store (Some a) (writeSetEffect 0 0 0 p) ;~
  on_node (set_effect e a) ;~
  (fun g =>
     let n := st_node (g_sut g) in
     let p := GetSetEffect n in
     leds <- RunEffect Host Fake d
               (fun s i tm => i' <- readEffectIndexFromSetEffect Host p ;;
                              _ <- GetEffect Host t i' ;; Ok (mkRGB i 0 0))
               (fun _ => GetNetworkMillis (g_now g) n) (st_leds (g_sut g)) ;;
     Ok (Some tt, mkRig (g_now g) (mkStand n leds (st_drawn (g_sut g))) (g_radio g) (g_ok g))) ;~
  expect_leds d [(0, 4); (1, 3); (2, 2); (3, 1); (4, 0)] ;~
  _ <~ lifting (destroy t 1000%nat);
  tret tt.
End Manager.
