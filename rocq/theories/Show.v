(** Model of the built-in effect table and of how an LED manager picks the
    current effect: /repo/lib/led_manager/LedManager.cpp lines 7-39 and 51-59. *)
From Coq Require Import ZArith Lia List Bool.
From Verif Require Import CInt Packet NetMgr Fastled Palette Device LedMgr Effects.
Import ListNotations.
Open Scope Z_scope.

(** The random offsets a node draws when its effects are constructed:
    /repo/lib/effect/FireEffect.cpp line 10, FireflyEffect.cpp line 9,
    RorschachEffect.cpp line 10. *)
Record offsets := mkOffsets { fire_offset : Z; firefly_offset : Z; rorschach_offset : Z }.

(** /repo/lib/effect/FireflyEffect.cpp line 9: random(0, kBlinkPeriod / 2) with
    raw random number [raw], stored as uint32_t. *)
Definition draw_firefly_offset (pl : platform) (raw : N) : outcome Z :=
  v <- random2 pl 0 (kBlinkPeriod / 2) raw ;; Ok (u32 v).

(** /repo/lib/led_manager/LedManager.cpp lines 12-35: the registrations. *)
Definition builtin (o : offsets) : list (effect * Z) :=
  [ (ColorCycleEffect, 2);
    (ContrastBumpsEffect, 2);
    (FireEffect (fire_offset o), 1);
    (FireflyEffect (firefly_offset o), 2);
    (LightningEffect, 1);
    (PrideEffect, 1);
    (RainbowBumpsEffect, 4);
    (RainbowEffect, 4);
    (RorschachEffect (rorschach_offset o), 2);
    (SparkEffect, 4);
    (SwingingLights, 4);
    (SwingingLights, 0);
    (StopLightEffect, 0);
    (SimpleBlinkEffect 60, 0);
    (SimpleBlinkEffect 30, 0);
    (SimpleBlinkEffect 12, 0);
    (SimpleBlinkEffect 300, 0);
    (DisplayColorPaletteEffect, 0);
    (DarkEffect, 0) ].

(** The table after the constructor. *)
Definition LedManager (pl : platform) (o : offsets) : outcome (table effect) :=
  add_all pl empty_table (builtin o).

(** /repo/lib/led_manager/LedManager.cpp lines 37-38: the arguments of
    SetNumEffects and SetNumPalettes (uint8_t). *)
Definition announced_effects (t : table effect) : Z := GetNumEffects t.
Definition announced_palettes : Z := u8 (Z.of_nat (length palettes)).

(** /repo/lib/led_manager/LedManager.cpp lines 51-59; [p] is *GetSetEffect(). *)
Definition GetCurrentEffect (pl : platform) (t : table effect) (p : packet) : outcome effect :=
  if ptype p =? SET_CONTROL then Ok ControlEffect
  else
    effect_index <- readEffectIndexFromSetEffect pl p ;;
    GetEffect pl t effect_index.

(** /repo/lib/led_manager/LedManager.cpp lines 92-94: the colour asked for one
    LED. *)
Definition current_pixel (pl : platform) (fl : fastled) (t : table effect) (p : packet)
  (s : strip) (virtual_index time : Z) : outcome rgb :=
  e <- GetCurrentEffect pl t p ;;
  GetRGB pl fl e virtual_index time s p.

(** The whole picture: construct the LED manager, then RunEffect. *)
Definition Show (pl : platform) (fl : fastled) (m : manager) (d : device) (o : offsets) (p : packet)
  (clock : Z -> Z) (buf : list rgb) : outcome (list rgb) :=
  t <- LedManager pl o ;;
  RunEffect pl m d (current_pixel pl fl t p) clock buf.
