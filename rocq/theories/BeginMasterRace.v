(** The one place where two readings of the clock in one call can disagree:
    /repo/src/generic/RadioStateMachine.cpp lines 228-240, beginMaster, here with
    every call of millis() written out.  [c i] is the (i+1)-th reading. *)
From Coq Require Import ZArith Lia List Bool.
From Verif Require Import CInt Packet NetMgr Rsm.
Import ListNotations.
Open Scope Z_scope.

Definition beginMaster_clock (e : env) (c : nat -> Z) : M unit :=
  SendHeartbeat e (c 0%nat) ;;
  SetTimer (c 1%nat) TimerHeartbeat kMasterHeartbeatInterval ;;
  SetTimer (c 2%nat) TimerBroadcastEffect kBroadcastEffectInterval ;;
  s <-- mget seen_at;
  if kChangeEffectInterval <? u32 (c 3%nat - s)
  then SetTimer (c 4%nat) TimerChangeEffect 1
  else SetTimer (c 5%nat) TimerChangeEffect (u32 (kChangeEffectInterval - u32 (c 4%nat - s))).
