(** The controller's way into its boot loader: the top of [setup] in
    /repo/src/devices/controller/controller.cpp lines 400-435.

    The processor's real-time clock keeps running while the processor is reset
    (it stops only when the power goes away).  The clock is external (library
    STM32RTC); it is modelled by the time it shows, in seconds since 1970 and
    milliseconds of the running second.

    Not modelled: the time between the reading of the clock and its setting
    (microseconds), the jump itself (lines 363-398), the rest of [setup]. *)
From Coq Require Import ZArith List Bool.
Import ListNotations.
Open Scope Z_scope.

(** Lines 401-402. *)
Definition kEpochTimer : Z := 1451606400.
Definition kEpochReset : Z := 1441606400.

Record rtc := mkRtc { r_epoch : Z; r_sub : Z }.

(** The clock has a two-digit year: it runs from the start of 2000 to the end of
    2099 (36525 days) and then starts over. *)
Definition year_2000 : Z := 946684800.
Definition century : Z := 36525 * 86400.

(** [d] milliseconds later. *)
Definition elapse (d : Z) (r : rtc) : rtc :=
  mkRtc (year_2000 + (r_epoch r - year_2000 + (r_sub r + d) / 1000) mod century) ((r_sub r + d) mod 1000).

(** Setting the time.  [restarts] says whether setEpoch also begins a new second
    (in the hardware the fraction of the second is reset when the time is
    written); otherwise the running second goes on. *)
Definition setEpoch (restarts : bool) (e : Z) (r : rtc) : rtc := mkRtc e (if restarts then 0 else r_sub r).
Definition setSubSeconds (s : Z) (r : rtc) : rtc := mkRtc (r_epoch r) s.

(** How a pass through lines 419-435 ends. *)
Inductive action := Run | SoftwareReset | JumpToBootloader.

(** Lines 419-435. *)
Definition setup_clock (restarts : bool) (r : rtc) : rtc * action :=
  let sub_seconds := r_sub r in
  if (r_epoch r =? kEpochTimer) && (100 <? sub_seconds) then (setEpoch restarts kEpochReset r, SoftwareReset)
  else if r_epoch r =? kEpochReset then (setEpoch restarts kEpochTimer r, JumpToBootloader)
  else (setSubSeconds 0 (setEpoch restarts kEpochTimer r), Run).

Inductive program := Application | Bootloader.

(** From entering [setup] until a program runs: after each software reset [setup]
    is entered again; [delays] says how long that takes each time.  [None]: the
    board is still restarting when the list ends. *)
Fixpoint boot (restarts : bool) (delays : list Z) (r : rtc) : option (rtc * program) :=
  match setup_clock restarts r with
  | (r, Run) => Some (r, Application)
  | (r, JumpToBootloader) => Some (r, Bootloader)
  | (r, SoftwareReset) =>
      match delays with [] => None | d :: rest => boot restarts rest (elapse d r) end
  end.

(** A press of the reset button: how long after the clock was set last [setup]
    gets to read it, and how long the software resets take. *)
Record press := mkPress { p_after : Z; p_delays : list Z }.

(** The programs that run, one after the other, when the button is pressed again
    and again. *)
Fixpoint presses (restarts : bool) (ps : list press) (r : rtc) : option (list program) :=
  match ps with
  | [] => Some []
  | p :: rest =>
      match boot restarts (p_delays p) (elapse (p_after p) r) with
      | None => None
      | Some (r, x) => match presses restarts rest r with None => None | Some xs => Some (x :: xs) end
      end
  end.

(** The board is switched on, the clock showing [r], and then the button is
    pressed again and again. *)
Definition switched_on (restarts : bool) (r : rtc) (ps : list press) : option (list program) :=
  match boot restarts [] r with
  | None => None
  | Some (r, x) => match presses restarts ps r with None => None | Some xs => Some (x :: xs) end
  end.
