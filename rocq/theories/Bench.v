(** Model of two small parts:
    the resistor-ladder buttons, /repo/src/devices/controller/analog-button.cpp
    and analog-button.h, and the radio of the tests,
    /repo/lib/fake-radio/FakeRadio.cpp. *)
From Coq Require Import ZArith Lia List Bool.
From Verif Require Import CInt Packet.
Import ListNotations.
Open Scope Z_scope.

(** ** Resistor-ladder buttons *)

(** analog-button.h lines 29-31. *)
Definition kSwitch1Threshold : Z := 346 / 2.
Definition kSwitch2Threshold : Z := (346 + 678) / 2.
Definition kSwitch3Threshold : Z := (678 + 1023) / 2.

(** analog-button.h lines 21-25: prev_state_ and the three flags. *)
Record abutton := mkAB { prev_state_ : Z; button1_pressed_ : bool; button2_pressed_ : bool; button3_pressed_ : bool }.
Definition ab_init : abutton := mkAB 0 false false false.

(** What the edge filter (an external library) says after its Run(): the
    filtered value, a uint16_t, and Stable(kStableThreshold). *)
Record reading := mkReading { filtered : Z; stable : bool }.

(** analog-button.cpp lines 35-42. *)
Definition ReadAnalog (r : reading) : Z :=
  let input := filtered r in
  if input <? kSwitch1Threshold then 1
  else if input <? kSwitch2Threshold then 2
  else if input <? kSwitch3Threshold then 3
  else 0.

(** analog-button.cpp lines 10-27. *)
Definition AnalogTick (r : reading) (b : abutton) : abutton :=
  let b := mkAB (prev_state_ b) false false false in
  let state := ReadAnalog r in
  if negb (state =? prev_state_ b) && stable r then
    let b := if state =? 1 then mkAB (prev_state_ b) true (button2_pressed_ b) (button3_pressed_ b)
             else if state =? 2 then mkAB (prev_state_ b) (button1_pressed_ b) true (button3_pressed_ b)
             else if state =? 3 then mkAB (prev_state_ b) (button1_pressed_ b) (button2_pressed_ b) true
             else b in
    mkAB state (button1_pressed_ b) (button2_pressed_ b) (button3_pressed_ b)
  else b.

(** analog-button.cpp lines 29-33. *)
Definition Button1Pressed (b : abutton) : bool := button1_pressed_ b.
Definition Button2Pressed (b : abutton) : bool := button2_pressed_ b.
Definition Button3Pressed (b : abutton) : bool := button3_pressed_ b.

(** The object after a sequence of ticks. *)
Definition ab_run (rs : list reading) : abutton := fold_left (fun b r => AnalogTick r b) rs ab_init.

(** ** The radio of the tests *)

(** Objects of type RadioPacket on the heap: address [a] holds [Some p] while
    the object lives.  [fresh] is the next address [new] returns; addresses are
    never reused. *)
Record world := mkWorld {
  heap : nat -> option packet;
  fresh : nat;
  received_packet : option nat;   (* FakeRadio.hpp line 21; None is nullptr *)
  sent_packet : option nat        (* line 22 *)
}.
(** FakeRadio.cpp lines 5-8, in an empty heap. *)
Definition fr_init : world := mkWorld (fun _ => None) 0 None None.

Definition upd {A} (f : nat -> A) (a : nat) (v : A) : nat -> A := fun b => if Nat.eqb b a then v else f b.

(** [new RadioPacket(p)]. *)
Definition new_packet (p : packet) (w : world) : nat * world :=
  (fresh w, mkWorld (upd (heap w) (fresh w) (Some p)) (S (fresh w)) (received_packet w) (sent_packet w)).

(** [*a]; [*a = p]; [delete a]: undefined when the object is gone. *)
Definition deref (a : nat) (w : world) : outcome packet :=
  match heap w a with Some p => Ok p | None => Undef end.
Definition assign (a : nat) (p : packet) (w : world) : outcome world :=
  match heap w a with
  | Some _ => Ok (mkWorld (upd (heap w) a (Some p)) (fresh w) (received_packet w) (sent_packet w))
  | None => Undef
  end.
Definition delete (a : nat) (w : world) : outcome world :=
  match heap w a with
  | Some _ => Ok (mkWorld (upd (heap w) a None) (fresh w) (received_packet w) (sent_packet w))
  | None => Undef
  end.

(** FakeRadio.cpp lines 16-23: [None] is [false] with the argument untouched. *)
Definition fr_readPacket (w : world) : outcome (option packet) :=
  match received_packet w with
  | None => Ok None
  | Some a => p <- deref a w ;; Ok (Some p)
  end.

(** FakeRadio.cpp lines 25-30.  The object [new] makes is overwritten at once. *)
Definition fr_sendPacket (p : packet) (w : world) : outcome world :=
  let '(a, w) := match sent_packet w with
                 | None => let '(a, w) := new_packet p w in
                           (a, mkWorld (heap w) (fresh w) (received_packet w) (Some a))
                 | Some a => (a, w)
                 end in
  assign a p w.

(** The loop of lines 40-42: data[i] = 0 for i = dataLength .. 57. *)
Fixpoint clear_from (todo : nat) (i : Z) (d : list Z) : outcome (list Z) :=
  match todo with
  | O => Ok d
  | S todo' => d <- aset d i 0 ;; clear_from todo' (i + 1) d
  end.

(** FakeRadio.cpp lines 32-43. *)
Definition fr_setReceivedPacket (a : option nat) (w : world) : outcome world :=
  let w := mkWorld (heap w) (fresh w) a (sent_packet w) in
  match a with
  | None => Ok w
  | Some a =>
      p <- deref a w ;;
      d <- clear_from (Z.to_nat (PACKET_DATA_LENGTH - dlen p)) (dlen p) (pdata p) ;;
      assign a (mkPacket (pid p) (ptype p) (dlen p) d) w
  end.

(** FakeRadio.cpp lines 45-49. *)
Definition fr_getSentPacket (w : world) : option nat * world :=
  (sent_packet w, mkWorld (heap w) (fresh w) (received_packet w) None).

(** FakeRadio.cpp lines 10-14: the destructor. *)
Definition fr_destroy (w : world) : outcome world :=
  match sent_packet w with None => Ok w | Some a => delete a w end.

(** What a test and the code under test do to the radio. *)
Inductive fr_op :=
| FNew (p : packet)              (* the test makes a packet *)
| FWrite (a : nat) (p : packet)  (* the test changes a packet *)
| FDelete (a : nat)              (* the test deletes a packet *)
| FSet (a : option nat)
| FRead
| FSend (p : packet)
| FGet.

(** What the caller sees. *)
Inductive fr_ret :=
| RNone
| RAddr (a : option nat)         (* a pointer: from FNew and FGet *)
| RPacket (p : option packet).   (* from FRead *)

Definition fr_step (o : fr_op) (w : world) : outcome (fr_ret * world) :=
  match o with
  | FNew p => let '(a, w) := new_packet p w in Ok (RAddr (Some a), w)
  | FWrite a p => w <- assign a p w ;; Ok (RNone, w)
  | FDelete a => w <- delete a w ;; Ok (RNone, w)
  | FSet a => w <- fr_setReceivedPacket a w ;; Ok (RNone, w)
  | FRead => r <- fr_readPacket w ;; Ok (RPacket r, w)
  | FSend p => w <- fr_sendPacket p w ;; Ok (RNone, w)
  | FGet => let '(a, w) := fr_getSentPacket w in Ok (RAddr a, w)
  end.

Fixpoint fr_run (os : list fr_op) (w : world) : outcome (list fr_ret * world) :=
  match os with
  | [] => Ok ([], w)
  | o :: rest =>
      ' (r, w) <- fr_step o w ;;
      ' (rs, w) <- fr_run rest w ;;
      Ok (r :: rs, w)
  end.
