(** Model of NetworkManager: /repo/src/generic/NetworkManager.cpp and .hpp, and
    of the two-argument random: /repo/lib/types/Types.cpp. *)
From Coq Require Import ZArith Lia List Bool.
From Verif Require Import CInt Packet.
Import ListNotations.
Open Scope Z_scope.

(** [random(min, max)] from one raw draw [raw] (a non-negative integer).
    Host: /repo/lib/types/Types.cpp line 6: [min + (rand() % max)] converted to
    uint16_t; max = 0 divides by zero.
    Arduino: the core's [long random(long, long)]: the lower bound if the range
    is empty, otherwise min + raw mod (max - min).  (External; contract taken
    from the Arduino reference: a number in [min, max).) *)
Definition random2 (pl : platform) (lo hi : Z) (raw : N) : outcome Z :=
  match pl with
  | Host => if hi =? 0 then Undef else Ok (u16 (lo + Z.of_N raw mod hi))
  | Arduino => Ok (if hi <=? lo then lo else lo + Z.of_N raw mod (hi - lo))
  end.

(** One call of [Radio::sendPacket], tagged with its call site: [Relay] is
    NetworkManager.cpp line 22, [Orig] is NetworkManager.cpp line 32. *)
Inductive tx := Relay (p : packet) | Orig (p : packet).
Definition tx_packet (t : tx) : packet := match t with Relay p => p | Orig p => p end.

(** /repo/src/generic/NetworkManager.hpp line 25. *)
Definition kRecentIdsCacheSize : Z := 5.

(** /repo/src/generic/NetworkManager.hpp lines 30-38: the data members. *)
Record netmgr := mkNm {
  nm_cache : list Z;  (* std::array<uint16_t, 5> recent_ids_cache_ *)
  nm_index : Z        (* uint8_t recent_ids_cache_index_ *)
}.

(** /repo/src/generic/NetworkManager.cpp lines 5-8. *)
Definition nm_init : netmgr := mkNm (repeat 0 (Z.to_nat kRecentIdsCacheSize)) 0.

(** /repo/src/generic/NetworkManager.cpp lines 36-39. *)
Definition nm_add (m : netmgr) (id : Z) : outcome netmgr :=
  c <- aset (nm_cache m) (nm_index m) id ;;
  let idx := u8 (nm_index m + 1) in
  Ok (mkNm c (idx mod kRecentIdsCacheSize)).

(** /repo/src/generic/NetworkManager.cpp lines 10-26.  [inc] is what
    [radio_->readPacket] delivers.  Result: [Some p] when receive returns true
    (p is the packet handed to the caller), [None] when it returns false. *)
Definition nm_receive (m : netmgr) (inc : option packet)
  : outcome (option packet * netmgr * list tx) :=
  match inc with
  | None => Ok (None, m, [])
  | Some p =>
      if existsb (fun x => x =? pid p) (nm_cache m) then Ok (None, m, [])
      else
        m' <- nm_add m (pid p) ;;
        Ok (Some p, m', [Relay p])
  end.

(** /repo/src/generic/NetworkManager.cpp lines 28-34.  The packet is passed by
    reference: the caller's packet gets the new id. *)
Definition nm_send (pl : platform) (raw : N) (m : netmgr) (p : packet)
  : outcome (packet * netmgr * list tx) :=
  id <- random2 pl 2 65535 raw ;;
  let p' := mkPacket (u16 id) (ptype p) (dlen p) (pdata p) in
  m' <- nm_add m (pid p') ;;
  Ok (p', m', [Orig p']).
