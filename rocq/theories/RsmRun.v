(** Executable histories, used for the examples and the refutations. *)
From Coq Require Import ZArith Lia List Bool.
From Coq Require Import ZifyBool.
From Verif Require Import CInt CIntFacts Packet NetMgr Rsm RsmHist RsmFacts.
Import ListNotations.
Open Scope Z_scope.

Definition zero58 : list Z := repeat 0 58.
Definition is_byteb (b : Z) : bool := (0 <=? b) && (b <? 256).
Definition wf_packetb (p : packet) : bool :=
  (0 <=? pid p) && (pid p <? 65536) && is_byteb (ptype p) && is_byteb (dlen p) &&
  Nat.eqb (length (pdata p)) 58 && forallb is_byteb (pdata p).

Definition op_okb (o : op) : bool :=
  match o with
  | OTick (Some p) => wf_packetb p
  | OSetEffect p => wf_packetb p
  | _ => true
  end.

Fixpoint exec (e : env) (last : Z) (n : node) (calls : list (Z * op)) : option (list event * node) :=
  match calls with
  | [] => Some ([], n)
  | (t, o) :: rest =>
      if (last <=? t) && op_okb o then
        match step e (u32 t) o n with
        | Ok (_, n', out) =>
            match exec e t n' rest with
            | Some (h, m) => Some (mkEv t o n n' out :: h, m)
            | None => None
            end
        | _ => None
        end
      else None
  end.

(** A node constructed at t0, uninitialised members zero, then the calls. *)
Definition start (e : env) (t0 : Z) : node :=
  match construct e (u32 t0) 0 0 zero58 zero58 with
  | Ok n => n
  | _ => raw_node 0 0 [] []
  end.

Definition execute (e : env) (t0 : Z) (calls : list (Z * op)) : option (list event * node) :=
  exec e t0 (start e t0) calls.

Lemma wf_packetb_ok p : wf_packetb p = true -> wf_packet p.
Proof.
  unfold wf_packetb, wf_packet, is_byteb, is_byte. rewrite !andb_true_iff.
  intros [[[[[A B] C] D] E] F].
  rewrite forallb_forall in F. apply PeanoNat.Nat.eqb_eq in E.
  repeat split; try lia. apply Forall_forall. intros x I. apply F in I.
  unfold is_byteb in I. unfold is_byte. lia.
Qed.

Lemma op_okb_ok o : op_okb o = true -> op_ok o.
Proof. destruct o as [[p|]|p|v|v]; cbn; auto using wf_packetb_ok. Qed.

Lemma exec_hist e t0 calls : forall last h n h' m,
  hist e t0 h n -> t0 <= last -> (forall ev, In ev h -> at_ ev <= last) ->
  exec e last n calls = Some (h', m) -> hist e t0 (h ++ h') m.
Proof.
  induction calls as [|[t o] calls IH]; intros last h n h' m H L1 L2 E; cbn [exec] in E.
  - inversion E; subst. now rewrite app_nil_r.
  - destruct ((last <=? t) && op_okb o) eqn:C; [|discriminate].
    apply andb_true_iff in C as [C1 C2].
    destruct (step e (u32 t) o n) as [[[[] n'] out]| |] eqn:S; try discriminate.
    destruct (exec e t n' calls) as [[h2 m2]|] eqn:X; [|discriminate]. inversion E; subst.
    replace (h ++ mkEv t o n n' out :: h2) with ((h ++ [mkEv t o n n' out]) ++ h2)
      by (rewrite <- app_assoc; reflexivity).
    eapply IH; [| |  |exact X]; [|lia|].
    + constructor; auto; [lia| |now apply op_okb_ok].
      intros ev I. apply L2 in I. lia.
    + intros ev I. apply in_app_or in I as [I|[<-|[]]]; [apply L2 in I; lia|cbn; lia].
Qed.

Lemma execute_hist e t0 calls h n : 0 <= t0 -> execute e t0 calls = Some (h, n) -> hist e t0 h n.
Proof.
  intros P E. unfold execute in E. change h with ([] ++ h). eapply exec_hist; [| | |exact E].
  - unfold start. destruct (construct e (u32 t0) 0 0 zero58 zero58) eqn:C.
    + econstructor; [exact P| | |exact C]; apply wf_packetb_ok; vm_compute; reflexivity.
    + rewrite construct_eq in C. discriminate.
    + rewrite construct_eq in C. discriminate.
  - lia.
  - intros ? [].
Qed.

(** Handy packets. *)
Definition heartbeat_pkt (id t : Z) : packet := writeHeartbeat t (mkPacket id 0 0 zero58).
Definition claim_pkt (id : Z) : packet := mkPacket id 1 0 zero58.
Definition effect_pkt (id i d c : Z) : packet := writeSetEffect i d c (mkPacket id 0 0 zero58).
Definition control_pkt (id d r g b : Z) : packet := writeControl d (mkRGB r g b) (mkPacket id 0 0 zero58).

(** A few environments. *)
Definition env0 (pl : platform) : env := mkEnv pl (fun k => N.of_nat (17 * k + 5)).
Definition env_const (pl : platform) (v : N) : env := mkEnv pl (fun _ => v).

(** [run_as h n H e t0 calls]: evaluate an execution and introduce its history. *)
Ltac run_as H e t0 calls :=
  let r := eval vm_compute in (execute e t0 calls) in
  match r with
  | Some (?h, ?n) =>
      assert (H : hist e t0 h n) by (apply (execute_hist e t0 calls); [lia | vm_compute; reflexivity])
  end.
