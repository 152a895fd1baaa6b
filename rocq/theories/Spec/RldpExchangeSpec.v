(** A transfer over a network that loses nothing. *)
From Coq Require Import List NArith Bool.
From Verif.Base Require Import Bytes.
From Verif.Model Require Import ProtoRldp Fec RldpTransfer.
Import ListNotations.
Open Scope N_scope.

(** The sending loop goes on by one step; if that sends a chunk, it arrives, and the reply to it (if any)
    arrives at the sender.  [confirms]: not only [Complete] but also [Confirm] replies. *)
Definition turn (F : fec) (slice : N) (checked confirms : bool) (st : sender * incoming) : sender * incoming :=
  let '(s, t) := st in
  let '(s, out) := send_step F slice checked s EvStep in
  match out with
  | None => (s, t)
  | Some m =>
      if incoming_done t then (s, t)
      else
        let (t, reply) := receive_one F t m in
        (match reply with
         | Some (MpComplete _ part) => fst (send_step F slice checked s (EvComplete part))
         | Some (MpConfirm _ part seqno) =>
             if confirms then fst (send_step F slice checked s (EvConfirm part seqno)) else s
         | _ => s
         end, t)
  end.
Fixpoint turns (F : fec) (slice : N) (checked confirms : bool) (n : nat) (st : sender * incoming) : sender * incoming :=
  match n with
  | O => st
  | S n => turns F slice checked confirms n (turn F slice checked confirms st)
  end.
