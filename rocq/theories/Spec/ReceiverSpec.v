(** Waiting for broadcasts, in words. *)
From Coq Require Import List NArith Bool Arith.
From Verif.Model Require Import Receiver.
Import ListNotations.

Section Words.
Context {T : Type}.

(** The caller waits: it found the queue empty and has not been woken. *)
Definition waiting (c : consumer T) : bool :=
  match c with CPark | CArrive _ | CParked _ => true | _ => false end.
Definition cancels (evs : list (rcv_event T)) : nat :=
  length (filter (fun e => match e with RCancel _ => true | _ => false end) evs).

(** A step of the program itself, and a round in which every caller and task of [s] runs at least
    twice, in any order and with any further steps. *)
Definition internal (e : rcv_event T) : bool :=
  match e with RConsumer _ | RTask _ => true | _ => false end.
Definition runs (same : rcv_event T -> bool) (l : list (rcv_event T)) : nat := length (filter same l).
Definition fair_round (s : rcv T) (l : list (rcv_event T)) : Prop :=
  forallb internal l = true
  /\ (forall i, i < length (rc_consumers s) -> 2 <= runs (fun e => match e with RConsumer k => k =? i | _ => false end) l)
  /\ (forall j, j < length (rc_tasks s) -> 2 <= runs (fun e => match e with RTask k => k =? j | _ => false end) l).

(** Nothing happens any more without a new push or pop: callers have returned, were cancelled or are
    suspended; tasks have ended, are suspended, or look in vain for a barrier. *)
Definition resting (s : rcv T) : Prop :=
  Forall (fun c => match c with CParked _ | CDone _ | CCancelled => True | _ => False end) (rc_consumers s)
  /\ Forall (fun t => match t with
                      | TDone | TParked _ => True
                      | TCheck | TTry => rc_barriers s = [] /\ rc_lock s <> 0
                      | TArrive _ => False
                      end) (rc_tasks s).

(** Enough rounds for everything to settle. *)
Definition settling (s : rcv T) : nat := 6 * length (rc_consumers s) + 10 * length (rc_tasks s).
Definition waits (s : rcv T) : Prop := exists c, In c (rc_consumers s) /\ waiting c = true.

(** What a call returned. *)
Definition returned (s : rcv T) (i : nat) (v : T) : Prop := nth_error (rc_consumers s) i = Some (CDone v).
End Words.

Definition pushes {T} (evs : list (rcv_event T)) : list T :=
  flat_map (fun e => match e with RPush v => [v] | _ => [] end) evs.

(** Sample histories: a wait cancelled while another caller waits and before a broadcast arrives, a
    fair round of it, a wait cancelled before two broadcasts, and two callers that race. *)
Definition abandoned : list (rcv_event nat) :=
  [RPop; RConsumer 0; RConsumer 0; RConsumer 0; RConsumer 0; RCancel 0; RPop; RConsumer 1; RConsumer 1; RConsumer 1; RConsumer 1; RPush 7].
Definition one_round : list (rcv_event nat) := [RConsumer 0; RConsumer 1; RTask 0; RTask 0; RConsumer 1; RConsumer 0].
Definition spun : list (rcv_event nat) :=
  [RPop; RConsumer 0; RConsumer 0; RConsumer 0; RConsumer 0; RCancel 0; RPush 7; RTask 0; RTask 0; RTask 0; RPush 8].
Definition two_callers : list (rcv_event nat) :=
  [RPop; RConsumer 0; RConsumer 0; RConsumer 0; RPush 5; RPop; RConsumer 1; RConsumer 1; RPush 6; RTask 0; RTask 0; RTask 0;
   RConsumer 1; RConsumer 0; RConsumer 0].
