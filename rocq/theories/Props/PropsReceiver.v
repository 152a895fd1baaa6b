(** The properties of the queue of received broadcasts (C55, C56). *)
From Coq Require Import List NArith Bool Arith.
From Verif.Model Require Import Receiver.
From Verif.Spec Require Import ReceiverSpec.
From Verif.Proof Require Import ReceiverFacts.
Import ListNotations.

(** C55. For every interleaving of pushes, pops, steps of callers and tasks and cancellations: the
    broadcasts taken so far, in the order they were taken, followed by the queued ones are exactly
    the pushed ones in the order of the pushes; no call takes two; a call returns what it took and
    every taken broadcast is returned by the call that took it (at the latest at its next step); and
    a broadcast is only taken at the end of the list, by a step of the caller that takes it. *)
Theorem c55_order : forall (T : Type) (evs : list (rcv_event T)), let s := rcv_run (rcv_new T) evs in
  pushes evs = map snd (rc_log s) ++ rc_data s
  /\ NoDup (map fst (rc_log s))
  /\ (forall i v, returned s i v -> In (i, v) (rc_log s))
  /\ (forall i v, In (i, v) (rc_log s) -> returned s i v \/ returned (rcv_step s (RConsumer i)) i v)
  /\ (forall e, rc_log (rcv_step s e) = rc_log s \/ exists i v, e = RConsumer i /\ rc_log (rcv_step s e) = rc_log s ++ [(i, v)]).
Proof. exact (@receiver_order). Qed.
Print Assumptions c55_order.

Example c55_order_case : let s := rcv_run (rcv_new nat) two_callers in
  rc_log s = [(1, 5); (0, 6)] /\ rc_data s = [] /\ returned s 1 5 /\ ~ returned s 0 6.
Proof. vm_compute. repeat split; discriminate. Qed.

(** C55. After any interleaving without cancellation, let the callers and tasks run: after a bounded
    number of fair rounds nothing moves any more, and if a caller still waits then no broadcast is
    queued. *)
Theorem c55_woken : forall (T : Type) (evs : list (rcv_event T)) rounds more, let s := rcv_run (rcv_new T) evs in
  cancels evs = 0 -> Forall (fair_round s) rounds -> settling s < length rounds -> forallb internal more = true ->
  let s' := rcv_run s (concat rounds ++ more) in
  resting s' /\ (waits s' -> rc_data s' = []).
Proof. exact (@receiver_woken_uncancelled). Qed.
Print Assumptions c55_woken.

Example c55_woken_case : let s := rcv_run (rcv_new nat) [RPop; RConsumer 0; RPop; RConsumer 1; RConsumer 1; RConsumer 1; RConsumer 0; RConsumer 0; RPush 5] in
  let s' := rcv_run s (concat (repeat one_round 23)) in
  Forall (fair_round s) (repeat one_round 23) /\ settling s < 23 /\ waits s /\ rc_data s = [5]
  /\ waits s' /\ rc_data s' = [] /\ returned s' 1 5.
Proof. exact woken_case. Qed.

(** C56 is false: after a cancelled wait a later broadcast may stay queued while another caller keeps
    waiting, however long everything runs. *)
Theorem c56_refuted : ~ (forall evs rounds more, let s := rcv_run (rcv_new nat) evs in
  Forall (fair_round s) rounds -> settling s < length rounds -> forallb internal more = true ->
  let s' := rcv_run s (concat rounds ++ more) in waits s' -> rc_data s' = []).
Proof. exact abandoned_starves. Qed.
Print Assumptions c56_refuted.

(** C56. Moreover a cancelled wait leaves the receiver locked: the task of a later broadcast never ends
    although nobody waits. *)
Theorem c56_spins_refuted : forall l, forallb internal l = true ->
  let s := rcv_run (rcv_run (rcv_new nat) spun) l in
  ~ waits s /\ exists t, nth_error (rc_tasks s) 1 = Some t /\ (t = TCheck \/ t = TTry).
Proof. exact abandoned_spins. Qed.
Print Assumptions c56_spins_refuted.

(** C56. What remains true: with cancellations, after enough fair rounds a caller only waits in vain
    for as many broadcasts as waits were cancelled.  Missing: that it never waits in vain. *)
Theorem c56_bounded_partial : forall (T : Type) (evs : list (rcv_event T)) rounds more, let s := rcv_run (rcv_new T) evs in
  Forall (fair_round s) rounds -> settling s < length rounds -> forallb internal more = true ->
  let s' := rcv_run s (concat rounds ++ more) in
  resting s' /\ (waits s' -> length (rc_data s') <= cancels evs).
Proof. exact (@receiver_woken). Qed.
Print Assumptions c56_bounded_partial.

Example c56_bounded_case : let s := rcv_run (rcv_new nat) abandoned in
  let s' := rcv_run s (concat (repeat one_round 23)) in
  Forall (fair_round s) (repeat one_round 23) /\ settling s < 23 /\ waits s' /\ rc_data s' = [7] /\ cancels abandoned = 1.
Proof. exact abandoned_case. Qed.
