(** C86: the library cannot be brought to a standstill by its own locks. *)
From Coq Require Import List Arith Bool Lia.
From Verif.Model Require Import Locks.
From Verif.Spec Require Import LocksSpec.
From Verif.Proof Require Import LocksFacts.
Import ListNotations.

(** However many tasks use the library, and whatever they are scheduled, everybody gets through: after as
    many rounds as there are steps to take all have finished and hold nothing. *)
Theorem c86_finishes_partial : forall writers_first order tasks rounds,
  Forall (Forall (well_used order)) tasks -> Forall (round (length tasks)) rounds ->
  work (map start tasks) <= length rounds ->
  Forall finished (lock_run writers_first (map start tasks) (concat rounds)).
Proof. exact locks_finish. Qed.
Print Assumptions c86_finishes_partial.
Example c86_finishes_example :
  Forall (Forall (well_used (fun i => i))) busy_tasks /\ Forall (round (length busy_tasks)) busy_rounds /\
  work (map start busy_tasks) <= length busy_rounds /\ 50 < work (map start busy_tasks).
Proof.
  split; [|split; [|split]].
  - repeat constructor; cbn; lia.
  - unfold busy_rounds. apply Forall_forall. intros r Hr. apply repeat_spec in Hr. subst r.
    intros i Hi. cbn in *. lia.
  - vm_compute. lia.
  - vm_compute. lia.
Qed.

(** No state that can be reached is a deadlock. *)
Theorem c86_never_stuck_partial : forall writers_first order tasks sched,
  Forall (Forall (well_used order)) tasks -> ~ deadlocked writers_first (lock_run writers_first (map start tasks) sched).
Proof. exact locks_never_stuck. Qed.
Print Assumptions c86_never_stuck_partial.
(** The tasks of the sample do stand in each other's way: the third holds what the two others want. *)
Example c86_never_stuck_example :
  let ts := lock_run false (map start busy_tasks) [0; 0; 0; 2; 2; 1] in
  lock_run false ts [0; 1] = ts /\ lock_run false ts [2] <> ts /\ ~ Forall finished ts.
Proof.
  split; [reflexivity|split].
  - intros H. vm_compute in H. discriminate.
  - intros H. inversion H as [|? ? [Hf _] _]. vm_compute in Hf. discriminate.
Qed.

(** A lock held for writing is held by nobody else. *)
Theorem c86_exclusive : forall writers_first tasks sched i j t u l w v,
  let ts := lock_run writers_first (map start tasks) sched in
  nth_error ts i = Some t -> nth_error ts j = Some u -> i <> j ->
  In (l, w) (t_held t) -> In (l, v) (t_held u) -> w = false /\ v = false.
Proof. exact locks_exclude. Qed.
Print Assumptions c86_exclusive.
Example c86_exclusive_example :
  let ts := lock_run false (map start busy_tasks) [0; 0; 0; 2] in
  In ((TPeers, 1), false) (t_held (nth 0 ts (start []))) /\ In ((TPeers, 1), false) (t_held (nth 2 ts (start []))).
Proof. vm_compute. tauto. Qed.

(** Two sets of peers filled from each other at the same time: both tasks may wait forever. *)
Theorem c86_fill_refuted : exists sched, deadlocked false (lock_run false (map start [[Fill 0 1]; [Fill 1 0]]) sched).
Proof. exact fills_deadlock. Qed.
Print Assumptions c86_fill_refuted.

(** Adding a peer to the DHT while iterating over its known peers never returns. *)
Theorem c86_iterate_refuted : forall p b n is_new, exists sched,
  deadlocked false (lock_run false (map start [[ForEachKnown [AddDhtPeer p b n is_new]]]) sched).
Proof. exact iterating_deadlock. Qed.
Print Assumptions c86_iterate_refuted.
