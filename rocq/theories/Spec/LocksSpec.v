(** What it means that nobody waits forever. *)
From Coq Require Import List Arith Bool.
From Verif.Model Require Import Locks.
Import ListNotations.

Definition finished (t : task) : Prop := t_rest t = [] /\ t_held t = [].
(** The number of steps the tasks have to take. *)
Definition work (ts : list task) : nat := list_sum (map (fun t => length (t_rest t)) ts).
(** The tasks cannot move anymore, whatever is scheduled, though they are not finished. *)
Definition deadlocked (writers_first : bool) (ts : list task) : Prop :=
  ~ Forall finished ts /\ forall sched, lock_run writers_first ts sched = ts.
(** A round gives every task a chance. *)
Definition round (n : nat) (r : list nat) : Prop := forall i, i < n -> In i r.
(** The user fills their own sets along some order and does not call the library while iterating. *)
Definition well_used (order : nat -> nat) (c : call) : Prop :=
  match c with
  | Do _ => True
  | Fill dst src => dst = src \/ order src < order dst
  | ForEachKnown inside => inside = []
  end.

(** A sample: three tasks that use the same tables, and a fair schedule for them. *)
Definition busy_tasks : list (list call) :=
  [ [Do (AdnlQuery 0 1 1 (Some (Some (2, 3)))); Do (AddOverlay 0 0 1 (Some [0]))];
    [Do (RemovePeer 1 1 (Some (2, 3))); Do (UpdateNeighbours 0 1 [0]); ForEachKnown []];
    [Do (CreateChannel 1 1 (Some (2, 3)) (Some (4, 5))); Do (FindNode [(0, 3)]); Fill 1 0; Fill 2 1] ].
Definition busy_rounds : list (list nat) := repeat [2; 0; 1] 80.
