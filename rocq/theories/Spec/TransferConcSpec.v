(** Vocabulary for parts processed by several tasks at once (C73). *)
From stdpp Require Import gmap.
From Coq Require Import NArith.
From Verif.Base Require Import Bytes.
From Verif.Model Require Import Crypto Transfer TransferConc.
From Verif.Spec Require Import TransferSpec.
Open Scope N_scope.

(** The parts that came in and the milliseconds that passed. *)
Definition came (l : list receiving_event) : list part :=
  flat_map (fun e => match e with PartCame h t o d => [mk_part h t o d] | _ => [] end) l.
Definition passed (l : list receiving_event) : N :=
  fold_right (fun e n => match e with TimeGoes ms => ms + n | _ => n end) 0 l.

(** What the tasks of a transfer id ended with. *)
Definition task_id (t : task) : bytes :=
  match t with
  | AtEntry i _ _ _ | AtRefresh _ i _ _ | AtInsert _ i _ _ | AtAdd _ i _ _ | AtExchange _ i _
  | AtCombine _ i _ _ | AtRemove _ i _ | Ended _ i _ => i
  end.
Definition results (i : bytes) (s : receiving_state) : list part_outcome :=
  flat_map (fun t => match t with Ended _ j o => if bytes_eqb j i then [o] else [] | _ => [] end) (c_tasks s).
Definition messages (i : bytes) (s : receiving_state) : list bytes :=
  flat_map (fun o => match o with Whole m => [m] | _ => [] end) (results i s).
Definition all_ended (i : bytes) (s : receiving_state) : Prop :=
  forall t, In t (c_tasks s) -> task_id t = i -> exists h o, t = Ended h i o.

(** How often a part came in. *)
Definition same_part (p q : part) : bool :=
  bytes_eqb (pt_hash p) (pt_hash q) && (pt_total p =? pt_total q) && (pt_offset p =? pt_offset q)
  && bytes_eqb (pt_data p) (pt_data q).
Definition times_came (p : part) (l : list receiving_event) : nat := length (List.filter (same_part p) (came l)).

(** No task is going to refresh the transfers of this id. *)
Definition silent (i : bytes) (s : receiving_state) : Prop :=
  forall t, In t (c_tasks s) -> task_id t = i ->
    match t with AtEntry _ _ _ _ | AtRefresh _ _ _ _ => False | _ => True end.

Definition no_part (i : bytes) (l : list receiving_event) : Prop := forall p, In p (came l) -> pt_hash p <> i.

(** Nothing of earlier transfers of this id is left: their tasks have ended, their timers have run
    out and the table has no entry. *)
Definition quiet (i : bytes) (s : receiving_state) : Prop :=
  all_ended i s /\ c_table s !! i = None
  /\ forall h x, c_heap s !! h = Some x -> x_hash x = i -> c_timers s !! h = Some Stopped.
