(** What replay protection promises, and what the code does exactly. *)
From Coq Require Import List NArith Bool.
From Verif.Model Require Import History HistoryConc.
Import ListNotations.
Open Scope N_scope.

(** The exact behaviour, as a set of remembered numbers: numbers from 256 on are always
    accepted and make the history forget everything; a number below 256 is rejected iff it is
    remembered. *)
Definition remembered := list N.
Definition spec_deliver (known : remembered) (s : N) : bool * remembered :=
  if 256 <=? s then (true, [])
  else if existsb (N.eqb s) known then (false, known)
  else (true, s :: known).
Definition spec_event (known : remembered) (e : event) : option bool * remembered :=
  match e with
  | Deliver s => let (b, k) := spec_deliver known s in (Some b, k)
  | Reset => (None, [0])
  end.
Fixpoint spec_run (known : remembered) (l : list event) : remembered :=
  match l with
  | [] => known
  | e :: r => spec_run (snd (spec_event known e)) r
  end.

(** The events of a history that contains no packet from 256 on. *)
Definition small_event (e : event) : Prop :=
  match e with Deliver s => s < 256 | Reset => False end.

(** Largest sequence number accepted since the last reset. *)
Fixpoint spec_max (m : N) (l : list event) : N :=
  match l with
  | [] => m
  | Deliver s :: r => spec_max (N.max m s) r
  | Reset :: r => spec_max 0 r
  end.

(** Numbers the history can be asked about without a panic. *)
Definition legal (checks : bool) (s : N) : Prop := s < 2 ^ 64 /\ (checks = true -> s < 2 ^ 64 - 256).
Definition legal_event (checks : bool) (e : event) : Prop :=
  match e with Deliver s => legal checks s | Reset => True end.

(** The task is between taking and releasing the lock on the history. *)
Definition critical (p : pc) : bool :=
  match p with
  | PCrit _ _ _ _ _ | PSeqLoad _ _ _ | PSeqStore _ _ _ | PRelease _ _ _
  | RCrit _ | RSeq | RRelease => true
  | _ => false
  end.

(** Any mix of deliver and reset tasks. *)
Definition initial_task (p : pc) : Prop := match p with PStart _ | RStart => True | _ => False end.

(** The numbers given to the next packets that are sent, and the counter afterwards. *)
Fixpoint next_numbers (checks : bool) (last : N) (packets : nat) : list (option N) * N :=
  match packets with
  | O => ([], last)
  | S n =>
    let (number, last') := bump_seqno checks last in
    let (r, final) := next_numbers checks last' n in (number :: r, final)
  end.
