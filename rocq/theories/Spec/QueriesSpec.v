(** Which answer belongs to which query. *)
From Coq Require Import List.
From Verif.Base Require Import Bytes.
From Verif.Model Require Import Queries.
Import ListNotations.

(** The queries in the order they were asked, each with the first answer that arrived for its id
    after it was asked. *)
Definition note (l : list (bytes * option bytes)) (e : query_event) : list (bytes * option bytes) :=
  match e with
  | EAsk id => l ++ [(id, None)]
  | EAnswer id answer =>
    map (fun x => match x with
                  | (i, None) => if bytes_eqb i id then (i, Some answer) else (i, None)
                  | x => x
                  end) l
  | _ => l
  end.
Definition first_answers (evs : list query_event) : list (bytes * option bytes) := fold_left note evs [].

Fixpoint asked_ids (evs : list query_event) : list bytes :=
  match evs with
  | [] => []
  | EAsk id :: r => id :: asked_ids r
  | _ :: r => asked_ids r
  end.
