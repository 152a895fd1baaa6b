(** The limit of parallel queries per peer: [Node::query] and [Node::gc] of
    /repo/src/rldp/node.rs, for one peer. *)
From Coq Require Import List NArith Arith Bool.
From Verif.Base Require Import Bytes.
Import ListNotations.

(** Where a query is: it holds a clone of the semaphore (135-140), or a permit of it (143), or it
    has finished. *)
Inductive query_at := Waiting (sem : nat) | Running (sem : nat) | Finished.

(** Semaphores are numbered; [li_free] gives the available permits of each, [li_table] the one
    stored for the peer. *)
Record limiter := mk_limiter {
  li_table : option nat;
  li_free : list nat;
  li_queries : list query_at
}.
Definition limiter_new : limiter := mk_limiter None [] [].

Inductive limit_event :=
| LAsk                 (* a new query looks up or creates the semaphore (135-140) *)
| LAcquire (q : nat)   (* query [q] gets a permit (143) *)
| LFinish (q : nat)    (* query [q] ends and returns its permit (142-147) *)
| LGc.                 (* [gc] (119-123) *)

(** One event; impossible events change nothing. *)
Definition limit_step (max : nat) (l : limiter) (ev : limit_event) : limiter :=
  match ev with
  | LAsk =>
      match li_table l with
      | Some s => mk_limiter (li_table l) (li_free l) (li_queries l ++ [Waiting s])
      | None =>
          let s := length (li_free l) in
          mk_limiter (Some s) (li_free l ++ [max]) (li_queries l ++ [Waiting s])
      end
  | LAcquire q =>
      match nth_error (li_queries l) q with
      | Some (Waiting s) =>
          match nth_error (li_free l) s with
          | Some (S n) => mk_limiter (li_table l) (set_nth s n (li_free l)) (set_nth q (Running s) (li_queries l))
          | _ => l
          end
      | _ => l
      end
  | LFinish q =>
      match nth_error (li_queries l) q with
      | Some (Running s) =>
          match nth_error (li_free l) s with
          | Some n => mk_limiter (li_table l) (set_nth s (S n) (li_free l)) (set_nth q Finished (li_queries l))
          | None => l
          end
      | _ => l
      end
  | LGc =>
      match li_table l with
      | Some s =>
          match nth_error (li_free l) s with
          | Some n => if Nat.ltb n max then l else mk_limiter None (li_free l) (li_queries l)
          | None => l
          end
      | None => l
      end
  end.
Definition limit_run (max : nat) (l : limiter) (evs : list limit_event) : limiter :=
  fold_left (limit_step max) evs l.

(** Queries in flight. *)
Definition is_running (q : query_at) : bool := match q with Running _ => true | _ => false end.
Definition in_flight (l : limiter) : nat := length (filter is_running (li_queries l)).
