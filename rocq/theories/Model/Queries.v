(** The table of pending queries: /repo/src/adnl/queries_cache.rs, as used by [query_raw]
    (/repo/src/adnl/node/mod.rs:456-497) and [process_message_answer] (receiver.rs:321-323).

    Tasks interleave freely between the steps below.  A query is the number of its [add_query]
    call; its oneshot channel is part of its phase. *)
From stdpp Require Import gmap.
From Coq Require Import NArith.
From Verif.Base Require Import Bytes.

Inductive phase :=
| Waiting                     (** the receiving half is alive, nothing sent yet *)
| Filled (answer : bytes)     (** an answer was sent but not read yet *)
| Closed                      (** the sending half was dropped without an answer *)
| Leaving                     (** the receiving half is gone, the drop handler has not run yet *)
| Done (answer : option bytes).

(** [QueriesCache] (queries_cache.rs:10-12) and what lives outside it: [q_sent] are sending halves
    taken from the table together with the answer, not yet used. *)
Record queries := mk_queries
  { q_table : gmap bytes nat;
    q_list : list (bytes * phase);
    q_sent : list (nat * bytes) }.
Definition queries_new : queries := mk_queries ∅ [] [].

Inductive query_event :=
| EAsk (id : bytes)
| EAnswer (id answer : bytes)
| ESend (i : nat)
| ERead (q : nat)
| EGiveUp (q : nat)
| EDrop (q : nat).

Definition set_phase (l : list (bytes * phase)) (q : nat) (p : phase) : list (bytes * phase) :=
  imap (fun i e => if (i =? q)%nat then (fst e, p) else e) l.
(** Dropping the sending half of a query that still waits. *)
Definition close (l : list (bytes * phase)) (q : option nat) : list (bytes * phase) :=
  match q with
  | None => l
  | Some q => match l !! q with Some (_, Waiting) => set_phase l q Closed | _ => l end
  end.

Definition query_step (s : queries) (e : query_event) : queries :=
  match e with
  | EAsk id =>
    (* [add_query] (24-35): an entry with the same id is replaced and dropped *)
    mk_queries (<[id := length (q_list s)]> (q_table s))
      (close (q_list s) (q_table s !! id) ++ [(id, Waiting)]) (q_sent s)
  | EAnswer id answer =>
    (* [update_query] (37-38): takes the sending half *)
    match q_table s !! id with
    | None => s
    | Some q => mk_queries (delete id (q_table s)) (q_list s) (q_sent s ++ [(q, answer)])
    end
  | ESend i =>
    (* [tx.send] (39): fails silently if nobody listens *)
    match q_sent s !! i with
    | None => s
    | Some (q, answer) =>
      mk_queries (q_table s)
        (match q_list s !! q with Some (_, Waiting) => set_phase (q_list s) q (Filled answer) | _ => q_list s end)
        (delete i (q_sent s))
    end
  | ERead q =>
    (* [PendingAdnlQuery::wait] (52-58): the channel is ready, the query is finished *)
    match q_list s !! q with
    | Some (_, Filled a) => mk_queries (q_table s) (set_phase (q_list s) q (Done (Some a))) (q_sent s)
    | Some (_, Closed) => mk_queries (q_table s) (set_phase (q_list s) q (Done None)) (q_sent s)
    | _ => s
    end
  | EGiveUp q =>
    (* a timeout, a cancelled future or an error of [send_message]: the receiving half goes first.
       (After an error of [send_message] the drop handler goes first; nobody reads then.) *)
    match q_list s !! q with
    | Some (_, (Waiting | Filled _ | Closed)) => mk_queries (q_table s) (set_phase (q_list s) q Leaving) (q_sent s)
    | _ => s
    end
  | EDrop q =>
    (* [Drop] of an unfinished query (61-71) *)
    match q_list s !! q with
    | Some (id, Leaving) =>
      mk_queries (delete id (q_table s))
        (set_phase (close (q_list s) (q_table s !! id)) q (Done None)) (q_sent s)
    | _ => s
    end
  end.

Definition query_run (s : queries) (l : list query_event) : queries := fold_left query_step l s.

(** What [wait] returned, once it did. *)
Definition query_result (s : queries) (q : nat) : option (option bytes) :=
  match q_list s !! q with Some (_, Done r) => Some r | _ => None end.
