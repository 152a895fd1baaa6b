(** Queries between nodes: [query_raw] (/repo/src/adnl/node/mod.rs:456-497) and the arms of
    [process_message] that end in the table of pending queries or in the query subscribers
    (/repo/src/adnl/node/receiver.rs:264-267, 293-316). *)
From stdpp Require Import gmap.
From Coq Require Import NArith.
From Verif.Base Require Import Bytes Res.
From Verif.Model Require Import Crypto ProtoAdnl AdnlNode Queries.
Open Scope N_scope.

(** A node with its table of pending queries, and the queries handed to its subscribers so far:
    local id, peer id, query id and query.  Subscribers are tasks: they answer later, or never. *)
Record qnode := mk_qnode
  { qn_node : node; qn_queries : queries; qn_handed : list (bytes * bytes * bytes * bytes) }.

(** The start of [query_raw] (mod.rs:463-474): the query is registered, then sent.  If it cannot be
    sent, the [PendingAdnlQuery] is dropped.  [id] is the random id. *)
Definition query_start (P : prims) (x : qnode) (now : N) (local_id peer_id id query : bytes) (priority : bool)
    (rs : nat -> rnd) : res node_error nat * qnode :=
  let q := length (q_list (qn_queries x)) in
  let t := query_step (qn_queries x) (EAsk id) in
  match send_message P (qn_node x) now local_id peer_id (MQuery id query) priority rs with
  | (Ok _, n) => (Ok q, mk_qnode n t (qn_handed x))
  | (Err e, n) => (Err e, mk_qnode n (query_run t [EGiveUp q; EDrop q]) (qn_handed x))
  end.

(** What a delivery does to the two tables.  [update_query] (queries_cache.rs:37-41) runs to its
    end here; C17 has the interleavings. *)
Definition delivered (x : qnode) (d : delivery) : qnode :=
  match d with
  | DAnswer id answer => mk_qnode (qn_node x) (query_run (qn_queries x) [EAnswer id answer; ESend 0]) (qn_handed x)
  | DQuery l p id query => mk_qnode (qn_node x) (qn_queries x) (qn_handed x ++ [(l, p, id, query)])
  | DCustom _ _ _ => x
  end.

(** A datagram arrives. *)
Definition query_receive (P : prims) (fuel : nat) (x : qnode) (now : N) (data fresh : bytes) (rs : nat -> rnd)
  : qnode :=
  let '(_, ds, n) := handle_received_data P fuel (qn_node x) now data fresh rs in
  fold_left delivered ds (mk_qnode n (qn_queries x) (qn_handed x)).

(** A subscriber answered the [k]-th query it was handed (receiver.rs:301-310).  In the code
    [priority] is that of the packet with the query. *)
Definition query_reply (P : prims) (x : qnode) (now : N) (k : nat) (answer : bytes) (priority : bool)
    (rs : nat -> rnd) : res node_error unit * qnode :=
  match nth_error (qn_handed x) k with
  | None => (Ok tt, x)
  | Some (local_id, peer_id, id, _) =>
    let '(r, n) := send_message P (qn_node x) now local_id peer_id (MAnswer id answer) priority rs in
    (r, mk_qnode n (qn_queries x) (qn_handed x))
  end.

(** The waiting part of [query_raw] (mod.rs:482-486, without the timer of the channel, 488-494): the answer is read, or the timeout comes
    first and the query leaves the table. *)
Definition query_wait (x : qnode) (q : nat) : qnode :=
  mk_qnode (qn_node x) (query_step (qn_queries x) (ERead q)) (qn_handed x).
Definition query_abandon (x : qnode) (q : nat) : qnode :=
  mk_qnode (qn_node x) (query_run (qn_queries x) [EGiveUp q; EDrop q]) (qn_handed x).
(** What the query returned, once it did. *)
Definition query_returned (x : qnode) (q : nat) : option (option bytes) := query_result (qn_queries x) q.
