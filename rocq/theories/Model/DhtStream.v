(** The stream of values of a lookup: /repo/src/dht/streams.rs, and the loop of
    [find_overlay_nodes], /repo/src/dht/node.rs. *)
From stdpp Require Import gmap.
From Coq Require Import NArith.
From Verif.Base Require Import Bytes Res.
From Verif.Model Require Import Crypto ProtoAdnl ProtoOverlay Peer AdnlNode.
Open Scope nat_scope.

(** [MAX_PARALLEL_FUTURES] (147). *)
Definition max_parallel : nat := 5.

(** [DhtValuesStream] (15-25) after the first [fill]: [vs_peers] are the peers of the iterator (taken
    from the end, peers_iter.rs:23-25), [vs_flying] the peers being queried.  [vs_asked], [vs_done] and
    [vs_yielded] record what happened. *)
Record values_stream (V : Type) := mk_values_stream
  { vs_peers : list bytes;
    vs_flying : list bytes;
    vs_count : nat;
    vs_ended : bool;
    vs_asked : list bytes;
    vs_done : list (bytes * option V);
    vs_yielded : list V }.
Arguments mk_values_stream {V}. Arguments vs_peers {V}. Arguments vs_flying {V}. Arguments vs_count {V}.
Arguments vs_ended {V}. Arguments vs_asked {V}. Arguments vs_done {V}. Arguments vs_yielded {V}.

Definition stream_new {V} (peers : list bytes) : values_stream V := mk_values_stream peers [] 0 false [] [] [].

(** [refill_futures] (68-98): start queries until the iterator is empty or [future_count] exceeds the
    limit; by recursion on the reversed list of peers. *)
Fixpoint refill (stack flying asked : list bytes) (count : nat) : list bytes * list bytes * list bytes * nat :=
  match stack with
  | [] => ([], flying, asked, count)
  | p :: r =>
    let flying := flying ++ [p] in
    let asked := asked ++ [p] in
    if max_parallel <? S count then (r, flying, asked, S count) else refill r flying asked (S count)
  end.
Definition stream_refill {V} (s : values_stream V) : values_stream V :=
  if vs_count s <? max_parallel then
    let '(stack, flying, asked, count) := refill (rev (vs_peers s)) (vs_flying s) (vs_asked s) (vs_count s) in
    mk_values_stream (rev stack) flying count (vs_ended s) asked (vs_done s) (vs_yielded s)
  else s.

(** One turn of the loop of [poll_next] (117-143).  [Completed i r fill]: some query in flight (the
    one at position [i], modulo their number) has ended with [r]; [fill] is the content of the iterator
    if it was filled with new peers meanwhile (121-128).  [Waiting]: none has ended, the poll is
    pending. *)
Inductive stream_event (V : Type) :=
| Completed (i : nat) (r : option V) (fill : option (list bytes))
| Waiting.
Arguments Completed {V}. Arguments Waiting {V}.
Fixpoint remove_nth {A} (i : nat) (l : list A) : list A :=
  match l, i with
  | [], _ => []
  | _ :: r, O => r
  | x :: r, S j => x :: remove_nth j r
  end.
Definition stream_step {V} (s : values_stream V) (e : stream_event V) : values_stream V :=
  if vs_ended s then s else
  let s := stream_refill s in
  match vs_flying s with
  | [] => mk_values_stream (vs_peers s) [] (vs_count s) true (vs_asked s) (vs_done s) (vs_yielded s)
  | p0 :: _ =>
    match e with
    | Waiting => s
    | Completed i r fill =>
      let i := i mod length (vs_flying s) in
      let p := nth i (vs_flying s) p0 in
      mk_values_stream (match fill with Some l => l | None => vs_peers s end)
        (remove_nth i (vs_flying s)) (vs_count s - 1) false (vs_asked s)
        (vs_done s ++ [(p, r)])
        (match r with Some v => vs_yielded s ++ [v] | None => vs_yielded s end)
    end
  end.
Definition stream_run {V} (s : values_stream V) (events : list (stream_event V)) : values_stream V :=
  fold_left stream_step events s.

(** ** [find_overlay_nodes] (node.rs:277-340) *)

(** One round: the lists received from the DHT, and the address found for a peer, if any. *)
Record search_round := mk_search_round
  { sr_received : list (list ov_node); sr_address : bytes -> option sockaddr }.
Record search := mk_search
  { se_result : list (sockaddr * ov_node); se_nodes : list ov_node; se_cache : list bytes;
    se_asked : list (list bytes); se_done : bool }.
Definition search_new : search := mk_search [] [] [] [] false.

(** Which nodes of a round are resolved (301-314): new peers with a valid id; the cache is a set. *)
Fixpoint to_resolve (P : prims) (cache : list bytes) (l : list ov_node) : list (bytes * ov_node) * list bytes :=
  match l with
  | [] => ([], cache)
  | n :: r =>
    match full_id P (on_id n) with
    | Err _ => to_resolve P cache r
    | Ok key =>
      let id := short_id P key in
      if existsb (bytes_eqb id) cache then to_resolve P cache r
      else let '(a, c) := to_resolve P (id :: cache) r in ((id, n) :: a, c)
    end
  end.
(** The answers of a round (325-333), in some order; here the order of the nodes. *)
Fixpoint collect (address : bytes -> option sockaddr) (l : list (bytes * ov_node))
    (result : list (sockaddr * ov_node)) (nodes : list ov_node) : list (sockaddr * ov_node) * list ov_node :=
  match l with
  | [] => (result, nodes)
  | (id, n) :: r =>
    match address id with
    | Some a => collect address r (result ++ [(a, n)]) nodes
    | None => collect address r result (match result with [] => nodes ++ [n] | _ => nodes end)
    end
  end.
Definition search_step (P : prims) (s : search) (r : search_round) : search :=
  if se_done s then s else
  match sr_received r with
  | [] => mk_search (se_result s) (se_nodes s) (se_cache s) (se_asked s) true
  | _ =>
    let '(todo, cache) := to_resolve P (se_cache s) (concat (sr_received r) ++ se_nodes s) in
    let '(result, nodes) := collect (sr_address r) todo (se_result s) [] in
    mk_search result nodes cache (se_asked s ++ [map fst todo])
      (match result with [] => false | _ => true end)
  end.
Definition search_run (P : prims) (rounds : list search_round) : search :=
  fold_left (search_step P) rounds search_new.
