(** The operations of a DHT node that talk to several peers: /repo/src/dht/futures.rs, streams.rs and
    [find_more_dht_nodes] of node.rs.

    Each of them is a state machine around the DHT node: anything else the node does may happen
    between its steps.  How the queries to the peers end is decided by the environment. *)
From stdpp Require Import gmap.
From Coq Require Import NArith.
From Verif.Base Require Import Bytes Res.
From Verif.Model Require Import Crypto Tl Scheme ProtoAdnl ProtoDht ProtoOverlay Peer AdnlNode PeersSet
  DhtStorage DhtBuckets DhtNode DhtStream.
Open Scope N_scope.

(** How a query ends: [query_raw] returns the answer, [Ok(None)] or an error (node.rs:462-479). *)
Inductive ending := Replied (reply : bytes) | Silent | Broken.
Definition ending_outcome (e : ending) : query_outcome :=
  match e with Replied _ => Answered | Silent => TimedOut | Broken => Failed end.

(** ** Lookups: [DhtValuesStream] (streams.rs:15-144) over the node *)

(** The stream itself is [values_stream]; here its peers come from the iterator and its values from
    the replies.  [lk_version] is [known_peers_version]. *)
Record lookup (T : Type) := mk_lookup
  { lk_iter : peers_iter;
    lk_batch : option N;
    lk_new_peers : bool;
    lk_version : N;
    lk_stream : values_stream (key_description * T) }.
Arguments mk_lookup {T}. Arguments lk_iter {T}. Arguments lk_batch {T}. Arguments lk_new_peers {T}.
Arguments lk_version {T}. Arguments lk_stream {T}.

(** The query of a lookup (streams.rs:42): always six nodes. *)
Definition lookup_query (key : bytes) : bytes := put_dht_query (DqFindValue key 6).

(** The queries of [find_address] and [find_overlay_nodes]: the key is hashed (streams.rs:37). *)
Definition address_search (P : prims) (peer_id : bytes) : bytes := lookup_query (storage_key P (address_key peer_id)).
Definition nodes_search (P : prims) (overlay_id : bytes) : bytes := lookup_query (storage_key P (nodes_key overlay_id)).

Definition iter_peers (it : peers_iter) : list bytes := map snd (pi_peers it).

(** [new] (33-56) and the first [fill] (111-114), which follow each other. *)
Definition lookup_new {T} (sort : list (N * bytes) -> list (N * bytes)) (d : dht) (key : bytes) (batch : option N)
    (new_peers : bool) : lookup T :=
  let it := iter_fill sort d batch (peers_iter_new key) in
  mk_lookup it batch new_peers (ps_version (d_known d)) (stream_new (iter_peers it)).

(** The iterator after queries have been started: peers are taken from its end (peers_iter.rs:23-25). *)
Definition iter_left (it : peers_iter) (n : nat) : peers_iter :=
  mk_peers_iter (pi_key it) (firstn n (pi_peers it)) (pi_index it).

(** One turn of the loop of [poll_next] (117-143) in which the query at position [i] in flight (modulo
    their number) ends: its task updates the status of the peer (node.rs:477) and reads the reply
    (73-88). *)
Definition lookup_ends {T} (P : prims) (get : parser T) (sort : list (N * bytes) -> list (N * bytes)) (now : N) (fresh : bytes)
    (d : dht) (l : lookup T) (i : nat) (e : ending) : dht * lookup T :=
  let started := stream_refill (lk_stream l) in
  match vs_flying started with
  | [] => (d, mk_lookup (lk_iter l) (lk_batch l) (lk_new_peers l) (lk_version l) (stream_step (lk_stream l) Waiting))
  | p0 :: _ =>
    let p := nth (i mod length (vs_flying started)) (vs_flying started) p0 in
    let d := after_query d p (ending_outcome e) in
    let '(value, d) := match e with
                       | Replied reply =>
                         match parse_value_result P get d now fresh reply with
                         | (Ok (Some v), d) => (Some v, d)
                         | (_, d) => (None, d)
                         end
                       | _ => (None, d)
                       end in
    let it := iter_left (lk_iter l) (length (vs_peers started)) in
    if lk_new_peers l && negb (ps_version (d_known d) =? lk_version l) then
      let it := iter_fill sort d (lk_batch l) it in
      (d, mk_lookup it (lk_batch l) (lk_new_peers l) (ps_version (d_known d))
            (stream_step (lk_stream l) (Completed i value (Some (iter_peers it)))))
    else
      (d, mk_lookup it (lk_batch l) (lk_new_peers l) (lk_version l)
            (stream_step (lk_stream l) (Completed i value None)))
  end.

(** Something else on the node, or the end of a query. *)
Inductive lookup_event :=
| LkOther (op : dht_op)
| LkEnds (i : nat) (e : ending) (sort : list (N * bytes) -> list (N * bytes)) (now : N) (fresh : bytes).
Definition lookup_step {T} (P : prims) (get : parser T) (s : dht * lookup T) (ev : lookup_event) : dht * lookup T :=
  match ev with
  | LkOther op => (dht_step P (fst s) op, snd s)
  | LkEnds i e sort now fresh => lookup_ends P get sort now fresh (fst s) (snd s) i e
  end.
Definition lookup_run {T} (P : prims) (get : parser T) (s : dht * lookup T) (l : list lookup_event) : dht * lookup T :=
  fold_left (lookup_step P get) l s.

(** ** Storing: [StoreValue] (futures.rs:18-83) and [DhtStoreValueWithCheck] (86-134) *)

(** [StoreValue::new] (27-40): the value is stored locally, then the query is prepared. *)
Definition store_new (P : prims) (e : query_env) (d : dht) (v : dht_value) : res dht_error bytes * dht :=
  match storage_insert P (do_storage (d_opts d)) (qe_node_order e) (d_storage d) (qe_now e) (qe_now2 e) v with
  | (Ok _, s) => (Ok (put_dht_query (DqStore v)), set_storage d s)
  | (Err err, s) => (Err (StoreError err), set_storage d s)
  end.

(** [Decided] keeps the lookup as it was then. *)
Inductive store_stage (T E : Type) :=
| NotStarted
| Storing (flying : list bytes)
| Looking (l : lookup T)
| Decided (r : res E bool) (l : lookup T).
Arguments NotStarted {T E}. Arguments Storing {T E}. Arguments Looking {T E}. Arguments Decided {T E}.

(** [sk_told], [sk_ended] and [sk_seen] record who was sent the value, whose query ended and which
    values were checked.  [sk_check_all] is never read by the code. *)
Record store_check (T E : Type) := mk_store_check
  { sk_dht : dht;
    sk_key : bytes;
    sk_check_all : bool;
    sk_stage : store_stage T E;
    sk_told : list bytes;
    sk_ended : list bytes;
    sk_seen : list (key_description * T) }.
Arguments mk_store_check {T E}. Arguments sk_dht {T E}. Arguments sk_key {T E}. Arguments sk_check_all {T E}.
Arguments sk_stage {T E}. Arguments sk_told {T E}. Arguments sk_ended {T E}. Arguments sk_seen {T E}.

(** [then_check] (44-52) with or without [check_all] (99-102); [key] is the hash of the key of the
    value. *)
Definition then_check {T E} (d : dht) (key : bytes) (check_all : bool) : store_check T E :=
  mk_store_check d key check_all NotStarted [] [] [].

(** What happens: something else on the node, the first poll (61-70), the end of one of the store queries
    (65-67, 72-78), the start of the lookup (117-126), the end of one of its queries. *)
Inductive store_event :=
| SkOther (op : dht_op)
| SkPoll
| SkStored (i : nat) (o : query_outcome)
| SkLook (sort : list (N * bytes) -> list (N * bytes))
| SkFound (i : nat) (e : ending) (sort : list (N * bytes) -> list (N * bytes)) (now : N) (fresh : bytes).

(** [check] is given the values it has seen before, since it may keep a state. *)
Definition store_step {T E} (P : prims) (get : parser T) (check : list (key_description * T) -> key_description * T -> res E bool)
    (s : store_check T E) (ev : store_event) : store_check T E :=
  match ev, sk_stage s with
  | SkOther op, _ =>
    mk_store_check (dht_step P (sk_dht s) op) (sk_key s) (sk_check_all s) (sk_stage s) (sk_told s) (sk_ended s) (sk_seen s)
  | SkPoll, NotStarted =>
    let peers := ps_members (d_known (sk_dht s)) in
    mk_store_check (sk_dht s) (sk_key s) (sk_check_all s) (Storing peers) peers (sk_ended s) (sk_seen s)
  | SkStored i o, Storing flying =>
    match nth_error flying i with
    | Some p =>
      mk_store_check (after_query (sk_dht s) p o) (sk_key s) (sk_check_all s) (Storing (remove_nth i flying))
        (sk_told s) (sk_ended s ++ [p]) (sk_seen s)
    | None => s
    end
  | SkLook sort, Storing [] =>
    mk_store_check (sk_dht s) (sk_key s) (sk_check_all s)
      (Looking (lookup_new sort (sk_dht s) (sk_key s) (Some (do_batch_len (d_opts (sk_dht s)))) true))
      (sk_told s) (sk_ended s) (sk_seen s)
  | SkFound i e sort now fresh, Looking l =>
    let '(d, l') := lookup_ends P get sort now fresh (sk_dht s) l i e in
    let before := vs_yielded (lk_stream l) in
    match skipn (length before) (vs_yielded (lk_stream l')) with
    | v :: _ =>
      mk_store_check d (sk_key s) (sk_check_all s)
        (match check (sk_seen s) v with Ok false => Looking l' | r => Decided r l' end)
        (sk_told s) (sk_ended s) (sk_seen s ++ [v])
    | [] =>
      mk_store_check d (sk_key s) (sk_check_all s)
        (if vs_ended (lk_stream l') then Decided (Ok false) l' else Looking l')
        (sk_told s) (sk_ended s) (sk_seen s)
    end
  | _, _ => s
  end.
Definition store_run {T E} (P : prims) (get : parser T) check (s : store_check T E) (l : list store_event) : store_check T E :=
  fold_left (store_step P get check) l s.

(** The check of [store_address] (node.rs:437-447): the first list that cannot be used is an error. *)
Definition address_check (tolerance now : N) (addr : sockaddr) (seen : list (key_description * address_list))
    (v : key_description * address_list) : res address_list_error bool :=
  match parse_address_list (snd v) now tolerance with
  | Ok a => Ok (sockaddr_eqb a addr)
  | Err e => Err e
  end.

(** ** Discovery: [find_more_dht_nodes] (node.rs:247-273) *)

(** A record of an answer with the clock reading and the fresh secret used when it is added. *)
Record offered := mk_offered { of_now : N; of_fresh : bytes; of_node : dht_node }.

(** The inner loop (261-263). *)
Fixpoint add_offered (P : prims) (d : dht) (count : N) (l : list offered) : res dht_error N * dht :=
  match l with
  | [] => (Ok count, d)
  | x :: r =>
    match add_dht_peer P d (of_now x) (of_fresh x) (of_node x) with
    | (Err e, d) => (Err e, d)
    | (Ok new, d) => add_offered P d (match new with Some _ => count + 1 | None => count end) r
    end
  end.

(** [dc_asked] and [dc_ended] record who was asked and whose query ended. *)
Record discovery := mk_discovery
  { dc_dht : dht; dc_asked : list bytes; dc_ended : list bytes; dc_flying : list bytes; dc_count : N;
    dc_result : option (res dht_error N) }.
(** The peers known at the start are asked (248-256). *)
Definition discovery_start (d : dht) : discovery :=
  let peers := ps_members (d_known d) in
  mk_discovery d peers [] peers 0 (match peers with [] => Some (Ok 0) | _ => None end).

(** Something else on the node, or the end of the query at position [i]: with the records of the answer
    (none after a timeout, 241-244) or with an error (265-267). *)
Inductive discovery_event :=
| DcOther (op : dht_op)
| DcEnds (i : nat) (r : res unit (list offered)).
Definition discovery_step (P : prims) (s : discovery) (ev : discovery_event) : discovery :=
  match ev with
  | DcOther op => mk_discovery (dht_step P (dc_dht s) op) (dc_asked s) (dc_ended s) (dc_flying s) (dc_count s) (dc_result s)
  | DcEnds i r =>
    match dc_result s, nth_error (dc_flying s) i with
    | None, Some p =>
      let flying := remove_nth i (dc_flying s) in
      let d := after_query (dc_dht s) p (match r with Ok _ => Answered | Err _ => Failed end) in
      match add_offered P d (dc_count s) (match r with Ok l => l | Err _ => [] end) with
      | (Ok count, d) =>
        mk_discovery d (dc_asked s) (dc_ended s ++ [p]) flying count (match flying with [] => Some (Ok count) | _ => None end)
      | (Err e, d) => mk_discovery d (dc_asked s) (dc_ended s ++ [p]) [] (dc_count s) (Some (Err e))
      end
    | _, _ => s
    end
  end.
Definition discovery_run (P : prims) (s : discovery) (l : list discovery_event) : discovery :=
  fold_left (discovery_step P) l s.
