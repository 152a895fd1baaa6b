(** The DHT node: /repo/src/dht/node.rs, entry.rs and peers_iter.rs.

    Clock readings, fresh secrets of new ADNL peers, the iteration order of the buckets and of hash
    maps are arguments. *)
From stdpp Require Import gmap.
From Coq Require Import NArith.
From Verif.Base Require Import Bytes Res.
From Verif.Model Require Import Crypto Tl Scheme ProtoAdnl ProtoDht ProtoOverlay Peer AdnlNode PeersSet
  DhtStorage DhtBuckets.
Open Scope N_scope.

(** [NodeOptions] (node.rs:26-70), the fields used here. *)
Record dht_options := mk_dht_options
  { do_value_ttl : N; do_batch_len : N; do_bad_peer_threshold : N; do_max_allowed_k : N;
    do_storage : storage_options }.

(** [NodeState] (523-542) together with the ADNL node below it; [d_key] is the secret key. *)
Record dht := mk_dht
  { d_key : bytes;
    d_opts : dht_options;
    d_known : peers_set;
    d_penalties : gmap bytes N;
    d_buckets : buckets;
    d_storage : storage;
    d_adnl : node }.
Definition set_known (d : dht) x := mk_dht (d_key d) (d_opts d) x (d_penalties d) (d_buckets d) (d_storage d) (d_adnl d).
Definition set_penalties (d : dht) x := mk_dht (d_key d) (d_opts d) (d_known d) x (d_buckets d) (d_storage d) (d_adnl d).
Definition set_buckets (d : dht) x := mk_dht (d_key d) (d_opts d) (d_known d) (d_penalties d) x (d_storage d) (d_adnl d).
Definition set_storage (d : dht) x := mk_dht (d_key d) (d_opts d) (d_known d) (d_penalties d) (d_buckets d) x (d_adnl d).
Definition set_adnl (d : dht) x := mk_dht (d_key d) (d_opts d) (d_known d) (d_penalties d) (d_buckets d) (d_storage d) x.

(** [Node::new] (106-127); the capacity of the peer set is [MAX_DHT_PEERS]. *)
Definition max_dht_peers : N := 65536.
Definition dht_local_id (P : prims) (d : dht) : bytes := short_id P (pub_of P (d_key d)).
Definition dht_new (P : prims) (adnl : node) (key : bytes) (o : dht_options) : dht :=
  mk_dht key o (peers_set_new (N.to_nat max_dht_peers)) ∅ (new_buckets (short_id P (pub_of P key))) ∅ adnl.

(** ** Penalties *)

(** [is_bad_peer] (192-197). *)
Definition is_bad_peer (d : dht) (peer : bytes) : bool :=
  match d_penalties d !! peer with
  | Some p => do_bad_peer_threshold (d_opts d) <? p
  | None => false
  end.
(** [set_good_peer] (631-635). *)
Definition good_points (m : gmap bytes N) (peer : bytes) : gmap bytes N :=
  match m !! peer with Some p => <[peer := p - 1]> m | None => m end.
(** [update_peer_status] (614-629); [+= 2] on usize is taken without overflow. *)
Definition update_points (m : gmap bytes N) (peer : bytes) (is_good : bool) : gmap bytes N :=
  if is_good then good_points m peer
  else match m !! peer with Some p => <[peer := p + 2]> m | None => <[peer := 0]> m end.
(** How a query ends: with an answer, with a timeout (ADNL returns [Ok(None)], adnl/node/mod.rs), or
    with an error. *)
Inductive query_outcome := Answered | TimedOut | Failed.
Definition outcome_ok (o : query_outcome) : bool := match o with Failed => false | _ => true end.
(** [query], [query_raw], [query_with_prefix] (452-494): the status passed is [result.is_ok()]. *)
Definition after_query (d : dht) (peer : bytes) (o : query_outcome) : dht :=
  set_penalties d (update_points (d_penalties d) peer (outcome_ok o)).

(** ** Peers *)
Inductive dht_error :=
| BadPeerKey | BadAddressList | AdnlError | InvalidNodeCountLimit | StoreError (e : storage_error)
| UnexpectedQuery | BadQuery | InvalidValueKey | ValueError (e : storage_error) | BadValue | OutOfFuel.

Definition unsigned_node (n : dht_node) : dht_node := mk_dht_node (dn_id n) (dn_addr_list n) (dn_version n) [].

(** [add_dht_peer] (573-612); [fresh] is the channel secret of a new ADNL peer. *)
Definition add_dht_peer (P : prims) (d : dht) (now : N) (fresh : bytes) (n : dht_node)
  : res dht_error (option bytes) * dht :=
  match full_id P (dn_id n) with
  | Err _ => (Err BadPeerKey, d)
  | Ok key =>
    if negb (verify_full P key (put_dht_node_boxed (unsigned_node n)) (dn_signature n)) then (Ok None, d) else
    let peer_id := short_id P key in
    match parse_address_list (dn_addr_list n) now (o_clock_tolerance (n_opts (d_adnl d))) with
    | Err _ => (Err BadAddressList, d)
    | Ok addr =>
      match add_peer (d_adnl d) CtxDht (dht_local_id P d) peer_id addr key fresh with
      | (Err _, adnl) => (Err AdnlError, set_adnl d adnl)
      | (Ok false, adnl) => (Ok None, set_adnl d adnl)
      | (Ok true, adnl) =>
        let d := set_adnl d adnl in
        let '(inserted, known) := ps_insert (d_known d) peer_id in
        (Ok (Some peer_id),
         if inserted then set_buckets (set_known d known) (buckets_insert (d_buckets d) peer_id n)
         else set_penalties (set_known d known) (good_points (d_penalties d) peer_id))
      end
    end
  end.

(** [build_address_list] (adnl/node/mod.rs:289-296) and [sign_local_node] (562-571). *)
Definition build_address_list (n : node) (now : N) : address_list :=
  mk_address_list (Some (address_of (n_addr n))) now (n_start n) 0.
Definition sign_local_node (P : prims) (d : dht) (now : N) : dht_node :=
  let n := mk_dht_node (PkEd25519 (pub_of P (d_key d))) (build_address_list (d_adnl d) now) now [] in
  mk_dht_node (dn_id n) (dn_addr_list n) (dn_version n) (sign P (d_key d) (put_dht_node_boxed n)).

(** ** Queries *)

(** [process_find_value] (641-666). *)
Definition process_find_value (order : bucket -> bucket) (d : dht) (now : N) (key : bytes) (k : N)
  : res dht_error value_result :=
  if (k =? 0) || (do_max_allowed_k (d_opts d) <? k) then Err InvalidNodeCountLimit else
  match storage_get (d_storage d) key now with
  | Some v => Ok (VrFound v)
  | None => Ok (VrNotFound (first_nodes order (d_buckets d) k))
  end.

(** What the environment decides during one query: two clock readings of the storage, the clock of
    everything else, the iteration orders, the fresh secret of a peer announced by the query. *)
Record query_env := mk_query_env
  { qe_now : N; qe_now2 : N; qe_bucket_order : bucket -> bucket;
    qe_node_order : list ov_node -> list ov_node; qe_fresh : bytes }.

(** [try_consume_query] (676-726).  [Ok None] is a rejected query; an answer is its bytes. *)
Fixpoint consume_query (fuel : nat) (P : prims) (e : query_env) (d : dht) (constructor : N) (query : bytes)
  : res dht_error (option bytes) * dht :=
  if constructor =? id_dht_ping then
    match deserialize get_dht_query query with
    | Some (DqPing r) => (Ok (Some (put_u32 id_dht_pong ++ put_u64 r)), d)
    | _ => (Err BadQuery, d)
    end
  else if constructor =? id_dht_find_node then
    match deserialize get_dht_query query with
    | Some (DqFindNode key k) =>
      (Ok (Some (put_u32 id_dht_nodes ++ put_dht_nodes (find_nodes (qe_bucket_order e) (d_buckets d) key k))), d)
    | _ => (Err BadQuery, d)
    end
  else if constructor =? id_dht_find_value then
    match deserialize get_dht_query query with
    | Some (DqFindValue key k) =>
      match process_find_value (qe_bucket_order e) d (qe_now e) key k with
      | Ok r => (Ok (Some (put_value_result r)), d)
      | Err err => (Err err, d)
      end
    | _ => (Err BadQuery, d)
    end
  else if constructor =? id_dht_get_signed_address_list then
    (Ok (Some (put_dht_node_boxed (sign_local_node P d (qe_now e)))), d)
  else if constructor =? id_dht_store then
    match deserialize get_dht_query query with
    | Some (DqStore v) =>
      match storage_insert P (do_storage (d_opts d)) (qe_node_order e) (d_storage d) (qe_now e) (qe_now2 e) v with
      | (Ok _, s) => (Ok (Some (put_u32 id_dht_stored)), set_storage d s)
      | (Err err, s) => (Err (StoreError err), set_storage d s)
      end
    | _ => (Err BadQuery, d)
    end
  else if constructor =? id_dht_query then
    match get_dht_query query with
    | Some (DqQuery n, rest) =>
      match get_u32 rest with
      | None => (Err BadQuery, d)
      | Some (inner, _) =>
        match add_dht_peer P d (qe_now e) (qe_fresh e) n with
        | (Err err, d) => (Err err, d)
        | (Ok _, d) =>
          match fuel with
          | O => (Err OutOfFuel, d)
          | S f =>
            match consume_query f P e d inner rest with
            | (Ok (Some answer), d) => (Ok (Some answer), d)
            | (Ok None, d) => (Err UnexpectedQuery, d)
            | (Err err, d) => (Err err, d)
            end
          end
        end
      end
    | _ => (Err BadQuery, d)
    end
  else (Ok None, d).
(** Each level of nesting consumes at least one byte. *)
Definition try_consume_query (P : prims) (e : query_env) (d : dht) (constructor : N) (query : bytes) :=
  consume_query (length query) P e d constructor query.

(** ** Lookups *)

(** [verify_signed_dht_value] (729-745). *)
Definition verify_signed_dht_value (P : prims) (v : dht_value) : res dht_error unit :=
  if negb (bytes_eqb (dk_id (kd_key (dv_key v))) (sha256 P (put_public_key (kd_id (dv_key v)))))
  then Err InvalidValueKey
  else match check_signatures P v with Ok _ => Ok tt | Err e => Err (ValueError e) end.

(** [parse_value_result] (496-521) at the parser of the data; the new peers of a negative answer are
    added one after another, errors are ignored. *)
Definition parse_value_result {T} (P : prims) (get : parser T) (d : dht) (now : N) (fresh : bytes) (reply : bytes)
  : res dht_error (option (key_description * T)) * dht :=
  match deserialize get_value_result reply with
  | None => (Err BadValue, d)
  | Some (VrFound v) =>
    match match kd_rule (dv_key v) with UrSignature => verify_signed_dht_value P v | _ => Ok tt end with
    | Err e => (Err e, d)
    | Ok _ =>
      match deserialize get (dv_value v) with
      | None => (Err BadValue, d)
      | Some x => (Ok (Some (dv_key v, x)), d)
      end
    end
  | Some (VrNotFound nodes) =>
    (Ok None, fold_left (fun d n => snd (add_dht_peer P d now fresh n)) nodes d)
  end.

(** [Entry::values] (entry.rs:74-79) as a function of the replies it receives: the requested key
    only determines the query and the order of peers (streams.rs:37-57); each reply is handled by
    [parse_value_result] (streams.rs:73-88). *)
Definition lookup_values {T} (P : prims) (get : parser T) (d : dht) (now : N) (fresh : bytes)
    (key : dht_key) (replies : list bytes) : list (key_description * T) :=
  flat_map (fun reply => match fst (parse_value_result P get d now fresh reply) with
                         | Ok (Some x) => [x]
                         | _ => []
                         end) replies.

(** A boxed address list, the data under the key "address". *)
Definition get_address_list_boxed : parser address_list :=
  let* c := get_u32 in if c =? id_address_list then get_address_list else fail.
Definition put_address_list_boxed (l : address_list) : bytes := put_u32 id_address_list ++ put_address_list l.

(** The entries of [find_address] (347) and [find_overlay_nodes] (287): [Entry::key] (entry.rs:94-101)
    with index 0. *)
Definition address_key (peer_id : bytes) : dht_key := mk_dht_key peer_id key_address 0.
Definition nodes_key (overlay_id : bytes) : dht_key := mk_dht_key overlay_id key_nodes 0.

(** [find_address] (343-359). *)
Definition find_address (P : prims) (d : dht) (now : N) (fresh : bytes) (peer_id : bytes) (replies : list bytes)
  : option (sockaddr * bytes) :=
  let values := lookup_values P get_address_list_boxed d now fresh (address_key peer_id) replies in
  let usable := flat_map (fun '(desc, l) =>
    match parse_address_list l now (o_clock_tolerance (n_opts (d_adnl d))), full_id P (kd_id desc) with
    | Ok addr, Ok key => [(addr, key)]
    | _, _ => []
    end) values in
  match usable with x :: _ => Some x | [] => None end.

(** [EntryWithData::make_value] and [sign] (entry.rs:125-175); [id], [name], [idx] are the entry, [ttl]
    the expiry. *)
Definition sign_entry (P : prims) (secret : bytes) (id name : bytes) (idx : N) (data : bytes) (ttl : N) : dht_value :=
  let desc := mk_key_description (mk_dht_key id name idx) (PkEd25519 (pub_of P secret)) UrSignature [] in
  let desc := mk_key_description (kd_key desc) (kd_id desc) (kd_rule desc)
                (sign P secret (put_key_description_boxed desc)) in
  let v := mk_dht_value desc data ttl [] in
  mk_dht_value desc data ttl (sign P secret (put_dht_value_boxed v)).

(** The value of [store_overlay_node] (node.rs:377-400); [name] is the full overlay id. *)
Definition overlay_entry (P : prims) (name : bytes) (n : ov_node) (ttl : N) : dht_value :=
  let id := PkOverlay name in
  mk_dht_value
    (mk_key_description (mk_dht_key (sha256 P (put_public_key id)) key_nodes 0) id UrOverlayNodes [])
    (put_ov_nodes_boxed [n]) ttl [].
(** The value of [store_address] (node.rs:417-437). *)
Definition address_entry (P : prims) (d : dht) (secret : bytes) (addr : sockaddr) (now ttl : N) : dht_value :=
  sign_entry P secret (short_id P (pub_of P secret)) key_address 0
    (put_address_list_boxed (mk_address_list (Some (address_of addr)) now (n_start (d_adnl d)) 0)) ttl.

(** ** The peers iterator: peers_iter.rs *)
Record peers_iter := mk_peers_iter { pi_key : bytes; pi_peers : list (N * bytes); pi_index : nat }.
Definition peers_iter_new (key : bytes) : peers_iter := mk_peers_iter key [] 0.

(** The body of the loop of [fill] (30-45) on one good peer. *)
Definition fill_peer (key : bytes) (batch : option N) (acc : list (N * bytes)) (peer : bytes) : list (N * bytes) :=
  let affinity := get_affinity key peer in
  let add := match rev acc, batch with
             | [], _ | _, None => true
             | (top, _) :: _, Some b => (top <=? affinity) || (N.of_nat (length acc) <? b)
             end in
  if add then acc ++ [(affinity, peer)] else acc.
(** [retain] (51-57). *)
Fixpoint retain_from (offset batch top : N) (l : list (N * bytes)) : list (N * bytes) :=
  match l with
  | [] => []
  | x :: r =>
    if (offset <? batch) || (top <=? fst x) then x :: retain_from (offset + 1) batch top r
    else retain_from (offset + 1) batch top r
  end.
(** [fill] (27-59) and [next_known_peer] (61-74): the peers from [index] on that are not bad, until the
    set is exhausted; the index is also incremented by the last, empty, access.  [sort] is the
    unstable sort by descending affinity (47-49).  The set is taken constant during the call. *)
Definition iter_fill (sort : list (N * bytes) -> list (N * bytes)) (d : dht) (batch : option N) (it : peers_iter)
  : peers_iter :=
  let members := ps_members (d_known d) in
  let good := List.filter (fun p => negb (is_bad_peer d p)) (skipn (pi_index it) members) in
  let peers := sort (fold_left (fill_peer (pi_key it) batch) good (pi_peers it)) in
  let peers := match batch, peers with
               | Some b, (top, _) :: _ => retain_from 0 b top peers
               | _, _ => peers
               end in
  mk_peers_iter (pi_key it) peers (S (Nat.max (pi_index it) (length members))).
(** [next] (23-25): [pop] takes the last one. *)
Definition iter_next (it : peers_iter) : option bytes * peers_iter :=
  match rev (pi_peers it) with
  | [] => (None, it)
  | (_, p) :: r => (Some p, mk_peers_iter (pi_key it) (rev r) (pi_index it))
  end.

(** ** Histories of a node *)

(** Everything that changes the state of a DHT node: a query received from a peer (its constructor
    is read from its first bytes, adnl/node/receiver.rs), [add_dht_peer], the end of an own query,
    the reply to a value query, [StoreValue::new] (futures.rs:28-40), the garbage collection of the
    storage (node.rs:146-153). *)
Inductive dht_op :=
| DReceive (e : query_env) (query : bytes)
| DAddPeer (now : N) (fresh : bytes) (n : dht_node)
| DQueryEnds (peer : bytes) (o : query_outcome)
| DReply (now : N) (fresh : bytes) (reply : bytes)
| DStore (e : query_env) (v : dht_value)
| DGc (now : N).

(** The answer to a query and the state after it. *)
Definition dht_receive (P : prims) (e : query_env) (d : dht) (query : bytes) : res dht_error (option bytes) * dht :=
  match get_u32 query with
  | None => (Err BadQuery, d)
  | Some (constructor, _) => try_consume_query P e d constructor query
  end.
Definition get_raw : parser bytes := fun l => Some (l, []).
Definition dht_step (P : prims) (d : dht) (op : dht_op) : dht :=
  match op with
  | DReceive e query => snd (dht_receive P e d query)
  | DAddPeer now fresh n => snd (add_dht_peer P d now fresh n)
  | DQueryEnds peer o => after_query d peer o
  | DReply now fresh reply => snd (parse_value_result P get_raw d now fresh reply)
  | DStore e v =>
    set_storage d (snd (storage_insert P (do_storage (d_opts d)) (qe_node_order e) (d_storage d) (qe_now e) (qe_now2 e) v))
  | DGc now => set_storage d (storage_gc (d_storage d) now)
  end.
Definition dht_run (P : prims) (d : dht) (ops : list dht_op) : dht := fold_left (dht_step P) ops d.
