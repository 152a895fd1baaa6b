(** C37-C46, C59, C61-C64: the distributed hash table. *)
From stdpp Require Import gmap.
From Coq Require Import NArith Permutation.
From Verif.Base Require Import Bytes Res.
From Verif.Model Require Import Crypto Tl Scheme ProtoAdnl ProtoDht ProtoOverlay Peer AdnlNode PeersSet
  DhtStorage DhtBuckets DhtNode DhtStream.
From Verif.Spec Require Import Codec CryptoSpec NodeSpec DhtSpec DistanceSpec DhtNodeSpec DhtStreamSpec Sample DhtSample.
From Verif.Proof Require DhtStorageFacts DhtBucketsFacts DhtNodeFacts DhtIterFacts DhtStreamFacts.
Open Scope N_scope.

(** C37: whatever requests, announcements, replies and collections a node has gone through, a value
    it serves is live and authentic. *)
Theorem c37_served_values : forall P adnl secret o ops, Forall dht_op_ok ops ->
  forall key now v, no_collision P (stores ops) ->
  storage_get (d_storage (dht_run P (dht_new P adnl secret o) ops)) key now = Some v ->
  now < dv_ttl v /\ authentic P (do_storage o) key v.
Proof. exact DhtNodeFacts.life_value. Qed.
Print Assumptions c37_served_values.

(** C37 for the storage alone. *)
Theorem c37_storage : forall P o ops key now v, Forall op_ok ops -> no_collision P ops ->
  storage_get (storage_run P o ops) key now = Some v -> now < dv_ttl v /\ authentic P o key v.
Proof. exact DhtStorageFacts.served_authentic. Qed.
Print Assumptions c37_storage.

(** C37, the other way round: an accepted value is served until it expires. *)
Theorem c37_accepted : forall P o order s now now' v t,
  fst (storage_insert P o order s now now' v) = Ok true ->
  let key := sha256 P (put_dht_key_boxed (kd_key (dv_key v))) in
  let s' := snd (storage_insert P o order s now now' v) in
  exists w, s' !! key = Some w /\ dv_key w = dv_key v /\ dv_ttl w = dv_ttl v
    /\ (kd_rule (dv_key v) = UrSignature -> w = v)
    /\ (t < dv_ttl v -> storage_get s' key t = Some w).
Proof. exact DhtStorageFacts.accepted_served. Qed.
Print Assumptions c37_accepted.

Example c37_example :
  length (stores t_ops) = 3%nat /\ no_collision brief (stores t_ops)
  /\ storage_get (d_storage t_server) t_value_key 1700 = Some (t_value 2500)
  /\ storage_get (d_storage t_server) t_value_key 2500 = None.
Proof.
  split; [vm_compute; reflexivity|]. split; [|split; vm_compute; reflexivity].
  apply DhtStorageFacts.no_collision_check. vm_compute. reflexivity.
Qed.
Example c37_example_ops : Forall dht_op_ok t_ops.
Proof.
  assert (He : forall now, env_ok (t_env now)) by (intros now; split; reflexivity).
  constructor; [split; [apply He|vm_compute; reflexivity]|]. constructor; [vm_compute; repeat split|].
  constructor; [split; [apply He|vm_compute; reflexivity]|]. constructor; [exact I|]. constructor; [exact I|constructor].
Qed.

(** C38: a refused store changes nothing. *)
Theorem c38_refused : forall P o order s now now' v,
  fst (storage_insert P o order s now now' v) <> Ok true -> snd (storage_insert P o order s now now' v) = s.
Proof. exact DhtStorageFacts.refused_unchanged. Qed.
Print Assumptions c38_refused.

Theorem c38_other_keys : forall P o order s now now' v key,
  key <> sha256 P (put_dht_key_boxed (kd_key (dv_key v))) ->
  snd (storage_insert P o order s now now' v) !! key = s !! key.
Proof. exact DhtStorageFacts.other_keys_unchanged. Qed.
Print Assumptions c38_other_keys.

(** C38: only a later value of the same owner replaces a signed one. *)
Theorem c38_replaced : forall P o ops op key v w,
  Forall op_ok (ops ++ [op]) -> no_collision P (ops ++ [op]) ->
  storage_run P o ops !! key = Some v -> signed_value P v ->
  storage_run P o (ops ++ [op]) !! key = Some w ->
  w = v \/ (signed_value P w /\ kd_id (dv_key w) = kd_id (dv_key v)
            /\ kd_key (dv_key w) = kd_key (dv_key v) /\ dv_ttl v < dv_ttl w).
Proof. exact DhtStorageFacts.signed_replaced_by_newer. Qed.
Print Assumptions c38_replaced.

(** C38: no value disappears before it expires, and its expiry never moves back. *)
Theorem c38_kept : forall P o ops s key v t,
  s !! key = Some v -> Forall (clock_until t) ops -> t < dv_ttl v ->
  exists w, fold_left (storage_step P o) ops s !! key = Some w /\ dv_ttl v <= dv_ttl w.
Proof. exact DhtStorageFacts.live_value_kept_run. Qed.
Print Assumptions c38_kept.

Example c38_example :
  let store ttl := OpStore (fun l => l) 1000 1000 (t_value ttl) in
  let ttls ops := map (fun x => dv_ttl (snd x)) (map_to_list (storage_run brief (do_storage t_opts) ops)) in
  ttls [store 2000] = [2000] /\ ttls [store 2000; store 1500] = [2000] /\ ttls [store 2000; store 2500] = [2500]
  /\ ttls [store 2000; OpGc 1999] = [2000] /\ ttls [store 2000; OpGc 2001] = [].
Proof. vm_compute. repeat split. Qed.
Example c38_example_signed : signed_value brief (t_value 2000).
Proof. exact (DhtNodeFacts.sign_entry_signed brief brief_ok _ _ _ _ _ _). Qed.

(** C39: lists of overlay nodes are merged; [new] are the received nodes with a valid signature. *)
Theorem c39_merged : forall P o ops order now now' v old_value old received,
  Forall op_ok ops -> op_ok (OpStore order now now' v) -> no_collision P (ops ++ [OpStore order now now' v]) ->
  let key := sha256 P (put_dht_key_boxed (kd_key (dv_key v))) in
  let s := storage_run P o ops in
  s !! key = Some old_value -> overlay_list P old_value old -> now' <= dv_ttl old_value ->
  deserialize get_ov_nodes_boxed (dv_value v) = Some received ->
  N.of_nat (length old) + N.of_nat (length received) < 2 ^ 32 ->
  fst (storage_insert P o order s now now' v) = Ok true ->
  exists w result new,
    snd (storage_insert P o order s now now' v) !! key = Some w /\ overlay_list P w result
    /\ (forall n, In n new <-> In n received /\ signed_node P (sha256 P (put_public_key (kd_id (dv_key v)))) n)
    /\ newest_of_each old new result.
Proof. exact DhtStorageFacts.lists_merged. Qed.
Print Assumptions c39_merged.

Example c39_example :
  let forged := mk_ov_node (PkEd25519 (t_key 6)) t_overlay 9 (repeat 0 64) in
  let l1 := t_list [t_member 2 5; t_member 4 6] 2000 in
  let l2 := t_list [t_member 2 7; forged; t_member 4 3; t_member 5 1] 2000 in
  let ops := [OpStore (fun l => l) 1000 1000 l1] in
  let s := storage_run brief (do_storage t_opts) ops in
  let r := storage_insert brief (do_storage t_opts) (fun l => l) s 1001 1001 l2 in
  fst r = Ok true
  /\ map (fun x => deserialize get_ov_nodes_boxed (dv_value (snd x))) (map_to_list s) = [Some [t_member 2 5; t_member 4 6]]
  /\ map (fun x => option_map (map on_version) (deserialize get_ov_nodes_boxed (dv_value (snd x)))) (map_to_list (snd r))
     = [Some [7; 6; 1]].
Proof. vm_compute. repeat split. Qed.

(** C40: the affinity is the length of the common prefix. *)
Theorem c40_prefix : forall a b, key_ok a -> key_ok b -> a <> b -> common_prefix a b (get_affinity a b).
Proof. exact DhtBucketsFacts.affinity_prefix. Qed.
Print Assumptions c40_prefix.
Theorem c40_same : forall a, key_ok a -> get_affinity a a = 255.
Proof. exact DhtBucketsFacts.affinity_same. Qed.
Print Assumptions c40_same.
Theorem c40_bound : forall a b, key_ok a -> key_ok b -> get_affinity a b < 256.
Proof. exact DhtBucketsFacts.affinity_bound. Qed.
Print Assumptions c40_bound.
Theorem c40_symmetric : forall a b, key_ok a -> key_ok b -> get_affinity a b = get_affinity b a.
Proof. exact DhtBucketsFacts.affinity_symmetric. Qed.
Print Assumptions c40_symmetric.
Theorem c40_closer : forall a b c, key_ok a -> key_ok b -> key_ok c ->
  get_affinity a c < get_affinity a b -> xor_distance a b < xor_distance a c.
Proof. exact DhtBucketsFacts.affinity_closer. Qed.
Print Assumptions c40_closer.
Example c40_example :
  let a := repeat 0 32 in let b := [0; 3] ++ repeat 7 30 in let c := repeat 255 32 in
  key_ok a /\ key_ok b /\ key_ok c
  /\ get_affinity a b = 14 /\ get_affinity a c = 0 /\ get_affinity a (repeat 0 31 ++ [1]) = 255.
Proof. vm_compute. repeat split. Qed.

(** C41 is false: the answer may leave out a closer node and keep a farther one, namely one of the same
    bucket; a lookup of zero nodes gives one node; and a lookup of the node's own id gives none. *)
Theorem c41_closest_refuted : exists local key nodes (peer_id : dht_node -> bytes),
  let b := table peer_id local nodes in
  key_ok local /\ key_ok key /\ (forall n, In n nodes -> key_ok (peer_id n) /\ peer_id n <> local)
  /\ exists x y, In x nodes /\ ~ In x (find_nodes (fun l => l) b key 1) /\ In y (find_nodes (fun l => l) b key 1)
     /\ xor_distance (peer_id x) key < xor_distance (peer_id y) key.
Proof. exact DhtBucketsFacts.find_not_closest. Qed.
Print Assumptions c41_closest_refuted.
Theorem c41_size_refuted : exists local key nodes (peer_id : dht_node -> bytes),
  key_ok local /\ key_ok key /\ length (find_nodes (fun l => l) (table peer_id local nodes) key 0) = 1%nat.
Proof. exact DhtBucketsFacts.find_zero_gives_one. Qed.
Print Assumptions c41_size_refuted.
Theorem c41_own_id : forall order b k, key_ok (bk_local b) -> find_nodes order b (bk_local b) k = [].
Proof. exact DhtBucketsFacts.find_self. Qed.
Print Assumptions c41_own_id.

(** C41: the answer of any node to a request for [k] nodes close to [x].  At most [k] of the known nodes
    (one if k is zero), all closer to [x] than the node itself.  A closer node that is missing belongs to the same
    bucket as the farther one in the answer.  If fewer than [k] are returned, all nodes closer than
    the node itself are. *)
Theorem c41_find_node_partial : forall P, prims_ok P ->
  forall adnl secret o ops, Forall dht_op_ok ops ->
  forall e k x r, env_ok e -> key_ok x -> u32_ok k ->
  let d := dht_run P (dht_new P adnl secret o) ops in
  let local := short_id P (pub_of P secret) in
  let known := known_nodes (d_buckets d) in
  let distance n := xor_distance (node_id_of P n) x in
  exists nodes,
    dht_receive P e d (put_dht_query (DqFindNode x k) ++ r)
      = (Ok (Some (put_u32 id_dht_nodes ++ put_dht_nodes nodes)), d)
    /\ N.of_nat (length nodes) <= N.max 1 k
    /\ List.NoDup (map (node_id_of P) nodes)
    /\ Forall dht_node_ok nodes
    /\ Forall (fun n => In n known /\ announced P n /\ distance n < xor_distance local x) nodes
    /\ (forall n m, In n known -> ~ In n nodes -> In m nodes -> distance n < distance m ->
          get_affinity local (node_id_of P n) = get_affinity local (node_id_of P m))
    /\ (N.of_nat (length nodes) < k ->
          forall n, In n known -> distance n < xor_distance local x -> In n nodes).
Proof. exact DhtNodeFacts.find_node_answer. Qed.
Print Assumptions c41_find_node_partial.
Example c41_example :
  fst (dht_receive brief (t_env 1700) t_server (put_dht_query (DqFindNode (t_id 2) 4)))
    = Ok (Some (put_u32 id_dht_nodes ++ put_dht_nodes [t_announcement 2]))
  /\ length (known_nodes (d_buckets t_server)) = 2%nat.
Proof. vm_compute. repeat split. Qed.

(** C42: the answer to a value request. *)
Theorem c42_find_value : forall P, prims_ok P ->
  forall adnl secret o ops, Forall dht_op_ok ops ->
  forall e k x r, env_ok e -> hash_ok x -> u32_ok k -> no_collision P (stores ops) ->
  let d := dht_run P (dht_new P adnl secret o) ops in
  let known := known_nodes (d_buckets d) in
  let answer := dht_receive P e d (put_dht_query (DqFindValue x k) ++ r) in
  snd answer = d
  /\ (k = 0 \/ do_max_allowed_k o < k -> fst answer = Err InvalidNodeCountLimit)
  /\ (0 < k <= do_max_allowed_k o ->
      exists result, fst answer = Ok (Some (put_value_result result))
      /\ match result with
         | VrFound v => d_storage d !! x = Some v /\ qe_now e < dv_ttl v /\ authentic P (do_storage o) x v
         | VrNotFound nodes =>
           (forall v, d_storage d !! x = Some v -> dv_ttl v <= qe_now e)
           /\ N.of_nat (length nodes) = N.min k (N.of_nat (length known))
           /\ List.NoDup (map (node_id_of P) nodes)
           /\ Forall dht_node_ok nodes
           /\ Forall (fun n => In n known /\ announced P n) nodes
         end).
Proof. exact DhtNodeFacts.find_value_answer. Qed.
Print Assumptions c42_find_value.
Example c42_example :
  let ask now k := fst (dht_receive brief (t_env now) t_server (put_dht_query (DqFindValue t_value_key k))) in
  ask 1700 0 = Err InvalidNodeCountLimit /\ ask 1700 21 = Err InvalidNodeCountLimit
  /\ ask 1700 20 = Ok (Some (put_value_result (VrFound (t_value 2500))))
  /\ ask 2700 1 = Ok (Some (put_value_result (VrNotFound [t_announcement 4])))
  /\ ask 2700 9 = Ok (Some (put_value_result (VrNotFound [t_announcement 4; t_announcement 2]))).
Proof. vm_compute. repeat split. Qed.

(** C43 is false as stated: the first failure is free, and timeouts never count. *)
Theorem c43_first_failure_refuted : forall d peer, d_penalties d !! peer = None ->
  d_penalties (after_queries d [(peer, Failed)]) !! peer = Some 0.
Proof. exact DhtNodeFacts.first_failure_free. Qed.
Print Assumptions c43_first_failure_refuted.
Theorem c43_timeouts_refuted : forall d peer n, d_penalties d !! peer = None ->
  is_bad_peer (after_queries d (repeat (peer, TimedOut) n)) peer = false.
Proof. exact DhtNodeFacts.timeouts_never_bad. Qed.
Print Assumptions c43_timeouts_refuted.
Theorem c43_timeouts_expected : forall l p, Forall (fun o => o = TimedOut) l ->
  expected_points p l = p + 2 * N.of_nat (length l).
Proof. exact DhtNodeFacts.expected_timeouts. Qed.
Print Assumptions c43_timeouts_expected.

(** C43: without timeouts the rule holds from the first failure on. *)
Theorem c43_penalties_partial : forall d l peer,
  Forall (fun o => o <> TimedOut) (outcomes_of peer l) ->
  let d' := after_queries d l in
  d_penalties d' !! peer =
    match d_penalties d !! peer with
    | Some p => Some (expected_points p (outcomes_of peer l))
    | None => option_map (expected_points 0) (after_first_failure (outcomes_of peer l))
    end
  /\ is_bad_peer d' peer =
     match d_penalties d' !! peer with
     | Some p => do_bad_peer_threshold (d_opts d) <? p
     | None => false
     end.
Proof. exact DhtNodeFacts.penalties_partial. Qed.
Print Assumptions c43_penalties_partial.
Example c43_example :
  let p := t_id 2 in
  let bad l := is_bad_peer (after_queries (t_dht 3) (map (fun o => (p, o)) l)) p in
  bad [Failed; Failed; Failed] = false /\ bad [Failed; Failed; Failed; Failed] = true
  /\ bad [Failed; Failed; Failed; Failed; Answered] = false /\ bad (repeat TimedOut 50) = false.
Proof. vm_compute. repeat split. Qed.

(** C44 is false: anybody can answer a search for the address of any peer with any address and any
    key, without any signature. *)
Theorem c44_address_refuted : forall P d now fresh peer_id addr key,
  hash_ok peer_id -> addr_ok addr -> hash_ok key -> valid_pub P key = true ->
  exists v, dv_signature v = [] /\ kd_signature (dv_key v) = [] /\ kd_id (dv_key v) = PkEd25519 key
    /\ kd_key (dv_key v) = mk_dht_key peer_id key_address 0
    /\ find_address P d now fresh peer_id [put_value_result (VrFound v)] = Some (addr, key).
Proof. exact DhtNodeFacts.address_forged. Qed.
Print Assumptions c44_address_refuted.

(** C44: a returned value was in a reply; if it claims the update rule "signature" it is signed by the owner of
    its own key (which need not be the requested one). *)
Theorem c44_values_partial : forall T P (get : parser T) d now fresh key replies desc x,
  In (desc, x) (lookup_values P get d now fresh key replies) ->
  exists reply v, In reply replies /\ deserialize get_value_result reply = Some (VrFound v)
    /\ dv_key v = desc /\ deserialize get (dv_value v) = Some x
    /\ (kd_rule desc = UrSignature ->
        dk_id (kd_key desc) = sha256 P (put_public_key (kd_id desc)) /\ signed_value P v).
Proof. exact DhtNodeFacts.lookup_in. Qed.
Print Assumptions c44_values_partial.
Example c44_example :
  let v := address_entry brief (t_dht 2) (secret_of 2) (addr_of 2) 1000 2000 in
  let broken := mk_dht_value (dv_key v) (dv_value v) 2001 (dv_signature v) in
  find_address brief (t_dht 3) 1500 [] (t_id 2) [put_value_result (VrFound broken)] = None
  /\ find_address brief (t_dht 3) 1500 [] (t_id 2) [put_value_result (VrFound broken); put_value_result (VrFound v)]
     = Some (addr_of 2, t_key 2).
Proof. vm_compute. repeat split. Qed.

(** C45 is false for the peers after the closest ones: of peers with affinities 1, 9 and 5 a batch of two
    takes 9 and 1. *)
Theorem c45_batch_refuted : exists d key sort, sorts sort /\ List.NoDup (ps_members (d_known d))
  /\ exists p q, In p (good_peers d) /\ In q (good_peers d) /\ get_affinity key q < get_affinity key p
     /\ let r := map snd (pi_peers (iter_fill sort d (Some 2) (peers_iter_new key))) in
        length r = 2%nat /\ In q r /\ ~ In p r.
Proof. exact DhtIterFacts.batch_not_best. Qed.
Print Assumptions c45_batch_refuted.
(** C45: the selected peers are asked starting with the farthest one. *)
Theorem c45_order_refuted : forall sort, sorts sort ->
  forall d batch key p it, List.NoDup (ps_members (d_known d)) ->
  let first := iter_fill sort d batch (peers_iter_new key) in
  iter_next first = (Some p, it) ->
  forall q, In q (map snd (pi_peers first)) -> get_affinity key p <= get_affinity key q.
Proof. exact DhtIterFacts.farthest_first. Qed.
Print Assumptions c45_order_refuted.
(** C45: a peer added after a round is skipped by the next one. *)
Theorem c45_refill_refuted : forall sort, sorts sort ->
  forall d d' batch key p,
  ps_members (d_known d') = ps_members (d_known d) ++ [p] -> ~ In p (ps_members (d_known d)) ->
  ~ In p (map snd (pi_peers (iter_fill sort d' batch (iter_fill sort d batch (peers_iter_new key))))).
Proof. exact DhtIterFacts.new_peer_skipped. Qed.
Print Assumptions c45_refill_refuted.

(** C45: the selected peers are known, good and different; without a batch size they are all the good ones; with
    one, that many (more only if all of them are as close as possible); the closest good peers are always among them. *)
Theorem c45_selection_partial : forall sort, sorts sort ->
  forall d batch key, List.NoDup (ps_members (d_known d)) ->
  let r := map snd (pi_peers (iter_fill sort d batch (peers_iter_new key))) in
  List.NoDup r
  /\ (forall p, In p r -> In p (ps_members (d_known d)) /\ is_bad_peer d p = false)
  /\ (batch = None -> Permutation r (good_peers d))
  /\ (forall p, In p (good_peers d) ->
        (forall q, In q (good_peers d) -> get_affinity key q <= get_affinity key p) -> In p r)
  /\ (forall b, batch = Some b -> N.min b (N.of_nat (length (good_peers d))) <= N.of_nat (length r))
  /\ (forall b, batch = Some b -> N.of_nat (length r) <= b
      \/ forall p q, In p r -> In q (good_peers d) -> get_affinity key q <= get_affinity key p).
Proof. exact DhtIterFacts.selected_peers. Qed.
Print Assumptions c45_selection_partial.
(** C45: every selected peer is asked once, in the order of growing affinity. *)
Theorem c45_asked_partial : forall sort, sorts sort ->
  forall d batch key n, List.NoDup (ps_members (d_known d)) ->
  let first := iter_fill sort d batch (peers_iter_new key) in
  (length (pi_peers first) <= n)%nat ->
  Permutation (taken n first) (map snd (pi_peers first))
  /\ Sorted.StronglySorted (fun p q => get_affinity key p <= get_affinity key q) (taken n first).
Proof. exact DhtIterFacts.taken_in_order. Qed.
Print Assumptions c45_asked_partial.
(** The hypothesis on the members holds in every state of a node. *)
Theorem c45_members_once : forall P adnl secret o ops,
  List.NoDup (ps_members (d_known (dht_run P (dht_new P adnl secret o) ops))).
Proof. exact DhtIterFacts.members_once. Qed.
Print Assumptions c45_members_once.
Example c45_example : sorts insertion_sort
  /\ map snd (pi_peers (iter_fill insertion_sort t_server (Some 1) (peers_iter_new (t_id 4)))) = [t_id 4]
  /\ length (pi_peers (iter_fill insertion_sort t_server (Some 2) (peers_iter_new (t_id 4)))) = 2%nat
  /\ length (taken 9 (iter_fill insertion_sort t_server None (peers_iter_new (t_id 4)))) = 2%nat.
Proof. split; [exact DhtIterFacts.insertion_sort_sorts|]. vm_compute. repeat split. Qed.

(** C46 is false about the limit: six queries can be in flight although the limit is five. *)
Theorem c46_limit_refuted : exists peers (e : stream_event unit), List.NoDup peers
  /\ length (vs_flying (stream_run (stream_new peers) [e])) = 6%nat.
Proof. exact DhtStreamFacts.limit_exceeded. Qed.
Print Assumptions c46_limit_refuted.
(** C46: never more than six. *)
Theorem c46_limit_partial : forall V (events : list (stream_event V)) peers,
  (length (vs_flying (stream_run (stream_new peers) events)) <= 6)%nat.
Proof. exact @DhtStreamFacts.stream_in_flight. Qed.
Print Assumptions c46_limit_partial.
(** C46: every peer is asked at most once, exactly once when the stream has ended; every value
    received is yielded. *)
Theorem c46_each_once : forall V (events : list (stream_event V)) peers, Forall no_new_peers events ->
  let s := stream_run (stream_new peers) events in
  (exists rest, rev peers = vs_asked s ++ rest)
  /\ vs_yielded s = values_of (vs_done s)
  /\ (vs_ended s = true -> Permutation (vs_asked s) peers /\ Permutation (map fst (vs_done s)) peers).
Proof. exact @DhtStreamFacts.stream_complete. Qed.
Print Assumptions c46_each_once.
(** C46: it ends, and before that something is always in flight. *)
Theorem c46_ends : forall V (events : list (stream_event V)) peers, Forall no_new_peers events ->
  (length peers < length (List.filter completed events))%nat ->
  vs_ended (stream_run (stream_new peers) events) = true.
Proof. exact @DhtStreamFacts.stream_ends. Qed.
Print Assumptions c46_ends.
Theorem c46_progress : forall V (events : list (stream_event V)) peers,
  let s := stream_run (stream_new peers) (events ++ [Waiting]) in vs_ended s = true \/ vs_flying s <> [].
Proof. exact @DhtStreamFacts.stream_waits_for_something. Qed.
Print Assumptions c46_progress.
Example c46_example :
  let s := stream_run (stream_new (map (fun x => [x]) [1; 2; 3; 4; 5; 6; 7]))
    [Completed 2 (Some 11) None; Waiting; Completed 0 None None; Completed 4 (Some 12) None;
     Completed 0 None None; Completed 0 None None; Completed 0 None None; Completed 0 None None; Completed 0 None None] in
  vs_ended s = true /\ vs_yielded s = [11; 12] /\ vs_asked s = map (fun x => [x]) [7; 6; 5; 4; 3; 2; 1].
Proof. vm_compute. repeat split. Qed.

(** C59 is false in both parts: no node is ever resolved twice, and as long as the DHT returns lists
    and no address is found the search goes on. *)
Theorem c59_no_retry_refuted : forall P rounds, List.NoDup (concat (se_asked (search_run P rounds))).
Proof. exact DhtStreamFacts.each_resolved_once. Qed.
Print Assumptions c59_no_retry_refuted.
Theorem c59_endless_refuted : forall P rounds,
  Forall (fun r => sr_received r <> [] /\ forall id, sr_address r id = None) rounds ->
  se_done (search_run P rounds) = false.
Proof. exact DhtStreamFacts.search_continues. Qed.
Print Assumptions c59_endless_refuted.
(** C59: the search ends as soon as an address was found or a round receives nothing. *)
Theorem c59_ends : forall P before r after,
  sr_received r = [] \/ se_result (search_run P (before ++ [r])) <> [] ->
  se_done (search_run P (before ++ [r])) = true
  /\ search_run P (before ++ r :: after) = search_run P (before ++ [r]).
Proof. exact DhtStreamFacts.search_ends. Qed.
Print Assumptions c59_ends.
(** C59: what is found comes from the DHT. *)
Theorem c59_result_partial : forall P rounds a n, In (a, n) (se_result (search_run P rounds)) ->
  exists r key, In r rounds /\ full_id P (on_id n) = Ok key /\ sr_address r (short_id P key) = Some a
    /\ exists r' l, In r' rounds /\ In l (sr_received r') /\ In n l.
Proof. exact DhtStreamFacts.search_result_sound. Qed.
Print Assumptions c59_result_partial.
Example c59_example :
  let silent := mk_search_round [[t_member 2 5; t_member 4 6]] (fun _ => None) in
  let helpful := mk_search_round [[t_member 2 5; t_member 5 1]] (fun _ => Some (addr_of 9)) in
  se_done (search_run brief [silent; silent; silent]) = false
  /\ se_asked (search_run brief [silent; silent; silent]) = [[t_id 2; t_id 4]; []; []]
  /\ se_result (search_run brief [silent; helpful]) = [(addr_of 9, t_member 5 1)].
Proof. vm_compute. repeat split. Qed.

(** C61: a value signed with the API and sent to a node is stored, returned by it and accepted by
    whoever asks, until it expires. *)
Theorem c61_published : forall P, prims_ok P ->
  forall T (get : parser T) x server e r secret name idx data ttl,
  let id := short_id P (pub_of P secret) in
  let v := sign_entry P secret id name idx data ttl in
  let key := sha256 P (put_dht_key_boxed (mk_dht_key id name idx)) in
  let opts := d_opts server in
  entry_ok name idx data ttl -> qe_now e < ttl ->
  N.of_nat (length name) <= so_name_len (do_storage opts) -> idx <= so_index (do_storage opts) ->
  (forall old, d_storage server !! key = Some old -> dv_ttl old < ttl) ->
  exists server', dht_receive P e server (put_dht_query (DqStore v) ++ r) = (Ok (Some put_dht_stored), server')
    /\ forall e' k r', qe_now e' < ttl -> 0 < k <= do_max_allowed_k opts -> u32_ok k ->
       exists reply, dht_receive P e' server' (put_dht_query (DqFindValue key k) ++ r') = (Ok (Some reply), server')
         /\ forall client now fresh, deserialize get data = Some x ->
            parse_value_result P get client now fresh reply = (Ok (Some (dv_key v, x)), client).
Proof. exact DhtNodeFacts.published_found. Qed.
Print Assumptions c61_published.
(** C61 for addresses: what [store_address] published is what [find_address] finds. *)
Theorem c61_address : forall P, prims_ok P ->
  forall publisher secret addr now ttl client now' fresh others r,
  addr_ok addr -> u32_ok now -> u32_ok ttl -> u32_ok (n_start (d_adnl publisher)) ->
  n_start (d_adnl publisher) <= now' + o_clock_tolerance (n_opts (d_adnl client)) ->
  let v := address_entry P publisher secret addr now ttl in
  let id := short_id P (pub_of P secret) in
  find_address P client now' fresh id ((put_value_result (VrFound v) ++ r) :: others) = Some (addr, pub_of P secret).
Proof. exact DhtNodeFacts.address_found. Qed.
Print Assumptions c61_address.
(** C61 for overlay nodes: the value of [store_overlay_node] is accepted by every storage. *)
Theorem c61_overlay_node : forall P o order s now now' name n ttl, (forall l, Permutation (order l) l) ->
  let v := overlay_entry P name n ttl in
  let overlay := sha256 P (put_public_key (PkOverlay name)) in
  let key := sha256 P (put_dht_key_boxed (mk_dht_key overlay key_nodes 0)) in
  ov_node_ok n -> signed_node P overlay n -> now < ttl -> 5 <= so_name_len o -> s !! key = None ->
  exists w, storage_insert P o order s now now' v = (Ok true, <[key := w]> s)
    /\ dv_ttl w = ttl /\ overlay_list P w [n].
Proof. exact DhtNodeFacts.overlay_entry_stored. Qed.
Print Assumptions c61_overlay_node.
Example c61_example :
  let stored := dht_receive brief (t_env 1800) t_server (put_dht_query (DqStore (t_value 3000))) in
  fst stored = Ok (Some put_dht_stored)
  /\ fst (dht_receive brief (t_env 2900) (snd stored) (put_dht_query (DqFindValue t_value_key 1)))
     = Ok (Some (put_value_result (VrFound (t_value 3000))))
  /\ fst (parse_value_result brief get_raw (t_dht 5) 2900 [] (put_value_result (VrFound (t_value 3000))))
     = Ok (Some (dv_key (t_value 3000), [1; 2; 3]))
  /\ fst (storage_insert brief (do_storage t_opts) (fun l => l) ∅ 1000 1000 (overlay_entry brief t_overlay_name (t_member 2 5) 2000))
     = Ok true.
Proof. vm_compute. repeat split. Qed.

(** C62: what a node announces about itself is well-formed, signed, and accepted by every other node. *)
Theorem c62_announced : forall P, prims_ok P -> forall d now, announced P (sign_local_node P d now).
Proof. exact DhtNodeFacts.local_node_announced. Qed.
Print Assumptions c62_announced.
Theorem c62_accepted : forall P, prims_ok P ->
  forall d now adnl key o ops now' fresh,
  let n := sign_local_node P d now in
  let id := dht_local_id P d in
  let d' := dht_run P (dht_new P adnl key o) ops in
  let local := short_id P (pub_of P key) in
  addr_ok (n_addr (d_adnl d)) ->
  n_start (d_adnl d) <= now' + o_clock_tolerance (n_opts (d_adnl d')) ->
  id <> local -> sockaddr_eqb (n_addr (d_adnl d)) (n_addr (d_adnl d')) = false ->
  n_filter (d_adnl d') = None -> n_peers (d_adnl d') !! local <> None ->
  exists d'', add_dht_peer P d' now' fresh n = (Ok (Some id), d'')
    /\ ps_contains (d_known d'') id = true
    /\ get_peer_address (d_adnl d'') local id = Some (n_addr (d_adnl d)).
Proof. exact DhtNodeFacts.local_node_added. Qed.
Print Assumptions c62_accepted.
Example c62_example :
  let r := add_dht_peer brief (t_dht 3) 1000 (secret_of 91) (t_announcement 4) in
  fst r = Ok (Some (t_id 4)) /\ get_peer_address (d_adnl (snd r)) (t_id 3) (t_id 4) = Some (addr_of 4)
  /\ fst (add_dht_peer brief (t_dht 3) 1000 (secret_of 91) (t_announcement 3)) = Ok None.
Proof. vm_compute. repeat split. Qed.

(** C63 is false: the routing table never takes a newer record of a known node. *)
Theorem c63_newest_refuted : forall P d now fresh n,
  ps_contains (d_known d) (node_id_of P n) = true ->
  d_buckets (snd (add_dht_peer P d now fresh n)) = d_buckets d.
Proof. exact DhtNodeFacts.record_never_updated. Qed.
Print Assumptions c63_newest_refuted.
(** C63 holds for the table alone. *)
Theorem c63_table_partial : forall peer_id local nodes m, key_ok local ->
  (forall n, In n nodes -> key_ok (peer_id n)) -> In m nodes ->
  exists x, In x (known_nodes (table peer_id local nodes)) /\ peer_id x = peer_id m /\ dn_version m <= dn_version x.
Proof. exact DhtBucketsFacts.known_newest. Qed.
Print Assumptions c63_table_partial.
Example c63_example :
  let moved := mk_dht (secret_of 4) t_opts (d_known (t_dht 4)) ∅ (d_buckets (t_dht 4)) ∅
                 (node_new (addr_of 44) 1200 sample_options None {[t_id 4 := secret_of 4]}) in
  let d := snd (add_dht_peer brief t_server 1300 (secret_of 91) (sign_local_node brief moved 1300)) in
  get_peer_address (d_adnl d) (t_id 3) (t_id 4) = Some (addr_of 44)
  /\ find_nodes (fun l => l) (d_buckets d) (t_id 4) 1 = [t_announcement 4].
Proof. vm_compute. repeat split. Qed.

(** C64: answers to the other queries; a query announcing its sender is answered like the query
    without announcement. *)
Theorem c64_ping : forall P e d x r, u64_ok x ->
  dht_receive P e d (put_dht_query (DqPing x) ++ r) = (Ok (Some (put_dht_pong x)), d).
Proof. exact DhtNodeFacts.receive_ping. Qed.
Print Assumptions c64_ping.
Theorem c64_announcing : forall P e d n query, dht_node_ok n ->
  dht_receive P e d (put_dht_query (DqQuery n) ++ query) =
  match get_u32 query with
  | None => (Err BadQuery, d)
  | Some _ =>
    match add_dht_peer P d (qe_now e) (qe_fresh e) n with
    | (Err err, d') => (Err err, d')
    | (Ok _, d') =>
      match dht_receive P e d' query with
      | (Ok None, d'') => (Err UnexpectedQuery, d'')
      | other => other
      end
    end
  end.
Proof. exact DhtNodeFacts.receive_prefixed. Qed.
Print Assumptions c64_announcing.
Theorem c64_foreign : forall P e d query c r, get_u32 query = Some (c, r) ->
  ~ In c [id_dht_ping; id_dht_find_node; id_dht_find_value; id_dht_get_signed_address_list; id_dht_store; id_dht_query] ->
  dht_receive P e d query = (Ok None, d).
Proof. exact DhtNodeFacts.receive_other. Qed.
Print Assumptions c64_foreign.
Theorem c64_total : forall P e d query, fst (dht_receive P e d query) <> Err OutOfFuel.
Proof. exact DhtNodeFacts.receive_total. Qed.
Print Assumptions c64_total.
Example c64_example :
  let wrapped := put_dht_query (DqQuery (t_announcement 5)) ++ put_dht_query (DqQuery (t_announcement 4)) ++ put_dht_query (DqPing 77) in
  let r := dht_receive brief (t_env 1700) t_server wrapped in
  fst r = Ok (Some (put_dht_pong 77)) /\ ps_members (d_known (snd r)) = [t_id 2; t_id 4; t_id 5].
Proof. vm_compute. repeat split. Qed.
