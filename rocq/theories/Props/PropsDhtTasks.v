(** C46, C79, C80: operations over several DHT nodes. *)
From stdpp Require Import gmap.
From Coq Require Import NArith Permutation.
From Verif.Base Require Import Bytes Res.
From Verif.Model Require Import Crypto Tl Scheme ProtoAdnl ProtoDht ProtoOverlay Peer AdnlNode PeersSet
  DhtStorage DhtBuckets DhtNode DhtStream DhtTasks.
From Verif.Spec Require Import Codec CryptoSpec NodeSpec DhtSpec DhtNodeSpec DhtStreamSpec DhtTaskSpec Sample DhtSample DhtTaskSample.
From Verif.Proof Require DhtIterFacts DhtTaskFacts DhtTaskSamples.
Open Scope N_scope.

(** C46 for lookups over a node whose set of peers grows meanwhile: nobody is asked twice, only known
    peers are asked, every value received is yielded, and at the end everybody asked has answered. *)
Theorem c46_new_peers : forall T P (get : parser T) adnl secret o ops sort key batch new_peers evs,
  sorts sort -> Forall lookup_event_ok evs ->
  let d := dht_run P (dht_new P adnl secret o) ops in
  let r := lookup_run P get (d, lookup_new sort d key batch new_peers) evs in
  let s := lk_stream (snd r) in
  ps_is_full (d_known (fst r)) = false ->
  List.NoDup (vs_asked s)
  /\ (forall p, In p (vs_asked s) -> In p (ps_members (d_known (fst r))))
  /\ vs_yielded s = values_of (vs_done s)
  /\ (vs_ended s = true -> Permutation (map fst (vs_done s)) (vs_asked s)).
Proof. exact DhtTaskFacts.lookup_each_once. Qed.
Print Assumptions c46_new_peers.
(** C46: it ends when more queries have ended than peers are known. *)
Theorem c46_new_peers_ends : forall T P (get : parser T) adnl secret o ops sort key batch new_peers evs,
  sorts sort -> Forall lookup_event_ok evs ->
  let d := dht_run P (dht_new P adnl secret o) ops in
  let r := lookup_run P get (d, lookup_new sort d key batch new_peers) evs in
  ps_is_full (d_known (fst r)) = false ->
  (length (ps_members (d_known (fst r))) < lookup_ends_count evs)%nat ->
  vs_ended (lk_stream (snd r)) = true.
Proof. exact @DhtTaskFacts.lookup_terminates. Qed.
Print Assumptions c46_new_peers_ends.
(** C46: what a lookup does to the node are steps of a history of the node. *)
Theorem c46_history : forall T P (get : parser T) evs d l,
  exists ops, fst (lookup_run P get (d, l) evs) = dht_run P d ops.
Proof. exact DhtTaskFacts.lookup_history. Qed.
Print Assumptions c46_history.
Example c46_new_peers_example :
  let r := lookup_run brief get_raw k_lookup k_lookup_events in
  sorts insertion_sort /\ Forall lookup_event_ok k_lookup_events
  /\ ps_is_full (d_known (fst r)) = false
  /\ vs_asked (lk_stream (snd r)) = [t_id 4; t_id 2; t_id 6]
  /\ map snd (vs_yielded (lk_stream (snd r))) = [[1; 2; 3]]
  /\ vs_ended (lk_stream (snd r)) = true
  /\ ps_members (d_known (fst r)) = [t_id 2; t_id 4; t_id 5; t_id 6].
Proof.
  split; [exact DhtIterFacts.insertion_sort_sorts|]. split; [exact DhtTaskSamples.lookup_events_ok|].
  vm_compute. repeat split.
Qed.

(** C43 for lookups: the end of each of their queries counts for the peer that was asked, and for nobody else. *)
Theorem c43_lookups : forall T P (get : parser T) sort now fresh d (l : lookup T) i p,
  let flying := vs_flying (stream_refill (lk_stream l)) in
  nth_error flying (i mod length flying) = Some p ->
  let ends e := fst (lookup_ends P get sort now fresh d l i e) in
  ends Broken = after_queries d [(p, Failed)] /\ ends Silent = after_queries d [(p, TimedOut)]
  /\ forall reply, ends (Replied reply) = snd (parse_value_result P get (after_queries d [(p, Answered)]) now fresh reply).
Proof. exact DhtTaskFacts.ends_counted. Qed.
Print Assumptions c43_lookups.
Example c43_lookups_example :
  let flying := vs_flying (stream_refill (lk_stream (snd k_lookup))) in
  exists p, nth_error flying (1 mod length flying) = Some p.
Proof. eexists. vm_compute. reflexivity. Qed.

(** C43: so does the end of each query that stores a value, or that looks for it afterwards, *)
Theorem c43_stores : forall T E P (get : parser T) (check : list (key_description * T) -> key_description * T -> res E bool)
    (s : store_check T E) i,
  (forall flying p o, sk_stage s = Storing flying -> nth_error flying i = Some p ->
     sk_dht (store_step P get check s (SkStored i o)) = after_queries (sk_dht s) [(p, o)])
  /\ (forall l e sort now fresh, sk_stage s = Looking l ->
     sk_dht (store_step P get check s (SkFound i e sort now fresh)) = fst (lookup_ends P get sort now fresh (sk_dht s) l i e)).
Proof. exact DhtTaskFacts.stores_counted. Qed.
Print Assumptions c43_stores.
Example c43_stores_example :
  let s := store_step brief get_raw (fun _ _ => Ok (E:=unit) false) (then_check t_server t_value_key true) SkPoll in
  exists flying p, sk_stage s = Storing flying /\ nth_error flying 1 = Some p.
Proof. do 2 eexists. split; [reflexivity|]. vm_compute. reflexivity. Qed.
(** and of each query of a discovery. *)
Theorem c43_discovery : forall P (s : discovery) i p, dc_result s = None -> nth_error (dc_flying s) i = Some p ->
  let ends r := dc_dht (discovery_step P s (DcEnds i r)) in
  ends (Err tt) = after_queries (dc_dht s) [(p, Failed)]
  /\ forall l, ends (Ok l) = snd (add_offered P (after_queries (dc_dht s) [(p, Answered)]) (dc_count s) l).
Proof. exact DhtTaskFacts.discovery_penalties. Qed.
Print Assumptions c43_discovery.
Example c43_tasks_example :
  let s := discovery_start t_server in
  dc_result s = None /\ exists p, nth_error (dc_flying s) 1 = Some p.
Proof. split; [vm_compute; reflexivity|]. eexists. vm_compute. reflexivity. Qed.

(** C79: the value is sent to every peer known at the first poll, once, and all these queries have
    ended before anything is looked up. *)
Theorem c79_sent : forall T E P (get : parser T) (check : list (key_description * T) -> key_description * T -> res E bool)
  adnl secret o ops key all evs,
  let d := dht_run P (dht_new P adnl secret o) ops in
  let s := store_run P get check (then_check d key all) evs in
  looking_or_decided s ->
  exists before after, evs = before ++ SkPoll :: after /\ ~ In SkPoll before
    /\ sk_told s = ps_members (d_known (dht_run P d (other_ops before)))
    /\ List.NoDup (sk_told s)
    /\ Permutation (sk_ended s) (sk_told s).
Proof. exact @DhtTaskFacts.sent_to_all. Qed.
Print Assumptions c79_sent.
(** C79: the result says what the check said about the values found. *)
Theorem c79_result : forall T E P (get : parser T) (check : list (key_description * T) -> key_description * T -> res E bool)
  d key all evs r,
  let s := store_run P get check (then_check d key all) evs in
  decided s = Some r ->
  match r with
  | Ok false => all_refused check (sk_seen s)
  | _ => exists before v, sk_seen s = before ++ [v] /\ all_refused check before /\ check before v = r
  end.
Proof. exact @DhtTaskFacts.store_verdict. Qed.
Print Assumptions c79_result.
(** C79: the values found come from replies. *)
Theorem c79_seen : forall T E P (get : parser T) (check : list (key_description * T) -> key_description * T -> res E bool)
  d key all evs v,
  In v (sk_seen (store_run P get check (then_check d key all) evs)) -> exists ev, In ev evs /\ replied_with P get v ev.
Proof. exact @DhtTaskFacts.seen_replied. Qed.
Print Assumptions c79_seen.
(** C79: nobody is asked twice; "no" is said only when everybody asked has answered and every value in the
    answers was refused. *)
Theorem c79_asked : forall T E P (get : parser T) (check : list (key_description * T) -> key_description * T -> res E bool)
  adnl secret o ops key all evs l,
  Forall store_event_ok evs ->
  let d := dht_run P (dht_new P adnl secret o) ops in
  let s := store_run P get check (then_check d key all) evs in
  ps_is_full (d_known (sk_dht s)) = false -> lookup_of s = Some l ->
  List.NoDup (vs_asked (lk_stream l))
  /\ (forall p, In p (vs_asked (lk_stream l)) -> In p (ps_members (d_known (sk_dht s))))
  /\ (decided s = Some (Ok false) -> Permutation (map fst (vs_done (lk_stream l))) (vs_asked (lk_stream l))
                                     /\ sk_seen s = values_of (vs_done (lk_stream l))).
Proof. exact @DhtTaskFacts.store_asks. Qed.
Print Assumptions c79_asked.
(** C79: it ends when more queries of the lookup have ended than peers are known. *)
Theorem c79_ends : forall T E P (get : parser T) (check : list (key_description * T) -> key_description * T -> res E bool)
  adnl secret o ops key all evs more,
  Forall store_event_ok (evs ++ more) ->
  let d := dht_run P (dht_new P adnl secret o) ops in
  let s := store_run P get check (then_check d key all) (evs ++ more) in
  looking_or_decided (store_run P get check (then_check d key all) evs) ->
  ps_is_full (d_known (sk_dht s)) = false ->
  (length (ps_members (d_known (sk_dht s))) < found_count more)%nat ->
  exists r, decided s = Some r.
Proof. exact @DhtTaskFacts.store_ends. Qed.
Print Assumptions c79_ends.
(** C79: what it does to the node are steps of a history of the node. *)
Theorem c79_history : forall T E P (get : parser T) (check : list (key_description * T) -> key_description * T -> res E bool)
  evs s, exists ops, sk_dht (store_run P get check s evs) = dht_run P (sk_dht s) ops.
Proof. exact @DhtTaskFacts.store_history. Qed.
Print Assumptions c79_history.
(** C79: an entry signed with the key of the publisher is stored locally at once. *)
Theorem c79_local : forall P, prims_ok P -> forall e d secret name idx data ttl,
  let id := short_id P (pub_of P secret) in
  let v := sign_entry P secret id name idx data ttl in
  let key := sha256 P (put_dht_key_boxed (mk_dht_key id name idx)) in
  let opts := d_opts d in
  qe_now e < ttl -> N.of_nat (length name) <= so_name_len (do_storage opts) -> idx <= so_index (do_storage opts) ->
  (forall old, d_storage d !! key = Some old -> dv_ttl old < ttl) ->
  exists d', store_new P e d v = (Ok (put_dht_query (DqStore v)), d')
    /\ forall now, now < ttl -> storage_get (d_storage d') key now = Some v.
Proof. exact DhtTaskFacts.local_store. Qed.
Print Assumptions c79_local.
(** C79: only a value that may be stored is sent to anybody; otherwise nothing changes. *)
Theorem c79_checked : forall P e d v r d', store_new P e d v = (r, d') ->
  match r with
  | Ok query => query = put_dht_query (DqStore v) /\ storable P (do_storage (d_opts d)) (qe_now e) v
  | Err _ => d_storage d' = d_storage d
  end.
Proof. exact DhtTaskFacts.store_checked. Qed.
Print Assumptions c79_checked.
Example c79_checked_example :
  fst (store_new brief (t_env 1500) t_server (t_value 3000)) = Ok (put_dht_query (DqStore (t_value 3000)))
  /\ fst (store_new brief (t_env 1500) t_server (t_value 1500)) = Err (StoreError ValueExpired).
Proof. vm_compute. split; reflexivity. Qed.
(** C79: a peer that was sent the value answers the lookup with it, and its answer decides if the
    value passes the check. *)
Theorem c79_stored : forall P, prims_ok P ->
  forall T E (get : parser T) x (check : list (key_description * T) -> key_description * T -> res E bool)
  server e secret name idx data ttl,
  let id := short_id P (pub_of P secret) in
  let v := sign_entry P secret id name idx data ttl in
  let key := sha256 P (put_dht_key_boxed (mk_dht_key id name idx)) in
  let opts := d_opts server in
  entry_ok name idx data ttl -> qe_now e < ttl ->
  N.of_nat (length name) <= so_name_len (do_storage opts) -> idx <= so_index (do_storage opts) ->
  (forall old, d_storage server !! key = Some old -> dv_ttl old < ttl) ->
  6 <= do_max_allowed_k opts -> deserialize get data = Some x ->
  exists server', dht_receive P e server (put_dht_query (DqStore v)) = (Ok (Some put_dht_stored), server')
    /\ forall e', qe_now e' < ttl ->
       exists reply, dht_receive P e' server' (lookup_query key) = (Ok (Some reply), server')
         /\ forall (s : store_check T E) l i sort now fresh, sk_stage s = Looking l ->
            vs_ended (lk_stream l) = false -> vs_flying (stream_refill (lk_stream l)) <> [] ->
            check (sk_seen s) (dv_key v, x) = Ok true ->
            decided (store_step P get check s (SkFound i (Replied reply) sort now fresh)) = Some (Ok true).
Proof. exact DhtTaskFacts.stored_is_found. Qed.
Print Assumptions c79_stored.

(** C79 is false about [check_all]: it changes nothing. *)
Theorem c79_check_all_refuted : forall T E P (get : parser T) (check : list (key_description * T) -> key_description * T -> res E bool)
  d key evs,
  let s := store_run P get check (then_check d key true) evs in
  let s' := store_run P get check (then_check d key false) evs in
  sk_stage s = sk_stage s' /\ sk_seen s = sk_seen s' /\ sk_told s = sk_told s' /\ sk_dht s = sk_dht s'.
Proof. exact @DhtTaskFacts.check_all_ignored. Qed.
Print Assumptions c79_check_all_refuted.
(** C79 is false about peers with the documented limit of five nodes: they refuse every lookup. *)
Theorem c79_limit_refuted : forall P server e key, hash_ok key -> do_max_allowed_k (d_opts server) < 6 ->
  dht_receive P e server (lookup_query key) = (Err InvalidNodeCountLimit, server).
Proof. exact DhtTaskFacts.small_limit_refuses. Qed.
Print Assumptions c79_limit_refuted.
(** C79 is false about published addresses: one unsigned answer of any peer makes the operation succeed, and
    another one makes it fail, whatever the other peers have stored. *)
Theorem c79_address_refuted : forall P peer_id key tolerance clock addr, hash_ok peer_id -> hash_ok key -> addr_ok addr ->
  forall answer, answer = Ok true \/ answer = Err ListIsEmpty ->
  exists v, kd_key (dv_key v) = mk_dht_key peer_id key_address 0 /\ kd_signature (dv_key v) = [] /\ dv_signature v = []
  /\ forall (s : store_check address_list address_list_error) l i sort now fresh, sk_stage s = Looking l ->
     vs_ended (lk_stream l) = false -> vs_flying (stream_refill (lk_stream l)) <> [] ->
     decided (store_step P get_address_list_boxed (address_check tolerance clock addr) s
       (SkFound i (Replied (put_value_result (VrFound v))) sort now fresh)) = Some answer.
Proof. exact DhtTaskFacts.unsigned_decides. Qed.
Print Assumptions c79_address_refuted.
Example c79_example :
  let start := store_run brief get_raw k_check (then_check t_server t_value_key false) k_start in
  let s := store_run brief get_raw k_check (then_check t_server t_value_key false) k_store_events in
  let s' := store_run brief get_raw k_refuse (then_check t_server t_value_key false) k_store_events in
  Forall store_event_ok k_store_events
  /\ (match sk_stage start with
      | Looking l => vs_ended (lk_stream l) = false /\ vs_flying (stream_refill (lk_stream l)) <> []
      | _ => False end)
  /\ decided s = Some (Ok true) /\ sk_told s = [t_id 2; t_id 4] /\ sk_ended s = [t_id 4; t_id 2]
  /\ map snd (sk_seen s) = [[1; 2; 3]] /\ ps_is_full (d_known (sk_dht s)) = false
  /\ decided s' = Some (Ok false).
Proof.
  split; [exact DhtTaskSamples.store_events_ok|]. vm_compute. repeat split. discriminate.
Qed.

(** C80: every known peer is asked once; the count is given when all of them have answered or failed. *)
Theorem c80_asked : forall P adnl secret o ops evs,
  let d := dht_run P (dht_new P adnl secret o) ops in
  let s := discovery_run P (discovery_start d) evs in
  dc_asked s = ps_members (d_known d) /\ List.NoDup (dc_asked s)
  /\ (exists rest, Permutation (dc_asked s) (rest ++ dc_ended s))
  /\ (forall n, dc_result s = Some (Ok n) -> Permutation (dc_ended s) (dc_asked s))
  /\ (dc_result s = None -> dc_flying s <> []).
Proof. exact DhtTaskFacts.discovery_asks. Qed.
Print Assumptions c80_asked.
(** C80: unless there is an error, every record of every answer is handed to the node, and the nodes it
    accepts are known afterwards. *)
Theorem c80_added_partial : forall P adnl secret o ops evs,
  let d := dht_run P (dht_new P adnl secret o) ops in
  let s := discovery_run P (discovery_start d) evs in
  (exists n, dc_result s = Some (Ok n)) \/ dc_result s = None ->
  ps_is_full (d_known (dc_dht s)) = false ->
  forall x, In x (answers_of P (discovery_start d) evs) ->
  exists ops' new, let now := dht_run P (dht_new P adnl secret o) ops' in
    fst (add_dht_peer P now (of_now x) (of_fresh x) (of_node x)) = Ok new
    /\ (forall id, new = Some id -> id = node_id_of P (of_node x) /\ In id (ps_members (d_known (dc_dht s)))).
Proof. exact DhtTaskFacts.discovery_adds. Qed.
Print Assumptions c80_added_partial.
Theorem c80_history : forall P evs s, exists ops, dc_dht (discovery_run P s evs) = dht_run P (dc_dht s) ops.
Proof. exact DhtTaskFacts.discovery_history. Qed.
Print Assumptions c80_history.
(** C80 is false: one record with a key of another kind ends the discovery with an error, and nothing of the
    answers that come later is used. *)
Theorem c80_abort_refuted : forall P s i p before bad after e later,
  dc_result s = None -> nth_error (dc_flying s) i = Some p -> full_id P (dn_id (of_node bad)) = Err e ->
  let s1 := discovery_step P s (DcEnds i (Ok (before ++ bad :: after))) in
  let s2 := discovery_run P s1 later in
  (exists err, dc_result s2 = Some (Err err)) /\ dc_dht s2 = dht_run P (dc_dht s1) (other_ops_of later).
Proof. exact DhtTaskFacts.discovery_aborts. Qed.
Print Assumptions c80_abort_refuted.
(** C80: the count it ends with is the number of records in the answers that were accepted, all signed by
    their nodes, and nobody else became known. *)
Theorem c80_counted : forall P d evs n,
  let s := discovery_run P (discovery_start d) evs in
  dc_result s = Some (Ok n) ->
  exists taken rest, Permutation (answers_of P (discovery_start d) evs) (taken ++ rest)
    /\ N.of_nat (length taken) = n
    /\ Forall (fun x => announced P (of_node x)) taken
    /\ (other_ops_of evs = [] -> forall p, In p (ps_members (d_known (dc_dht s))) ->
         In p (ps_members (d_known d)) \/ In p (map (fun x => node_id_of P (of_node x)) taken)).
Proof. exact DhtTaskFacts.discovery_counted. Qed.
Print Assumptions c80_counted.
(** C80 is false about the count: peers that were known before are counted. *)
Theorem c80_count_refuted :
  let s := discovery_run brief (discovery_start t_server) k_discovery in
  ps_members (d_known t_server) = [t_id 2; t_id 4]
  /\ ps_members (d_known (dc_dht s)) = [t_id 2; t_id 4; t_id 5]
  /\ dc_result s = Some (Ok 3).
Proof. exact DhtTaskSamples.known_counted. Qed.
Print Assumptions c80_count_refuted.
Example c80_example :
  let s := discovery_run brief (discovery_start t_server) k_discovery in
  dc_ended s = [t_id 4; t_id 2] /\ map of_node (answers_of brief (discovery_start t_server) k_discovery)
    = map t_announcement [2; 5; 4]
  /\ ps_is_full (d_known (dc_dht s)) = false
  /\ dc_result (discovery_start t_server) = None
  /\ nth_error (dc_flying (discovery_start t_server)) 1 = Some (t_id 4)
  /\ full_id brief (dn_id (of_node k_bad_offer)) = Err UnsupportedPublicKey.
Proof. vm_compute. repeat split. Qed.
