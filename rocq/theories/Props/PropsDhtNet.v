(** C85: values stored in the DHT are found by others. *)
From stdpp Require Import gmap.
From Coq Require Import NArith.
From Verif.Base Require Import Bytes Res.
From Verif.Model Require Import Crypto Tl Scheme ProtoAdnl ProtoDht ProtoOverlay Peer AdnlNode PeersSet
  DhtStorage DhtBuckets DhtNode DhtStream DhtTasks.
From Verif.Spec Require Import Codec CryptoSpec NodeSpec DhtSpec DhtNodeSpec DhtTaskSpec Sample DhtSample DhtNetSpec DhtNetSample.
From Verif.Proof Require DhtNetFacts DhtNetSamples DhtIterFacts.
Open Scope N_scope.

(** C85: if a node received the value, whatever happened on it and on the other nodes since then, a lookup that
    asked this node and ended yields the value. *)
Theorem c85_found : forall P, prims_ok P -> forall T (get : parser T) secret name data idx ttl x,
  let id := short_id P (pub_of P secret) in
  let v := sign_entry P secret id name idx data ttl in
  let key := sha256 P (put_dht_key_boxed (mk_dht_key id name idx)) in
  entry_ok name idx data ttl -> deserialize get data = Some x ->
  forall nodes p server e ops t,
  qe_now e < ttl -> t < ttl ->
  N.of_nat (length name) <= so_name_len (do_storage (d_opts server)) -> idx <= so_index (do_storage (d_opts server)) ->
  6 <= do_max_allowed_k (d_opts server) ->
  (forall old, d_storage server !! key = Some old -> dv_ttl old < ttl) ->
  nodes !! p = Some (dht_run P (snd (dht_receive P e server (put_dht_query (DqStore v)))) ops) ->
  forall adnl me o ops' sort batch new_peers evs, sorts sort -> Forall (net_event_ok t) evs ->
  let reader := dht_run P (dht_new P adnl me o) ops' in
  let start := mk_dht_net nodes reader (lookup_new sort reader key batch new_peers) in
  let final := net_run P get key start evs in
  Forall (nothing_else P v t) (stores (ops ++ ops_at p evs)) ->
  never_lost P get key start evs p ->
  ps_is_full (d_known (net_reader final)) = false ->
  vs_ended (lk_stream (net_lookup final)) = true -> In p (vs_asked (lk_stream (net_lookup final))) ->
  In (dv_key v, x) (vs_yielded (lk_stream (net_lookup final))).
Proof. exact @DhtNetFacts.published_reaches. Qed.
Print Assumptions c85_found.

(** C85: a lookup over the full batch asks everybody the reader knew at its start, except bad peers. *)
Theorem c85_asked : forall P T (get : parser T) nodes adnl me o ops key sort new_peers t evs p,
  sorts sort -> Forall (net_event_ok t) evs ->
  let reader := dht_run P (dht_new P adnl me o) ops in
  let final := net_run P get key (mk_dht_net nodes reader (lookup_new sort reader key None new_peers)) evs in
  ps_is_full (d_known (net_reader final)) = false -> vs_ended (lk_stream (net_lookup final)) = true ->
  In p (ps_members (d_known reader)) -> is_bad_peer reader p = false -> In p (vs_asked (lk_stream (net_lookup final))).
Proof. exact @DhtNetFacts.known_asked. Qed.
Print Assumptions c85_asked.

(** Node 5 knows 2, 4 and 6; 6 has the value; the query to 4 is lost. *)
Example c85_example :
  let final := net_run brief get_raw t_value_key (w_net [2; 4; 6] true) w_events in
  entry_ok [97; 98] 3 [1; 2; 3] 3000 /\ sorts insertion_sort /\ w_nodes !! t_id 6 = Some w_holder
  /\ Forall (net_event_ok 2000) w_events
  /\ Forall (nothing_else brief (t_value 3000) 2000) (stores ([DGc 1600] ++ ops_at (t_id 6) w_events))
  /\ never_lost brief get_raw t_value_key (w_net [2; 4; 6] true) w_events (t_id 6)
  /\ is_bad_peer (w_knows 5 [2; 4; 6]) (t_id 6) = false
  /\ ps_is_full (d_known (net_reader final)) = false
  /\ ps_members (d_known (net_reader final)) = map t_id [2; 4; 6]
  /\ vs_ended (lk_stream (net_lookup final)) = true
  /\ vs_asked (lk_stream (net_lookup final)) = map t_id [6; 4; 2]
  /\ vs_yielded (lk_stream (net_lookup final)) = [(dv_key (t_value 3000), [1; 2; 3])].
Proof.
  split; [vm_compute; repeat split|]. split; [exact DhtIterFacts.insertion_sort_sorts|].
  split; [exact DhtNetSamples.holder_there|]. split; [exact DhtNetSamples.events_ok|].
  split; [exact DhtNetSamples.nothing_else_published|]. split; [exact DhtNetSamples.only_four_lost|].
  vm_compute. repeat split.
Qed.

(** C85 is false for peers the reader learns about during the lookup, although it was told to use new peers and
    the full batch: the node that has the value is named in the answer of another one and known
    afterwards, nothing is lost, and still the lookup ends without having asked it. *)
Theorem c85_learned_refuted : ~ forall P, prims_ok P -> forall T (get : parser T) x secret name idx data ttl,
  let id := short_id P (pub_of P secret) in
  let v := sign_entry P secret id name idx data ttl in
  let key := sha256 P (put_dht_key_boxed (mk_dht_key id name idx)) in
  entry_ok name idx data ttl -> deserialize get data = Some x ->
  forall nodes p server e ops t,
  qe_now e < ttl -> t < ttl ->
  N.of_nat (length name) <= so_name_len (do_storage (d_opts server)) -> idx <= so_index (do_storage (d_opts server)) ->
  6 <= do_max_allowed_k (d_opts server) ->
  (forall old, d_storage server !! key = Some old -> dv_ttl old < ttl) ->
  nodes !! p = Some (dht_run P (snd (dht_receive P e server (put_dht_query (DqStore v)))) ops) ->
  forall adnl me o ops' sort evs, sorts sort -> Forall (net_event_ok t) evs ->
  let reader := dht_run P (dht_new P adnl me o) ops' in
  let start := mk_dht_net nodes reader (lookup_new sort reader key None true) in
  let final := net_run P get key start evs in
  Forall (nothing_else P v t) (stores (ops ++ ops_at p evs)) ->
  Forall (fun ev => exists i e sort now fresh, ev = NetReply i e sort now fresh) evs ->
  ps_is_full (d_known (net_reader final)) = false ->
  vs_ended (lk_stream (net_lookup final)) = true ->
  In p (ps_members (d_known (net_reader final))) -> is_bad_peer (net_reader final) p = false ->
  In (dv_key v, x) (vs_yielded (lk_stream (net_lookup final))).
Proof. exact DhtNetSamples.learned_left_out. Qed.
Print Assumptions c85_learned_refuted.
