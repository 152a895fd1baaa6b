(** C99: values of the DHT travel between nodes. *)
From stdpp Require Import gmap.
From Coq Require Import NArith.
From Verif.Base Require Import Bytes Res.
From Verif.Model Require Import Crypto Tl ProtoAdnl ProtoDht Peer AdnlNode DhtStorage DhtNode DhtTasks Queries NodeQueries.
From Verif.Spec Require Import Codec CryptoSpec NodeSpec DhtSpec DhtNodeSpec DhtNetSpec Sample DhtSample PairSpec TalkSpec TripSpec DhtTripSample.
From Verif.Proof Require DhtTripFacts DhtTripSamples.
Open Scope N_scope.

(** C99: a query whose two letters arrive in time is handed over unchanged and returns the other node's answer,
    in every state of the connection. *)
Theorem c99_carried : forall P, prims_ok P -> forall fuel a b, parties_ok P a b ->
  forall s w t query answer, talking P fuel a b s -> trip_ok P fuel a b s w t query answer ->
  talking P fuel a b (after_trip P fuel a b s w t query answer)
  /\ handed P a b (asked_to P fuel a b s w t query) (other w) (length (qn_handed (qnode_of s (other w)))) (tr_id t) query
  /\ returned P fuel a b s w t query answer = Some (Some answer).
Proof. exact DhtTripFacts.trip_returns. Qed.
Print Assumptions c99_carried.

(** C99: the node answers the store query of a signed entry, which reaches it and comes back to the publisher;
    whatever it does later, it answers a lookup of the key with the entry, this answer comes back to whoever
    asked, and they read the published data from it. *)
Theorem c99_stored_found : forall P, prims_ok P -> forall T (get : parser T) secret name data idx ttl x,
  let id := short_id P (pub_of P secret) in
  let v := sign_entry P secret id name idx data ttl in
  let key := sha256 P (put_dht_key_boxed (mk_dht_key id name idx)) in
  entry_ok name idx data ttl -> deserialize get data = Some x ->
  forall server e,
  qe_now e < ttl ->
  N.of_nat (length name) <= so_name_len (do_storage (d_opts server)) -> idx <= so_index (do_storage (d_opts server)) ->
  6 <= do_max_allowed_k (d_opts server) ->
  (forall old, d_storage server !! key = Some old -> dv_ttl old < ttl) ->
  let query := put_dht_query (DqStore v) in
  let server1 := snd (dht_receive P e server query) in
  let reply := put_value_result (VrFound v) in
  fst (dht_receive P e server query) = Ok (Some put_dht_stored)
  /\ (forall fuel a b, parties_ok P a b -> carried P fuel a b query put_dht_stored)
  /\ forall ops now, now < ttl -> Forall (nothing_else P v now) (stores ops) ->
     let server2 := dht_run P server1 ops in
     (forall e', qe_now e' < ttl -> dht_receive P e' server2 (lookup_query key) = (Ok (Some reply), server2))
     /\ (forall fuel a b, parties_ok P a b -> carried P fuel a b (lookup_query key) reply)
     /\ forall client now fresh, parse_value_result P get client now fresh reply = (Ok (Some (dv_key v, x)), client).
Proof. exact @DhtTripFacts.stored_and_found. Qed.
Print Assumptions c99_stored_found.

(** C99: entries whose name and data take up to 600 bytes together always fit the letters. *)
Theorem c99_fits : forall P, prims_ok P -> forall secret name data idx ttl,
  let id := short_id P (pub_of P secret) in
  let v := sign_entry P secret id name idx data ttl in
  let key := sha256 P (put_dht_key_boxed (mk_dht_key id name idx)) in
  forall qid, hash_ok qid -> (length name + length data <= 600)%nat ->
  small_payload (MQuery qid (put_dht_query (DqStore v)))
  /\ small_payload (MAnswer qid put_dht_stored)
  /\ small_payload (MQuery qid (lookup_query key))
  /\ small_payload (MAnswer qid (put_value_result (VrFound v))).
Proof. exact DhtTripFacts.entry_fits. Qed.
Print Assumptions c99_fits.

(** Alice stores a value at Bob's node and looks it up after a collection, over the same connection. *)
Example c99_example :
  prims_ok light /\ parties_ok light sample_alice sample_bob
  /\ entry_ok [97; 98] 3 [1; 2; 3] 3000 /\ d_storage r_server !! r_key = None
  /\ N.of_nat (length [97; 98]) <= so_name_len (do_storage (d_opts r_server)) /\ 6 <= do_max_allowed_k (d_opts r_server)
  /\ Forall (nothing_else light r_value 2000) (stores [DGc 1600])
  /\ trip_ok light 0 sample_alice sample_bob r_start Alice (r_trip 3 1500) r_store put_dht_stored
  /\ talking light 0 sample_alice sample_bob r_talk
  /\ trip_ok light 0 sample_alice sample_bob r_talk Alice (r_trip 4 1700) r_lookup r_reply
  /\ returned light 0 sample_alice sample_bob r_talk Alice (r_trip 4 1700) r_lookup r_reply = Some (Some r_reply).
Proof. exact DhtTripSamples.sample_stored_found. Qed.
