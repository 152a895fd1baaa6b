(** Values of the DHT that are stored and found over the network. *)
From stdpp Require Import gmap.
From Coq Require Import NArith Lia Permutation.
From Verif.Base Require Import Bytes BytesFacts Res.
From Verif.Model Require Import Crypto Tl ProtoAdnl ProtoDht Peer AdnlNode DhtStorage DhtNode DhtTasks Queries NodeQueries.
From Verif.Spec Require Import Codec CryptoSpec NodeSpec DhtSpec DhtNodeSpec DhtNetSpec PairSpec TalkSpec TripSpec.
From Verif.Proof Require Import TlFacts RldpQueryFacts DhtStorageFacts DhtNodeFacts DhtNetFacts TalkFacts.
Open Scope N_scope.

Lemma trip_returns : forall P, prims_ok P -> forall fuel a b, parties_ok P a b ->
  forall s w t query answer, talking P fuel a b s -> trip_ok P fuel a b s w t query answer ->
  talking P fuel a b (after_trip P fuel a b s w t query answer)
  /\ handed P a b (asked_to P fuel a b s w t query) (other w) (length (qn_handed (qnode_of s (other w)))) (tr_id t) query
  /\ returned P fuel a b s w t query answer = Some (Some answer).
Proof.
  intros P HP fuel a b Hab s w t query answer Hs (H1 & H2 & H3 & H4 & H5).
  exact (round_trip P fuel a b HP Hab s w (tr_id t) query answer (tr_sent t) (tr_taken t) (tr_back t) (tr_read t) Hs H1 H2 H3 H4 H5).
Qed.

Section Entry.
Context (P : prims) (HP : prims_ok P) {T : Type} (get : parser T).
Context (secret name data : bytes) (idx ttl : N) (x : T).
Local Notation id := (short_id P (pub_of P secret)).
Local Notation v := (sign_entry P secret id name idx data ttl).
Local Notation key := (sha256 P (put_dht_key_boxed (mk_dht_key id name idx))).
Context (Hentry : entry_ok name idx data ttl) (Hdata : deserialize get data = Some x).

Lemma stored_and_found : forall server e,
  qe_now e < ttl ->
  N.of_nat (length name) <= so_name_len (do_storage (d_opts server)) -> idx <= so_index (do_storage (d_opts server)) ->
  6 <= do_max_allowed_k (d_opts server) ->
  (forall old, d_storage server !! key = Some old -> dv_ttl old < ttl) ->
  let query := put_dht_query (DqStore v) in
  let server1 := snd (dht_receive P e server query) in
  let reply := put_value_result (VrFound v) in
  fst (dht_receive P e server query) = Ok (Some put_dht_stored)
  /\ (forall fuel a b, parties_ok P a b -> carried P fuel a b query put_dht_stored)
  /\ forall ops now, now < ttl -> Forall (nothing_else P v now) (stores ops) ->
     let server2 := dht_run P server1 ops in
     (forall e', qe_now e' < ttl -> dht_receive P e' server2 (lookup_query key) = (Ok (Some reply), server2))
     /\ (forall fuel a b, parties_ok P a b -> carried P fuel a b (lookup_query key) reply)
     /\ forall client now fresh, parse_value_result P get client now fresh reply = (Ok (Some (dv_key v, x)), client).
Proof.
  intros server e He Hn Hi Hk Hold query server1 reply.
  destruct (published_found P HP T get x server e [] secret name idx data ttl Hentry He Hn Hi Hold) as (server' & S1 & _).
  rewrite app_nil_r in S1. fold query in S1. unfold server1. rewrite S1. cbn [fst snd].
  assert (Hserver : holds P secret name data idx ttl server').
  { assert (Hv : dht_value_ok v) by (apply sign_entry_ok; [exact HP|apply (sha_len P HP)|exact Hentry]).
    pose proof (receive_store P e server v [] Hv) as R. rewrite app_nil_r in R. fold query in R. rewrite S1 in R.
    pose proof (sign_entry_inserted P HP (do_storage (d_opts server)) (qe_node_order e) (d_storage server) (qe_now e) (qe_now2 e) secret name idx data ttl He Hn Hi Hold) as Hins.
    cbv zeta in Hins. rewrite Hins in R. apply (f_equal snd) in R. cbn [snd] in R. subst server'. split; [|exact Hk].
    cbn [set_storage d_storage]. apply lookup_insert. }
  split; [reflexivity|]. split.
  { intros fuel a b Hab s w t Hs Ht. exact (proj2 (trip_returns P HP fuel a b Hab s w t _ _ Hs Ht)). }
  intros ops now Hnow Hops. set (server2 := dht_run P server' ops).
  assert (H2 : holds P secret name data idx ttl server2).
  { eapply holds_from; [exact Hserver|exact Hnow|exact Hops|]. apply run_state. }
  split; [|split].
  - intros e' He'. now apply holds_answers.
  - intros fuel a b Hab s w t Hs Ht. exact (proj2 (trip_returns P HP fuel a b Hab s w t _ _ Hs Ht)).
  - intros client now' fresh. now apply value_parsed.
Qed.

Lemma put_hash_len : forall h, length (put_hash h) = length h. Proof. reflexivity. Qed.

Lemma entry_size : (length (put_dht_value v) <= 232 + length name + length data)%nat.
Proof.
  assert (Hid : length id = 32%nat) by apply (sha_len P HP).
  unfold put_dht_value, put_key_description, put_dht_key, put_update_rule, put_hash.
  cbn [dv_key dv_value dv_ttl dv_signature sign_entry kd_key kd_id kd_rule kd_signature dk_id dk_name dk_idx put_public_key].
  rewrite !app_length. unfold put_u32, put_hash. rewrite !le_bytes_length.
  pose proof (RldpQueryFacts.put_bytes_length name). pose proof (RldpQueryFacts.put_bytes_length data).
  rewrite !TlFacts.put_bytes_length with (d := sign P secret _). rewrite !(sign_len P HP). rewrite (pub_len P HP), Hid.
  change (N.of_nat 64 <? 254) with true. cbv iota. change (pad_len (1 + N.of_nat 64)) with 3. lia.
Qed.

Lemma entry_fits : forall qid, hash_ok qid -> (length name + length data <= 600)%nat ->
  small_payload (MQuery qid (put_dht_query (DqStore v)))
  /\ small_payload (MAnswer qid put_dht_stored)
  /\ small_payload (MQuery qid (lookup_query key))
  /\ small_payload (MAnswer qid (put_value_result (VrFound v))).
Proof.
  intros qid Hq Hl. pose proof entry_size as Hs.
  assert (S1 : (length (put_dht_query (DqStore v)) <= 840)%nat).
  { cbn [put_dht_query]. rewrite ?app_length. unfold put_dht_value_boxed, put_u32. rewrite ?app_length, ?le_bytes_length. lia. }
  assert (S2 : (length (lookup_query key) <= 840)%nat).
  { unfold lookup_query. cbn [put_dht_query]. unfold put_u32, put_hash. rewrite ?app_length, ?le_bytes_length, (sha_len P HP). lia. }
  assert (S3 : (length (put_value_result (VrFound v)) <= 840)%nat).
  { cbn [put_value_result]. unfold put_dht_value_boxed, put_u32. rewrite ?app_length, ?le_bytes_length. lia. }
  assert (S4 : (length put_dht_stored <= 840)%nat) by (vm_compute; lia).
  unfold small_payload, message_ok, blob_ok. repeat split; try exact Hq; lia.
Qed.
End Entry.
