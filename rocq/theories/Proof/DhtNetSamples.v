(** The sample network of DHT nodes. *)
From stdpp Require Import gmap.
From Coq Require Import NArith Lia.
From Verif.Base Require Import Bytes Res.
From Verif.Model Require Import Crypto Tl Scheme ProtoAdnl ProtoDht ProtoOverlay Peer AdnlNode PeersSet DhtStorage DhtBuckets
  DhtNode DhtStream DhtTasks.
From Verif.Spec Require Import Codec CryptoSpec NodeSpec DhtSpec DhtNodeSpec DhtTaskSpec Sample DhtSample DhtNetSpec DhtNetSample.
From Verif.Proof Require Import DhtIterFacts.
From Verif.Spec Require Import CryptoSpec.
Open Scope N_scope.

Lemma events_ok : Forall (net_event_ok 2000) w_events.
Proof.
  apply List.Forall_forall. intros ev Hin.
  repeat (destruct Hin as [<-|Hin]; [first [exact I|exact insertion_sort_sorts|split; [exact insertion_sort_sorts|vm_compute; discriminate]]|]).
  destruct Hin.
Qed.
Lemma nothing_else_published : Forall (nothing_else brief (t_value 3000) 2000) (stores ([DGc 1600] ++ ops_at (t_id 6) w_events)).
Proof.
  assert (H : stores ([DGc 1600] ++ ops_at (t_id 6) w_events) = [OpGc 1600; OpStore (fun l => l) 1650 1650 (t_value 3000)]) by (vm_compute; reflexivity).
  rewrite H. repeat constructor.
  - vm_compute. discriminate.
  - vm_compute. discriminate.
  - vm_compute. discriminate.
Qed.
Lemma only_four_lost : never_lost brief get_raw t_value_key (w_net [2; 4; 6] true) w_events (t_id 6).
Proof. vm_compute. repeat split; discriminate. Qed.

Lemma holder_there : w_nodes !! t_id 6 = Some w_holder.
Proof.
  assert (H2 : t_id 2 <> t_id 6) by (vm_compute; discriminate). assert (H4 : t_id 4 <> t_id 6) by (vm_compute; discriminate).
  unfold w_nodes. rewrite lookup_insert_ne by exact H2. rewrite lookup_insert_ne by exact H4. apply lookup_insert.
Qed.

Lemma learned_left_out : ~ forall P, prims_ok P -> forall T (get : parser T) x secret name idx data ttl,
  let id := short_id P (pub_of P secret) in
  let v := sign_entry P secret id name idx data ttl in
  let key := sha256 P (put_dht_key_boxed (mk_dht_key id name idx)) in
  entry_ok name idx data ttl -> deserialize get data = Some x ->
  forall nodes p server e ops t,
  qe_now e < ttl -> t < ttl ->
  N.of_nat (length name) <= so_name_len (do_storage (d_opts server)) -> idx <= so_index (do_storage (d_opts server)) ->
  6 <= do_max_allowed_k (d_opts server) ->
  (forall old, d_storage server !! key = Some old -> dv_ttl old < ttl) ->
  nodes !! p = Some (dht_run P (snd (dht_receive P e server (put_dht_query (DqStore v)))) ops) ->
  forall adnl me o ops' sort evs, sorts sort -> Forall (net_event_ok t) evs ->
  let reader := dht_run P (dht_new P adnl me o) ops' in
  let start := mk_dht_net nodes reader (lookup_new sort reader key None true) in
  let final := net_run P get key start evs in
  Forall (nothing_else P v t) (stores (ops ++ ops_at p evs)) ->
  Forall (fun ev => exists i e sort now fresh, ev = NetReply i e sort now fresh) evs ->
  ps_is_full (d_known (net_reader final)) = false ->
  vs_ended (lk_stream (net_lookup final)) = true ->
  In p (ps_members (d_known (net_reader final))) -> is_bad_peer (net_reader final) p = false ->
  In (dv_key v, x) (vs_yielded (lk_stream (net_lookup final))).
Proof.
  intros H.
  refine (_ (H brief brief_ok bytes get_raw [1; 2; 3] (secret_of 2) [97; 98] 3 [1; 2; 3] 3000 _ eq_refl
    w_nodes (t_id 6) (t_dht 6) (t_env 1500) [DGc 1600] 2000 eq_refl eq_refl _ _ _ _ _
    (t_adnl 5) (secret_of 5) t_opts [DAddPeer 1001 (secret_of 91) (t_announcement 2)] insertion_sort [w_reply 0; w_reply 0; w_reply 0]
    insertion_sort_sorts _ _ _ _ _ _ _)).
  - vm_compute. intros [].
  - vm_compute. repeat split.
  - vm_compute. discriminate.
  - vm_compute. discriminate.
  - vm_compute. discriminate.
  - vm_compute. discriminate.
  - exact holder_there.
  - repeat constructor; first [exact (proj1 (insertion_sort_sorts _))|exact (proj2 (insertion_sort_sorts _))|vm_compute; discriminate].
  - match goal with |- Forall _ ?l => replace l with [OpGc 1600] by (vm_compute; reflexivity) end.
    constructor; [unfold nothing_else; intros Hc; discriminate Hc|constructor].
  - repeat constructor; unfold w_reply; repeat eexists.
  - vm_compute. reflexivity.
  - vm_compute. reflexivity.
  - vm_compute. right. now left.
  - vm_compute. reflexivity.
Qed.
