(** C83: the wire format is the one of scheme.tl. *)
From Coq Require Import String List NArith Bool.
From Verif.Base Require Import Bytes Res.
From Verif.Model Require Import Crypto Tl Scheme ProtoAdnl ProtoRldp ProtoDht ProtoOverlay Broadcast AdnlNode DhtStorage DhtNode DhtTasks.
From Verif.Spec Require Import CryptoSpec Codec TlScheme TlValues.
From Verif.Spec Require Sample.
From Verif.Proof Require Import SchemeFacts SchemeReads SchemeSearch.
Import ListNotations.
Open Scope N_scope.

(** C83: every value is written as the declarations of the scheme prescribe. *)
Theorem c83_adnl :
  (forall m, message_ok m -> encode scheme (message_value m) (TyBoxed "adnl.Message") = Some (put_message m))
  /\ (forall l, address_list_ok l -> encode scheme (address_list_value l) (TyBare "adnl.addressList") = Some (put_address_list l))
  /\ (forall k, public_key_ok k -> encode scheme (public_key_value k) (TyBoxed "PublicKey") = Some (put_public_key k))
  /\ (forall v, u64_ok v -> encode scheme (ping_value v) (TyBoxed "adnl.Pong") = Some (put_adnl_ping v))
  /\ (forall v, u64_ok v -> encode scheme (pong_value v) (TyBoxed "adnl.Pong") = Some (put_adnl_pong v)).
Proof. exact (conj message_encoded (conj address_list_encoded (conj public_key_encoded (conj ping_encoded pong_encoded)))). Qed.
Print Assumptions c83_adnl.

Theorem c83_packet : forall p ms, out_packet_ok p -> carries (op_messages p) ms ->
  encode scheme (sent_value p ms) (TyBoxed "adnl.PacketContents") = Some (put_out_packet p).
Proof. exact packet_encoded. Qed.
Print Assumptions c83_packet.

Theorem c83_rldp :
  (forall m, rldp_message_ok m -> encode scheme (rldp_message_value m) (TyBoxed "rldp.Message") = Some (put_rldp_message m))
  /\ (forall m, message_part_ok m -> encode scheme (message_part_value m) (TyBoxed "rldp.MessagePart") = Some (put_message_part m)).
Proof. exact (conj rldp_message_encoded message_part_encoded). Qed.
Print Assumptions c83_rldp.

Theorem c83_dht :
  (forall q, dht_query_ok q -> encode scheme (dht_query_value q) (TyBoxed (dht_query_type q)) = Some (put_dht_query q))
  /\ (forall r, value_result_ok r -> encode scheme (value_result_value r) (TyBoxed "dht.ValueResult") = Some (put_value_result r))
  /\ (forall l, vec_ok dht_node_ok l ->
        encode scheme (dht_nodes_value l) (TyBoxed "dht.Nodes") = Some (put_u32 id_dht_nodes ++ put_dht_nodes l))
  /\ (forall v, u64_ok v -> encode scheme (dht_pong_value v) (TyBoxed "dht.Pong") = Some (put_dht_pong v))
  /\ encode scheme dht_stored_value (TyBoxed "dht.Stored") = Some put_dht_stored
  /\ (forall n, dht_node_ok n -> encode scheme (dht_node_value n) (TyBoxed "dht.Node") = Some (put_dht_node_boxed n))
  /\ (forall k, dht_key_ok k -> encode scheme (dht_key_value k) (TyBoxed "dht.Key") = Some (put_dht_key_boxed k))
  /\ (forall d, key_description_ok d ->
        encode scheme (key_description_value d) (TyBoxed "dht.KeyDescription") = Some (put_key_description_boxed d))
  /\ (forall v, dht_value_ok v -> encode scheme (dht_value_value v) (TyBoxed "dht.Value") = Some (put_dht_value_boxed v)).
Proof.
  exact (conj dht_query_encoded (conj value_result_encoded (conj dht_nodes_encoded (conj dht_pong_encoded
        (conj dht_stored_encoded (conj dht_node_encoded (conj dht_key_encoded (conj key_description_encoded dht_value_encoded)))))))).
Qed.
Print Assumptions c83_dht.

Theorem c83_overlay :
  (forall b, broadcast_ok b -> encode scheme (broadcast_value b) (TyBoxed "overlay.Broadcast") = Some (put_broadcast b))
  /\ (forall o, hash_ok o -> encode scheme (overlay_message_value o) (TyBoxed "overlay.Message") = Some (put_overlay_message o))
  /\ (forall o, hash_ok o -> encode scheme (overlay_query_value o) (TyBoxed "True") = Some (put_overlay_query o))
  /\ (forall l, vec_ok ov_node_ok l ->
        encode scheme (get_random_peers_value l) (TyBoxed "overlay.Nodes") = Some (put_get_random_peers l))
  /\ (forall l, vec_ok ov_node_ok l -> encode scheme (ov_nodes_value l) (TyBoxed "overlay.Nodes") = Some (put_ov_nodes_boxed l)).
Proof.
  exact (conj broadcast_encoded (conj overlay_message_encoded (conj overlay_query_encoded
        (conj get_random_peers_encoded ov_nodes_encoded)))).
Qed.
Print Assumptions c83_overlay.

(** What is signed or hashed for overlays and broadcasts; [source] is the id of the sender, if it counts. *)
Theorem c83_signed : forall P, (forall m, List.length (sha256 P m) = 32%nat) ->
  (forall id overlay version, hash_ok id -> hash_ok overlay -> u32_ok version ->
     encode scheme (node_to_sign_value id overlay version) (TyBoxed "overlay.node.ToSign")
     = Some (put_node_to_sign id overlay version))
  /\ (forall workchain shard zero_state, u32_ok workchain -> u64_ok shard -> hash_ok zero_state ->
        encode scheme (shard_value workchain shard zero_state) (TyBoxed "tonNode.ShardPublicOverlayId")
        = Some (put_shard_public_overlay_id workchain shard zero_state))
  /\ (forall unique_hash nodes, hash_ok unique_hash -> vec_ok hash_ok nodes ->
        encode scheme (first_block_value unique_hash nodes) (TyBoxed "catchain.FirstBlock")
        = Some (put_catchain_first_block unique_hash nodes))
  /\ (forall data date source, u32_ok date -> match source with Some s => hash_ok s | None => True end ->
        exists id, encode scheme (broadcast_id_value (match source with Some s => s | None => repeat 0 32 end) (sha256 P data) 1)
                     (TyBoxed "overlay.broadcast.Id") = Some id
          /\ encode scheme (to_sign_value (sha256 P id) date) (TyBoxed "overlay.broadcast.ToSign")
             = Some (broadcast_to_sign P data date source))
  /\ (forall data_hash size date flags params part seqno source,
        hash_ok data_hash -> u32_ok size -> u32_ok date -> u32_ok flags -> fec_type_ok params -> u32_ok seqno ->
        match source with Some s => hash_ok s | None => True end ->
        exists type id part_id,
          encode scheme (fec_type_value params) (TyBoxed "fec.Type") = Some type
          /\ encode scheme
               (fec_id_value (match source with Some s => s | None => repeat 0 32 end) (sha256 P type) data_hash size flags)
               (TyBoxed "overlay.broadcastFec.Id") = Some id
          /\ encode scheme (fec_part_id_value (sha256 P id) (sha256 P part) seqno) (TyBoxed "overlay.broadcastFec.PartId")
             = Some part_id
          /\ encode scheme (to_sign_value (sha256 P part_id) date) (TyBoxed "overlay.broadcast.ToSign")
             = Some (fec_part_to_sign P data_hash size date flags params part seqno source)).
Proof.
  exact (fun P HP => conj node_to_sign_encoded (conj shard_encoded (conj first_block_encoded
        (conj (broadcast_text P HP) (fec_text P HP))))).
Qed.
Print Assumptions c83_signed.

(** Addresses are searched for, and stored, under the key "address" of the node, members of an overlay under the key
    "nodes" of the overlay; a search asks for six nodes. *)
Theorem c83_searches : forall P, (forall m, List.length (sha256 P m) = 32%nat) -> forall id, hash_ok id ->
  (exists key, encode scheme (named_key_value id "address") (TyBoxed "dht.Key") = Some key
     /\ encode scheme (search_value (sha256 P key)) (TyBoxed "dht.ValueResult") = Some (address_search P id)
     /\ forall d secret addr now ttl, id = short_id P (pub_of P secret) ->
        storage_key P (kd_key (dv_key (address_entry P d secret addr now ttl))) = sha256 P key)
  /\ exists key, encode scheme (named_key_value id "nodes") (TyBoxed "dht.Key") = Some key
     /\ encode scheme (search_value (sha256 P key)) (TyBoxed "dht.ValueResult") = Some (nodes_search P id)
     /\ forall name n ttl, id = sha256 P (put_public_key (PkOverlay name)) ->
        storage_key P (kd_key (dv_key (overlay_entry P name n ttl))) = sha256 P key.
Proof. exact searches. Qed.
Print Assumptions c83_searches.
Example c83_searches_example :
  encode scheme (named_key_value (repeat 7 32) "nodes") (TyBoxed "dht.Key")
  = Some ([0x8f; 0xde; 0x67; 0xf6] ++ repeat 7 32 ++ [5; 110; 111; 100; 101; 115; 0; 0; 0; 0; 0; 0]).
Proof. vm_compute. reflexivity. Qed.

(** The reader of the scheme finds all declarations, and the encoding is the one known from other
    implementations: a custom message of three bytes. *)
Example c83_example :
  List.length scheme = 68%nat
  /\ encode scheme (message_value (MCustom [1; 2; 3])) (TyBoxed "adnl.Message") = Some [0xf5; 0x18; 0x48; 0x20; 3; 1; 2; 3]
  /\ encode scheme (Con "adnl.address.udp" [("port"%string, Num 80)]) (TyBoxed "adnl.Address") = None.
Proof. vm_compute. repeat split. Qed.

(** C83, other direction: a packet with any choice of the fields of the scheme is understood, whatever
    follows it, if it has a message, if its signature has 64 bytes and if its addresses are IPv4. *)
Theorem c83_packet_read_partial : forall p b trailing,
  encode scheme (any_packet_value p) (TyBoxed "adnl.PacketContents") = Some b ->
  only_udp (np_address p) -> only_udp (np_priority_address p) ->
  (np_message p <> None \/ np_messages p <> None) ->
  match np_signature p with Some s => List.length s = 64%nat | None => True end ->
  exists q, parse_packet (b ++ trailing) = Some q /\ says q p.
Proof. exact packet_understood. Qed.
Print Assumptions c83_packet_read_partial.

(** So are the nodes of an answer. *)
Theorem c83_nodes_read_partial : forall l b trailing, Forall node_udp l ->
  (encode scheme (any_nodes_value l) (TyBoxed "dht.Nodes") = Some b ->
   get_dht_nodes_boxed (b ++ trailing) = Some (map node_read l, trailing))
  /\ (encode scheme (not_found_value l) (TyBoxed "dht.ValueResult") = Some b ->
      get_value_result (b ++ trailing) = Some (VrNotFound (map node_read l), trailing)).
Proof. exact (fun l b r Hu => conj (fun He => nodes_understood l b r He Hu) (fun He => not_found_understood l b r He Hu)). Qed.
Print Assumptions c83_nodes_read_partial.

(** C83 is false for packets and answers with an IPv6 address: the whole packet and the whole answer, with
    all its other nodes, is dropped. *)
Theorem c83_ipv6_refuted :
  (forall p b trailing l,
     encode scheme (any_packet_value p) (TyBoxed "adnl.PacketContents") = Some b ->
     np_address p = Some l -> ~ Forall is_udp (nl_addresses l) -> parse_packet (b ++ trailing) = None)
  /\ (forall l b trailing, ~ Forall node_udp l ->
        (encode scheme (any_nodes_value l) (TyBoxed "dht.Nodes") = Some b -> get_dht_nodes_boxed (b ++ trailing) = None)
        /\ (encode scheme (not_found_value l) (TyBoxed "dht.ValueResult") = Some b -> get_value_result (b ++ trailing) = None)).
Proof.
  exact (conj packet_not_understood (fun l b r Hu => conj (fun He => nodes_not_understood l b r He Hu)
                                                          (fun He => not_found_not_understood l b r He Hu))).
Qed.
Print Assumptions c83_ipv6_refuted.

(** A packet with most of the optional fields and two addresses, and one with an IPv6 address. *)
Definition full_packet (addresses : list any_address) : any_packet :=
  mk_any_packet [1; 2; 3] None (Some (repeat 7 32)) (Some (MReinit 5)) (Some [MNop; MCustom [9]])
    (Some (mk_any_list addresses 1 2 3 4)) (Some (mk_any_list [] 0 0 0 0)) (Some 6) None (Some 8) (Some 9)
    (Some (10, 11)) (Some (repeat 1 64)) [].
Example c83_read_example :
  (exists b, encode scheme (any_packet_value (full_packet [Udp 1 2; Udp 3 4])) (TyBoxed "adnl.PacketContents") = Some b)
  /\ (exists b, encode scheme (any_packet_value (full_packet [Udp 1 2; Udp6 (repeat 0 16) 4])) (TyBoxed "adnl.PacketContents") = Some b)
  /\ (exists b, encode scheme (any_nodes_value
        [mk_any_node (PkEd25519 (repeat 1 32)) (mk_any_list [Udp 1 2] 0 0 0 0) 5 [];
         mk_any_node (PkEd25519 (repeat 2 32)) (mk_any_list [Udp6 (repeat 0 16) 2] 0 0 0 0) 5 []])
        (TyBoxed "dht.Nodes") = Some b).
Proof. repeat split; (eexists; vm_compute; reflexivity). Qed.

(** C83 is false for the records of nodes with several addresses or with a priority.  Their owner signs the
    record as the scheme prescribes it ([m]).  The record is read, but the signature is then checked against
    other bytes ([m']): the record reduced to its first address and priority 0.  Unless the signature happens
    to fit these, the node is not added. *)
Theorem c83_record_refuted : forall P, prims_ok P -> forall d now fresh n sent m secret,
  an_id n = PkEd25519 (pub_of P secret) -> node_udp n ->
  (List.length (nl_addresses (an_addresses n)) >= 2)%nat \/ nl_priority (an_addresses n) <> 0 ->
  encode scheme (any_node_value (unsigned_any n)) (TyBoxed "dht.Node") = Some m ->
  an_signature n = sign P secret m ->
  encode scheme (any_node_value n) (TyBare "dht.node") = Some sent ->
  exists m', encode scheme (any_node_value (unsigned_any (reduced n))) (TyBoxed "dht.Node") = Some m' /\ m' <> m
    /\ get_dht_node sent = Some (node_read n, [])
    /\ (verify P (pub_of P secret) m' (sign P secret m) = false ->
        add_dht_peer P d now fresh (node_read n) = (Ok None, d)).
Proof. exact node_refused. Qed.
Print Assumptions c83_record_refuted.

Definition sample_list : any_list := mk_any_list [Udp 0x01020304 5] 100 90 1 0.
Definition sample_key : public_key := PkEd25519 (pub_of brief (Sample.secret_of 7)).
Example c83_record_example :
  exists m m', encode scheme (any_node_value (mk_any_node sample_key sample_list 100 [])) (TyBoxed "dht.Node") = Some m
    /\ encode scheme (any_node_value (reduced (mk_any_node sample_key sample_list 100 []))) (TyBoxed "dht.Node") = Some m'
    /\ verify brief (pub_of brief (Sample.secret_of 7)) m' (sign brief (Sample.secret_of 7) m) = false.
Proof. do 2 eexists. split; [vm_compute; reflexivity|]. split; vm_compute; reflexivity. Qed.
