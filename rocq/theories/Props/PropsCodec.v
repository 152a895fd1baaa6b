(** C06, C07, C58: what is written on the wire is what is read from it. *)
From Coq Require Import List NArith Bool String.
From Verif.Base Require Import Bytes.
From Verif.Model Require Import Tl Scheme ProtoAdnl ProtoRldp ProtoDht ProtoOverlay.
From Verif.Spec Require Import Codec.
From Verif.Proof Require Import TlFacts ProtoFacts PacketFacts.
Import ListNotations.
Open Scope N_scope.

(** C06: every well-formed outgoing packet, with whatever bytes behind it, is parsed into
    exactly the fields that were sent. *)
Theorem c06_packet_survives : forall p msgs trailing,
  out_packet_ok p -> carries (op_messages p) msgs ->
  exists q, parse_packet (put_out_packet p ++ trailing) = Some q /\ same_packet p msgs q.
Proof. exact packet_survives. Qed.
Print Assumptions c06_packet_survives.

(** A packet with two messages, source key, address, reinit dates and signature. *)
Definition sample_packet : out_packet :=
  mk_out_packet [1; 2; 3] (Some (PkEd25519 (repeat 7 32)))
    (OmPair (put_message (MCreateChannel (repeat 9 32) 1000) ++ put_message (MCustom [5; 6; 7])))
    (mk_address_list (Some (mk_address 0x7f000001 12345)) 100 90 0)
    5 4 (Some (mk_reinit_dates 90 80)) (Some (repeat 3 64)) [1; 2; 3; 4; 5; 6; 7].
Example c06_example :
  out_packet_ok sample_packet
  /\ carries (op_messages sample_packet) [MCreateChannel (repeat 9 32) 1000; MCustom [5; 6; 7]].
Proof. split; [vm_compute; repeat split; reflexivity | constructor; vm_compute; repeat split; reflexivity]. Qed.

(** C07: for a signed packet of any size a u16 offset can address (the receive buffer is 2048
    bytes), the receiver cuts out the signature and is left with byte for byte what the
    sender serialized before signing. *)
Theorem c07_signed_bytes_recovered : forall p msgs s,
  out_packet_ok p -> carries (op_messages p) msgs -> op_signature p = Some s ->
  N.of_nat (List.length (put_out_packet p)) < 2 ^ 16 ->
  exists q sg, parse_packet (put_out_packet p) = Some q /\ ip_signature q = Some sg
    /\ extract sg (put_out_packet p) = Some (put_out_packet (unsigned p), s).
Proof. exact signature_extracted. Qed.
Print Assumptions c07_signed_bytes_recovered.

Example c07_example :
  op_signature sample_packet = Some (repeat 3 64)
  /\ N.of_nat (List.length (put_out_packet sample_packet)) < 2 ^ 16
  /\ put_out_packet (unsigned sample_packet) <> put_out_packet sample_packet.
Proof. repeat split. vm_compute. discriminate. Qed.

(** C58: all codecs read back what was written, whatever follows, and never give two values
    the same encoding. *)
Theorem c58_adnl :
  (reads put_message get_message message_ok /\ unambiguous put_message message_ok)
  /\ (reads put_address_list get_address_list address_list_ok
      /\ unambiguous put_address_list address_list_ok)
  /\ (reads put_public_key get_public_key public_key_ok /\ unambiguous put_public_key public_key_ok)
  /\ (reads put_adnl_ping get_adnl_ping u64_ok /\ unambiguous put_adnl_ping u64_ok)
  /\ (reads put_adnl_pong get_adnl_pong u64_ok /\ unambiguous put_adnl_pong u64_ok).
Proof.
  exact (conj (codec_ok_of_reads _ _ _ _ message_reads)
        (conj (codec_ok_of_reads _ _ _ _ address_list_reads)
        (conj (codec_ok_of_reads _ _ _ _ public_key_reads)
        (conj (codec_ok_of_reads _ _ _ _ adnl_ping_reads)
              (codec_ok_of_reads _ _ _ _ adnl_pong_reads))))).
Qed.
Print Assumptions c58_adnl.

Theorem c58_rldp :
  (reads put_rldp_message get_rldp_message rldp_message_ok
   /\ unambiguous put_rldp_message rldp_message_ok)
  /\ (reads put_message_part get_message_part message_part_ok
      /\ unambiguous put_message_part message_part_ok).
Proof.
  exact (conj (codec_ok_of_reads _ _ _ _ rldp_message_reads)
              (codec_ok_of_reads _ _ _ _ message_part_reads)).
Qed.
Print Assumptions c58_rldp.

Theorem c58_dht :
  (reads put_dht_query get_dht_query dht_query_ok /\ unambiguous put_dht_query dht_query_ok)
  /\ (reads put_value_result get_value_result value_result_ok
      /\ unambiguous put_value_result value_result_ok)
  /\ (reads put_dht_value get_dht_value dht_value_ok /\ unambiguous put_dht_value dht_value_ok)
  /\ (reads put_dht_node get_dht_node dht_node_ok /\ unambiguous put_dht_node dht_node_ok)
  /\ (reads put_dht_nodes get_dht_nodes (vec_ok dht_node_ok)
      /\ unambiguous put_dht_nodes (vec_ok dht_node_ok))
  /\ (reads put_dht_key get_dht_key dht_key_ok /\ unambiguous put_dht_key dht_key_ok)
  /\ (reads put_dht_pong get_dht_pong u64_ok /\ unambiguous put_dht_pong u64_ok)
  /\ reads (fun _ : unit => put_dht_stored) get_dht_stored (fun _ => True).
Proof.
  exact (conj (codec_ok_of_reads _ _ _ _ dht_query_reads)
        (conj (codec_ok_of_reads _ _ _ _ value_result_reads)
        (conj (codec_ok_of_reads _ _ _ _ dht_value_reads)
        (conj (codec_ok_of_reads _ _ _ _ dht_node_reads)
        (conj (codec_ok_of_reads _ _ _ _ dht_nodes_reads)
        (conj (codec_ok_of_reads _ _ _ _ dht_key_reads)
        (conj (codec_ok_of_reads _ _ _ _ dht_pong_reads)
              dht_stored_reads))))))).
Qed.
Print Assumptions c58_dht.

Theorem c58_overlay :
  (reads put_broadcast get_broadcast broadcast_ok /\ unambiguous put_broadcast broadcast_ok)
  /\ (reads put_ov_nodes_boxed get_ov_nodes_boxed (vec_ok ov_node_ok)
      /\ unambiguous put_ov_nodes_boxed (vec_ok ov_node_ok))
  /\ (reads put_get_random_peers get_get_random_peers (vec_ok ov_node_ok)
      /\ unambiguous put_get_random_peers (vec_ok ov_node_ok))
  /\ (reads put_overlay_message get_overlay_message hash_ok
      /\ unambiguous put_overlay_message hash_ok)
  /\ (reads put_overlay_query get_overlay_query hash_ok /\ unambiguous put_overlay_query hash_ok).
Proof.
  exact (conj (codec_ok_of_reads _ _ _ _ broadcast_reads)
        (conj (codec_ok_of_reads _ _ _ _ ov_nodes_boxed_reads)
        (conj (codec_ok_of_reads _ _ _ _ get_random_peers_reads)
        (conj (codec_ok_of_reads _ _ _ _ overlay_message_reads)
              (codec_ok_of_reads _ _ _ _ overlay_query_reads))))).
Qed.
Print Assumptions c58_overlay.

(** Constructors of different types never share an id, so boxed values of different types
    never share an encoding either. *)
Theorem c58_constructor_ids_distinct : NoDup (id_pub_unenc :: map fst scheme_lines).
Proof. exact scheme_ids_distinct. Qed.
Print Assumptions c58_constructor_ids_distinct.

(** The ids are the CRC-32 of the lines of scheme.tl. *)
Example c58_ids_are_crc :
  forallb (fun x => crc32 (snd x) =? fst x) scheme_lines = true.
Proof. vm_compute. reflexivity. Qed.

(** Values meeting the hypotheses: a 300-byte answer (long length prefix), a FEC broadcast,
    a signed DHT value. *)
Example c58_example :
  message_ok (MAnswer (repeat 1 32) (repeat 2 300))
  /\ message_part_ok (MpPart (repeat 1 32) (mk_fec_type 5000 768 7) 0 5000 3 (repeat 4 768))
  /\ dht_query_ok (DqStore (mk_dht_value
       (mk_key_description (mk_dht_key (repeat 1 32) [97; 100; 100; 114] 0) (PkEd25519 (repeat 2 32))
          UrSignature (repeat 3 64)) [1; 2; 3] 1700000000 (repeat 4 64)))
  /\ broadcast_ok (BBroadcastFec (mk_ov_broadcast_fec (PkEd25519 (repeat 1 32)) EmptyCert
       (repeat 2 32) 5000 0 (repeat 3 768) 6 (mk_fec_type 5000 768 7) 1700000000 (repeat 4 64))).
Proof. vm_compute. repeat split; reflexivity. Qed.
