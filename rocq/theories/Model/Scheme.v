(** Constructor ids: CRC-32 of the lines of /repo/src/scheme.tl, as computed by the macro
    [tl_proto::id!] (the normalised declaration without parentheses and final semicolon). *)
From Coq Require Import List NArith Bool String Ascii.
Import ListNotations.
Open Scope N_scope.

(** CRC-32 (IEEE, reflected, polynomial 0xEDB88320). *)
Fixpoint crc_bits (k : nat) (c : N) : N :=
  match k with
  | O => c
  | S j => crc_bits j (if N.odd c then N.lxor (N.shiftr c 1) 0xEDB88320 else N.shiftr c 1)
  end.
Fixpoint crc_string (s : string) (c : N) : N :=
  match s with
  | EmptyString => c
  | String a r => crc_string r (crc_bits 8 (N.lxor c (N_of_ascii a)))
  end.
Definition crc32 (s : string) : N := N.lxor (crc_string s 0xFFFFFFFF) 0xFFFFFFFF.

(* /repo/src/scheme.tl:25-28 *)
Definition id_raptorq : N := 0x8b93a7e0.
Definition id_pub_ed25519 : N := 0x4813b4c6.
Definition id_pub_aes : N := 0x2dbcadd4.
Definition id_pub_overlay : N := 0x34ba45cb.
(* everscale_crypto::tl::PublicKey::Unencoded, external crate *)
Definition id_pub_unenc : N := 0xb61f450a.

(* /repo/src/scheme.tl: ADNL *)
Definition id_address_udp : N := 0x670da6e7.
Definition id_address_list : N := 0x2227e658.
Definition id_packet_contents : N := 0xd142cd89.
Definition id_create_channel : N := 0xe673c3bb.
Definition id_confirm_channel : N := 0x60dd1d69.
Definition id_custom : N := 0x204818f5.
Definition id_nop : N := 0x17f8dfda.
Definition id_reinit : N := 0x10c20520.
Definition id_query : N := 0xb48bf97a.
Definition id_answer : N := 0x0fac8416.
Definition id_part : N := 0xfd452d39.
Definition id_adnl_pong : N := 0x20747c0e.
Definition id_adnl_ping : N := 0x1faaa1bf.

(* RLDP *)
Definition id_rldp_message_part : N := 0x185c22cc.
Definition id_rldp_confirm : N := 0xf582dc58.
Definition id_rldp_complete : N := 0xbc0cb2bf.
Definition id_rldp_message : N := 0x7d1bcd1e.
Definition id_rldp_query : N := 0x8a794d69.
Definition id_rldp_answer : N := 0xa3fc5c03.

(* DHT *)
Definition id_dht_node : N := 0x84533248.
Definition id_dht_nodes : N := 0x7974a0be.
Definition id_dht_key : N := 0xf667de8f.
Definition id_rule_signature : N := 0xcc9f31f7.
Definition id_rule_anybody : N := 0x61578e14.
Definition id_rule_overlay_nodes : N := 0x26779383.
Definition id_dht_key_description : N := 0x281d4e05.
Definition id_dht_value : N := 0x90ad27cb.
Definition id_dht_pong : N := 0x5a8aef81.
Definition id_dht_value_not_found : N := 0xa2620568.
Definition id_dht_value_found : N := 0xe40cf774.
Definition id_dht_stored : N := 0x7026fb08.
Definition id_dht_ping : N := 0xcbeb3f18.
Definition id_dht_store : N := 0x34934212.
Definition id_dht_find_node : N := 0x6ce2ce6b.
Definition id_dht_find_value : N := 0xae4b6011.
Definition id_dht_get_signed_address_list : N := 0xa97948ed.
Definition id_dht_query : N := 0x7d530769.

(* Overlay *)
Definition id_overlay_node_to_sign : N := 0x03d8a8e1.
Definition id_overlay_nodes : N := 0xe487290e.
Definition id_overlay_message : N := 0x75252420.
Definition id_overlay_fec_received : N := 0xd55c14ec.
Definition id_overlay_fec_completed : N := 0x09d76914.
Definition id_overlay_broadcast_id : N := 0x51fd789a.
Definition id_overlay_broadcast_fec_id : N := 0xfb3155a6.
Definition id_overlay_broadcast_fec_part_id : N := 0xa46962d0.
Definition id_overlay_broadcast_to_sign : N := 0xfa374e7c.
Definition id_overlay_certificate : N := 0xe09ed731.
Definition id_overlay_empty_certificate : N := 0x32dabccf.
Definition id_overlay_unicast : N := 0x33534e24.
Definition id_overlay_broadcast : N := 0xb15a2b6b.
Definition id_overlay_broadcast_fec : N := 0xbad7c36a.
Definition id_overlay_broadcast_fec_short : N := 0xf1881342.
Definition id_overlay_broadcast_not_found : N := 0x95863624.
Definition id_overlay_get_random_peers : N := 0x48ee64ab.
Definition id_overlay_query : N := 0xccfd8443.

(* Other *)
Definition id_shard_public_overlay_id : N := 0x4d9ed329.
Definition id_catchain_first_block : N := 0x10c904fb.

(** The scheme lines behind the ids; [Props] checks that each id is the CRC of its line. *)
Local Open Scope string_scope.
Definition scheme_lines : list (N * string) :=
  [
   (id_raptorq, "fec.raptorQ data_size:int symbol_size:int symbols_count:int = fec.Type");
   (id_pub_ed25519, "pub.ed25519 key:int256 = PublicKey");
   (id_pub_aes, "pub.aes key:int256 = PublicKey");
   (id_pub_overlay, "pub.overlay name:bytes = PublicKey");
   (id_address_udp, "adnl.address.udp ip:int port:int = adnl.Address");
   (id_address_list, "adnl.addressList addrs:vector adnl.Address version:int reinit_date:int priority:int expire_at:int = adnl.AddressList");
   (id_packet_contents, "adnl.packetContents rand1:bytes flags:# from:flags.0?PublicKey from_short:flags.1?adnl.id.short message:flags.2?adnl.Message messages:flags.3?vector adnl.Message address:flags.4?adnl.addressList priority_address:flags.5?adnl.addressList seqno:flags.6?long confirm_seqno:flags.7?long recv_addr_list_version:flags.8?int recv_priority_addr_list_version:flags.9?int reinit_date:flags.10?int dst_reinit_date:flags.10?int signature:flags.11?bytes rand2:bytes = adnl.PacketContents");
   (id_create_channel, "adnl.message.createChannel key:int256 date:int = adnl.Message");
   (id_confirm_channel, "adnl.message.confirmChannel key:int256 peer_key:int256 date:int = adnl.Message");
   (id_custom, "adnl.message.custom data:bytes = adnl.Message");
   (id_nop, "adnl.message.nop = adnl.Message");
   (id_reinit, "adnl.message.reinit date:int = adnl.Message");
   (id_query, "adnl.message.query query_id:int256 query:bytes = adnl.Message");
   (id_answer, "adnl.message.answer query_id:int256 answer:bytes = adnl.Message");
   (id_part, "adnl.message.part hash:int256 total_size:int offset:int data:bytes = adnl.Message");
   (id_adnl_pong, "adnl.pong value:long = adnl.Pong");
   (id_adnl_ping, "adnl.ping value:long = adnl.Pong");
   (id_rldp_message_part, "rldp.messagePart transfer_id:int256 fec_type:fec.Type part:int total_size:long seqno:int data:bytes = rldp.MessagePart");
   (id_rldp_confirm, "rldp.confirm transfer_id:int256 part:int seqno:int = rldp.MessagePart");
   (id_rldp_complete, "rldp.complete transfer_id:int256 part:int = rldp.MessagePart");
   (id_rldp_message, "rldp.message id:int256 data:bytes = rldp.Message");
   (id_rldp_query, "rldp.query query_id:int256 max_answer_size:long timeout:int data:bytes = rldp.Message");
   (id_rldp_answer, "rldp.answer query_id:int256 data:bytes = rldp.Message");
   (id_dht_node, "dht.node id:PublicKey addr_list:adnl.addressList version:int signature:bytes = dht.Node");
   (id_dht_nodes, "dht.nodes nodes:vector dht.node = dht.Nodes");
   (id_dht_key, "dht.key id:int256 name:bytes idx:int = dht.Key");
   (id_rule_signature, "dht.updateRule.signature = dht.UpdateRule");
   (id_rule_anybody, "dht.updateRule.anybody = dht.UpdateRule");
   (id_rule_overlay_nodes, "dht.updateRule.overlayNodes = dht.UpdateRule");
   (id_dht_key_description, "dht.keyDescription key:dht.key id:PublicKey update_rule:dht.UpdateRule signature:bytes = dht.KeyDescription");
   (id_dht_value, "dht.value key:dht.keyDescription value:bytes ttl:int signature:bytes = dht.Value");
   (id_dht_pong, "dht.pong random_id:long = dht.Pong");
   (id_dht_value_not_found, "dht.valueNotFound nodes:dht.nodes = dht.ValueResult");
   (id_dht_value_found, "dht.valueFound value:dht.Value = dht.ValueResult");
   (id_dht_stored, "dht.stored = dht.Stored");
   (id_dht_ping, "dht.ping random_id:long = dht.Pong");
   (id_dht_store, "dht.store value:dht.value = dht.Stored");
   (id_dht_find_node, "dht.findNode key:int256 k:int = dht.Nodes");
   (id_dht_find_value, "dht.findValue key:int256 k:int = dht.ValueResult");
   (id_dht_get_signed_address_list, "dht.getSignedAddressList = dht.Node");
   (id_dht_query, "dht.query node:dht.node = True");
   (id_overlay_node_to_sign, "overlay.node.toSign id:adnl.id.short overlay:int256 version:int = overlay.node.ToSign");
   (id_overlay_nodes, "overlay.nodes nodes:vector overlay.node = overlay.Nodes");
   (id_overlay_message, "overlay.message overlay:int256 = overlay.Message");
   (id_overlay_fec_received, "overlay.fec.received hash:int256 = overlay.Broadcast");
   (id_overlay_fec_completed, "overlay.fec.completed hash:int256 = overlay.Broadcast");
   (id_overlay_broadcast_id, "overlay.broadcast.id src:int256 data_hash:int256 flags:int = overlay.broadcast.Id");
   (id_overlay_broadcast_fec_id, "overlay.broadcastFec.id src:int256 type:int256 data_hash:int256 size:int flags:int = overlay.broadcastFec.Id");
   (id_overlay_broadcast_fec_part_id, "overlay.broadcastFec.partId broadcast_hash:int256 data_hash:int256 seqno:int = overlay.broadcastFec.PartId");
   (id_overlay_broadcast_to_sign, "overlay.broadcast.toSign hash:int256 date:int = overlay.broadcast.ToSign");
   (id_overlay_certificate, "overlay.certificate issued_by:PublicKey expire_at:int max_size:int signature:bytes = overlay.Certificate");
   (id_overlay_empty_certificate, "overlay.emptyCertificate = overlay.Certificate");
   (id_overlay_unicast, "overlay.unicast data:bytes = overlay.Broadcast");
   (id_overlay_broadcast, "overlay.broadcast src:PublicKey certificate:overlay.Certificate flags:int data:bytes date:int signature:bytes = overlay.Broadcast");
   (id_overlay_broadcast_fec, "overlay.broadcastFec src:PublicKey certificate:overlay.Certificate data_hash:int256 data_size:int flags:int data:bytes seqno:int fec:fec.Type date:int signature:bytes = overlay.Broadcast");
   (id_overlay_broadcast_fec_short, "overlay.broadcastFecShort src:PublicKey certificate:overlay.Certificate broadcast_hash:int256 part_data_hash:int256 seqno:int signature:bytes = overlay.Broadcast");
   (id_overlay_broadcast_not_found, "overlay.broadcastNotFound = overlay.Broadcast");
   (id_overlay_get_random_peers, "overlay.getRandomPeers peers:overlay.nodes = overlay.Nodes");
   (id_overlay_query, "overlay.query overlay:int256 = True");
   (id_shard_public_overlay_id, "tonNode.shardPublicOverlayId workchain:int shard:long zero_state_file_hash:int256 = tonNode.ShardPublicOverlayId");
   (id_catchain_first_block, "catchain.firstblock unique_hash:int256 nodes:vector int256 = catchain.FirstBlock")
  ].
