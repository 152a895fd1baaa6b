(** The values of the scheme that the messages of the model stand for.  Fields are named as in the
    scheme; their order does not matter. *)
From Coq Require Import Ascii String List NArith Bool.
From Verif.Base Require Import Bytes.
From Verif.Model Require Import ProtoAdnl ProtoRldp ProtoDht ProtoOverlay.
From Verif.Spec Require Import TlScheme.
Import ListNotations.
Open Scope N_scope.
Open Scope string_scope.
Open Scope list_scope.

Definition public_key_value (k : public_key) : value :=
  match k with
  | PkEd25519 b => Con "pub.ed25519" [("key", Raw b)]
  | PkAes b => Con "pub.aes" [("key", Raw b)]
  | PkOverlay b => Con "pub.overlay" [("name", Raw b)]
  | PkUnencoded b => Con "pub.unenc" [("data", Raw b)]
  end.
Definition udp_value (a : address) : value := Con "adnl.address.udp" [("ip", Num (ad_ip a)); ("port", Num (ad_port a))].
Definition address_list_value (l : address_list) : value :=
  Con "adnl.addressList"
    [("addrs", Vec (match al_address l with Some a => [udp_value a] | None => [] end));
     ("version", Num (al_version l)); ("reinit_date", Num (al_reinit_date l)); ("priority", Num 0);
     ("expire_at", Num (al_expire_at l))].

Definition message_value (m : message) : value :=
  match m with
  | MAnswer q a => Con "adnl.message.answer" [("answer", Raw a); ("query_id", Raw q)]
  | MCustom d => Con "adnl.message.custom" [("data", Raw d)]
  | MConfirmChannel k p d => Con "adnl.message.confirmChannel" [("key", Raw k); ("peer_key", Raw p); ("date", Num d)]
  | MPart h t o d => Con "adnl.message.part" [("hash", Raw h); ("total_size", Num t); ("offset", Num o); ("data", Raw d)]
  | MCreateChannel k d => Con "adnl.message.createChannel" [("key", Raw k); ("date", Num d)]
  | MQuery q a => Con "adnl.message.query" [("query", Raw a); ("query_id", Raw q)]
  | MNop => Con "adnl.message.nop" []
  | MReinit d => Con "adnl.message.reinit" [("date", Num d)]
  end.
Definition ping_value (v : N) : value := Con "adnl.ping" [("value", Num v)].
Definition pong_value (v : N) : value := Con "adnl.pong" [("value", Num v)].

(** A packet: optional fields that are there have their bit in [flags]. *)
Definition given {A} (o : option A) (field : A -> list (string * value)) : list (string * value) :=
  match o with Some a => field a | None => [] end.
Definition bit {A} (o : option A) (k : N) : N := match o with Some _ => 2 ^ k | None => 0 end.
Definition sent_value (p : out_packet) (ms : list message) : value :=
  Con "adnl.packetContents"
    ([("flags", Num (bit (op_from p) 0 + (match ms with [_] => 2 ^ 2 | _ => 2 ^ 3 end) + 2 ^ 4 + 2 ^ 6 + 2 ^ 7
                     + bit (op_reinit_dates p) 10 + bit (op_signature p) 11))]
     ++ (match ms with
         | [m] => [("message", message_value m)]
         | _ => [("messages", Vec (map message_value ms))]
         end)
     ++ [("rand1", Raw (op_rand1 p)); ("rand2", Raw (op_rand2 p)); ("address", address_list_value (op_address p));
         ("seqno", Num (op_seqno p)); ("confirm_seqno", Num (op_confirm_seqno p))]
     ++ given (op_from p) (fun k => [("from", public_key_value k)])
     ++ given (op_reinit_dates p) (fun d => [("reinit_date", Num (rd_local d)); ("dst_reinit_date", Num (rd_target d))])
     ++ given (op_signature p) (fun s => [("signature", Raw s)])).

Definition fec_type_value (f : fec_type) : value :=
  Con "fec.raptorQ" [("data_size", Num (ft_total_len f)); ("symbol_size", Num (ft_packet_len f));
                     ("symbols_count", Num (ft_packet_count f))].
Definition rldp_message_value (m : rldp_message) : value :=
  match m with
  | RMessage i d => Con "rldp.message" [("id", Raw i); ("data", Raw d)]
  | RAnswer q d => Con "rldp.answer" [("query_id", Raw q); ("data", Raw d)]
  | RQuery q limit t d =>
      Con "rldp.query" [("query_id", Raw q); ("data", Raw d); ("timeout", Num t); ("max_answer_size", Num limit)]
  end.
Definition message_part_value (m : message_part) : value :=
  match m with
  | MpPart t f p size s d =>
      Con "rldp.messagePart" [("transfer_id", Raw t); ("seqno", Num s); ("part", Num p); ("total_size", Num size);
                              ("fec_type", fec_type_value f); ("data", Raw d)]
  | MpConfirm t p s => Con "rldp.confirm" [("transfer_id", Raw t); ("seqno", Num s); ("part", Num p)]
  | MpComplete t p => Con "rldp.complete" [("transfer_id", Raw t); ("part", Num p)]
  end.

Definition dht_node_value (n : dht_node) : value :=
  Con "dht.node" [("id", public_key_value (dn_id n)); ("addr_list", address_list_value (dn_addr_list n));
                  ("version", Num (dn_version n)); ("signature", Raw (dn_signature n))].
Definition dht_nodes_value (l : list dht_node) : value := Con "dht.nodes" [("nodes", Vec (map dht_node_value l))].
Definition dht_key_value (k : dht_key) : value :=
  Con "dht.key" [("id", Raw (dk_id k)); ("idx", Num (dk_idx k)); ("name", Raw (dk_name k))].
Definition rule_value (r : update_rule) : value :=
  Con (match r with
       | UrAnybody => "dht.updateRule.anybody"
       | UrOverlayNodes => "dht.updateRule.overlayNodes"
       | UrSignature => "dht.updateRule.signature"
       end) [].
Definition key_description_value (d : key_description) : value :=
  Con "dht.keyDescription" [("id", public_key_value (kd_id d)); ("key", dht_key_value (kd_key d));
                            ("update_rule", rule_value (kd_rule d)); ("signature", Raw (kd_signature d))].
Definition dht_value_value (v : dht_value) : value :=
  Con "dht.value" [("key", key_description_value (dv_key v)); ("ttl", Num (dv_ttl v)); ("value", Raw (dv_value v));
                   ("signature", Raw (dv_signature v))].
Definition value_result_value (r : value_result) : value :=
  match r with
  | VrFound v => Con "dht.valueFound" [("value", dht_value_value v)]
  | VrNotFound l => Con "dht.valueNotFound" [("nodes", dht_nodes_value l)]
  end.
Definition dht_query_value (q : dht_query) : value :=
  match q with
  | DqPing r => Con "dht.ping" [("random_id", Num r)]
  | DqFindNode key k => Con "dht.findNode" [("k", Num k); ("key", Raw key)]
  | DqFindValue key k => Con "dht.findValue" [("k", Num k); ("key", Raw key)]
  | DqGetSignedAddressList => Con "dht.getSignedAddressList" []
  | DqStore v => Con "dht.store" [("value", dht_value_value v)]
  | DqQuery n => Con "dht.query" [("node", dht_node_value n)]
  end.
(** Queries are functions; the type behind [=] is the one of the answer. *)
Definition dht_query_type (q : dht_query) : string :=
  match q with
  | DqPing _ => "dht.Pong" | DqFindNode _ _ => "dht.Nodes" | DqFindValue _ _ => "dht.ValueResult"
  | DqGetSignedAddressList => "dht.Node" | DqStore _ => "dht.Stored" | DqQuery _ => "True"
  end.

Definition ov_node_value (n : ov_node) : value :=
  Con "overlay.node" [("overlay", Raw (on_overlay n)); ("id", public_key_value (on_id n)); ("version", Num (on_version n));
                      ("signature", Raw (on_signature n))].
Definition ov_nodes_value (l : list ov_node) : value := Con "overlay.nodes" [("nodes", Vec (map ov_node_value l))].
Definition certificate_value (c : certificate) : value :=
  match c with
  | Cert k e m s => Con "overlay.certificate" [("issued_by", public_key_value k); ("max_size", Num m); ("expire_at", Num e);
                                               ("signature", Raw s)]
  | EmptyCert => Con "overlay.emptyCertificate" []
  end.
Definition broadcast_value (b : broadcast) : value :=
  match b with
  | BBroadcast b =>
      Con "overlay.broadcast" [("src", public_key_value (ob_src b)); ("certificate", certificate_value (ob_certificate b));
        ("date", Num (ob_date b)); ("flags", Num (ob_flags b)); ("data", Raw (ob_data b)); ("signature", Raw (ob_signature b))]
  | BBroadcastFec b =>
      Con "overlay.broadcastFec" [("src", public_key_value (bf_src b)); ("certificate", certificate_value (bf_certificate b));
        ("data_hash", Raw (bf_data_hash b)); ("data_size", Num (bf_data_size b)); ("date", Num (bf_date b));
        ("flags", Num (bf_flags b)); ("data", Raw (bf_data b)); ("seqno", Num (bf_seqno b)); ("fec", fec_type_value (bf_fec b));
        ("signature", Raw (bf_signature b))]
  | BBroadcastFecShort s c h p q g =>
      Con "overlay.broadcastFecShort" [("src", public_key_value s); ("certificate", certificate_value c);
        ("broadcast_hash", Raw h); ("part_data_hash", Raw p); ("seqno", Num q); ("signature", Raw g)]
  | BBroadcastNotFound => Con "overlay.broadcastNotFound" []
  | BFecCompleted h => Con "overlay.fec.completed" [("hash", Raw h)]
  | BFecReceived h => Con "overlay.fec.received" [("hash", Raw h)]
  | BUnicast d => Con "overlay.unicast" [("data", Raw d)]
  end.
Definition overlay_message_value (overlay : bytes) : value := Con "overlay.message" [("overlay", Raw overlay)].
Definition overlay_query_value (overlay : bytes) : value := Con "overlay.query" [("overlay", Raw overlay)].
Definition get_random_peers_value (l : list ov_node) : value := Con "overlay.getRandomPeers" [("peers", ov_nodes_value l)].
Definition dht_pong_value (v : N) : value := Con "dht.pong" [("random_id", Num v)].
Definition dht_stored_value : value := Con "dht.stored" [].

(** What is signed or hashed but not sent. *)
Definition node_to_sign_value (id overlay : bytes) (version : N) : value :=
  Con "overlay.node.toSign" [("id", Con "adnl.id.short" [("id", Raw id)]); ("overlay", Raw overlay); ("version", Num version)].
Definition shard_value (workchain shard : N) (zero_state : bytes) : value :=
  Con "tonNode.shardPublicOverlayId" [("zero_state_file_hash", Raw zero_state); ("workchain", Num workchain); ("shard", Num shard)].
Definition first_block_value (unique_hash : bytes) (nodes : list bytes) : value :=
  Con "catchain.firstblock" [("nodes", Vec (map Raw nodes)); ("unique_hash", Raw unique_hash)].
Definition broadcast_id_value (src data_hash : bytes) (flags : N) : value :=
  Con "overlay.broadcast.id" [("flags", Num flags); ("src", Raw src); ("data_hash", Raw data_hash)].
Definition fec_id_value (src type data_hash : bytes) (size flags : N) : value :=
  Con "overlay.broadcastFec.id" [("flags", Num flags); ("size", Num size); ("src", Raw src); ("data_hash", Raw data_hash); ("type", Raw type)].
Definition fec_part_id_value (broadcast_hash data_hash : bytes) (seqno : N) : value :=
  Con "overlay.broadcastFec.partId" [("seqno", Num seqno); ("broadcast_hash", Raw broadcast_hash); ("data_hash", Raw data_hash)].
Definition to_sign_value (hash : bytes) (date : N) : value := Con "overlay.broadcast.toSign" [("date", Num date); ("hash", Raw hash)].

(** ** Everything a packet may contain according to the scheme *)
Inductive any_address := Udp (ip port : N) | Udp6 (ip : bytes) (port : N).
Record any_list := mk_any_list { nl_addresses : list any_address; nl_version : N; nl_reinit_date : N; nl_priority : N; nl_expire_at : N }.
Definition any_address_value (a : any_address) : value :=
  match a with
  | Udp ip port => Con "adnl.address.udp" [("ip", Num ip); ("port", Num port)]
  | Udp6 ip port => Con "adnl.address.udp6" [("ip", Raw ip); ("port", Num port)]
  end.
Definition any_list_value (l : any_list) : value :=
  Con "adnl.addressList"
    [("addrs", Vec (map any_address_value (nl_addresses l))); ("version", Num (nl_version l));
     ("reinit_date", Num (nl_reinit_date l)); ("priority", Num (nl_priority l)); ("expire_at", Num (nl_expire_at l))].

Record any_packet := mk_any_packet
  { np_rand1 : bytes;
    np_from : option public_key;
    np_from_short : option bytes;
    np_message : option message;
    np_messages : option (list message);
    np_address : option any_list;
    np_priority_address : option any_list;
    np_seqno : option N;
    np_confirm_seqno : option N;
    np_recv_version : option N;
    np_recv_priority_version : option N;
    np_dates : option (N * N);
    np_signature : option bytes;
    np_rand2 : bytes }.
Definition any_packet_value (p : any_packet) : value :=
  Con "adnl.packetContents"
    ([("rand1", Raw (np_rand1 p)); ("rand2", Raw (np_rand2 p));
      ("flags", Num (bit (np_from p) 0 + bit (np_from_short p) 1 + bit (np_message p) 2 + bit (np_messages p) 3
                     + bit (np_address p) 4 + bit (np_priority_address p) 5 + bit (np_seqno p) 6 + bit (np_confirm_seqno p) 7
                     + bit (np_recv_version p) 8 + bit (np_recv_priority_version p) 9 + bit (np_dates p) 10
                     + bit (np_signature p) 11))]
     ++ given (np_from p) (fun k => [("from", public_key_value k)])
     ++ given (np_from_short p) (fun i => [("from_short", Con "adnl.id.short" [("id", Raw i)])])
     ++ given (np_message p) (fun m => [("message", message_value m)])
     ++ given (np_messages p) (fun l => [("messages", Vec (map message_value l))])
     ++ given (np_address p) (fun l => [("address", any_list_value l)])
     ++ given (np_priority_address p) (fun l => [("priority_address", any_list_value l)])
     ++ given (np_seqno p) (fun n => [("seqno", Num n)])
     ++ given (np_confirm_seqno p) (fun n => [("confirm_seqno", Num n)])
     ++ given (np_recv_version p) (fun n => [("recv_addr_list_version", Num n)])
     ++ given (np_recv_priority_version p) (fun n => [("recv_priority_addr_list_version", Num n)])
     ++ given (np_dates p) (fun d => [("reinit_date", Num (fst d)); ("dst_reinit_date", Num (snd d))])
     ++ given (np_signature p) (fun s => [("signature", Raw s)])).

(** What a reader is expected to see of it. *)
Definition is_udp (a : any_address) : Prop := match a with Udp _ _ => True | Udp6 _ _ => False end.
Definition first_udp (l : any_list) : address_list :=
  mk_address_list (match nl_addresses l with Udp ip port :: _ => Some (mk_address ip port) | _ => None end)
    (nl_version l) (nl_reinit_date l) (nl_expire_at l).
Definition only_udp (o : option any_list) : Prop :=
  match o with Some l => Forall is_udp (nl_addresses l) | None => True end.
Definition says (q : in_packet) (p : any_packet) : Prop :=
  ip_from q = np_from p
  /\ ip_from_short q = np_from_short p
  /\ ip_messages q = (match np_message p with Some m => [m] | None => [] end)
                     ++ (match np_messages p with Some l => l | None => [] end)
  /\ ip_address q = option_map first_udp (np_address p)
  /\ ip_seqno q = np_seqno p
  /\ ip_confirm_seqno q = np_confirm_seqno p
  /\ ip_reinit_dates q = option_map (fun d => mk_reinit_dates (fst d) (snd d)) (np_dates p)
  /\ option_map ps_signature (ip_signature q) = np_signature p.

(** ** DHT nodes with any address list *)
Record any_node := mk_any_node { an_id : public_key; an_addresses : any_list; an_version : N; an_signature : bytes }.
Definition any_node_value (n : any_node) : value :=
  Con "dht.node" [("id", public_key_value (an_id n)); ("addr_list", any_list_value (an_addresses n));
                  ("version", Num (an_version n)); ("signature", Raw (an_signature n))].
Definition any_nodes_value (l : list any_node) : value := Con "dht.nodes" [("nodes", Vec (map any_node_value l))].
Definition node_udp (n : any_node) : Prop := Forall is_udp (nl_addresses (an_addresses n)).
Definition node_read (n : any_node) : dht_node := mk_dht_node (an_id n) (first_udp (an_addresses n)) (an_version n) (an_signature n).
(** What the owner of a record signs, and the record with at most one address and without a priority. *)
Definition unsigned_any (n : any_node) : any_node := mk_any_node (an_id n) (an_addresses n) (an_version n) [].
Definition reduced (n : any_node) : any_node :=
  let l := an_addresses n in
  mk_any_node (an_id n) (mk_any_list (firstn 1 (nl_addresses l)) (nl_version l) (nl_reinit_date l) 0 (nl_expire_at l))
    (an_version n) (an_signature n).
Definition not_found_value (l : list any_node) : value := Con "dht.valueNotFound" [("nodes", any_nodes_value l)].

(** The text "address" and so on as bytes; the key of an entry by name, and the query for what is stored under [key]. *)
Fixpoint text (s : string) : bytes :=
  match s with EmptyString => [] | String c r => N_of_ascii c :: text r end.
Definition named_key_value (id : bytes) (name : string) : value :=
  Con "dht.key" [("id", Raw id); ("name", Raw (text name)); ("idx", Num 0)].
Definition search_value (key : bytes) : value := Con "dht.findValue" [("key", Raw key); ("k", Num 6)].
