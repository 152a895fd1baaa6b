(** Codec of overlay messages: /repo/src/proto/overlay.rs and /repo/src/proto/rpc.rs. *)
From Coq Require Import List NArith Bool.
From Verif.Base Require Import Bytes.
From Verif.Model Require Import Tl Scheme ProtoAdnl ProtoRldp.
Import ListNotations.
Open Scope N_scope.

(** [Node] / [NodeOwned] (overlay.rs:27-64): bare. *)
Record ov_node := mk_ov_node
  { on_id : public_key; on_overlay : bytes; on_version : N; on_signature : bytes }.
Definition put_ov_node (n : ov_node) : bytes :=
  put_public_key (on_id n) ++ put_hash (on_overlay n) ++ put_u32 (on_version n)
  ++ put_bytes (on_signature n).
Definition get_ov_node : parser ov_node :=
  let* i := get_public_key in let* o := get_hash in let* v := get_u32 in let* s := get_bytes in
  ret (mk_ov_node i o v s).

(** [Nodes] (overlay.rs:7-25): bare vector; boxed when stored as DHT value or sent as answer. *)
Definition put_ov_nodes (l : list ov_node) : bytes := put_vector put_ov_node l.
Definition get_ov_nodes : parser (list ov_node) := get_vector get_ov_node.
Definition put_ov_nodes_boxed (l : list ov_node) : bytes := put_u32 id_overlay_nodes ++ put_ov_nodes l.
Definition get_ov_nodes_boxed : parser (list ov_node) :=
  let* c := get_u32 in if c =? id_overlay_nodes then get_ov_nodes else fail.

(** [NodeToSign] (overlay.rs:66-72): boxed; the id field is a bare hash although the scheme
    line reads adnl.id.short (lower case, hence bare). *)
Definition put_node_to_sign (id overlay : bytes) (version : N) : bytes :=
  put_u32 id_overlay_node_to_sign ++ put_hash id ++ put_hash overlay ++ put_u32 version.

(** [ShardPublicOverlayId] (overlay.rs:74-80); [workchain] is given as its u32 bit pattern. *)
Definition put_shard_public_overlay_id (workchain shard : N) (zero_state : bytes) : bytes :=
  put_u32 id_shard_public_overlay_id ++ put_u32 workchain ++ put_u64 shard ++ put_hash zero_state.

(** [CatchainFirstBlock] (overlay.rs:82-107). *)
Definition put_catchain_first_block (unique_hash : bytes) (nodes : list bytes) : bytes :=
  put_u32 id_catchain_first_block ++ put_hash unique_hash ++ put_vector put_hash nodes.

(** [Certificate] (overlay.rs:165-178). *)
Inductive certificate :=
| Cert (issued_by : public_key) (expire_at max_size : N) (signature : bytes)
| EmptyCert.
Definition put_certificate (c : certificate) : bytes :=
  match c with
  | Cert k e m s => put_u32 id_overlay_certificate ++ put_public_key k ++ put_u32 e ++ put_u32 m ++ put_bytes s
  | EmptyCert => put_u32 id_overlay_empty_certificate
  end.
Definition get_certificate : parser certificate :=
  let* c := get_u32 in
  if c =? id_overlay_certificate then
    let* k := get_public_key in let* e := get_u32 in let* m := get_u32 in let* s := get_bytes in
    ret (Cert k e m s)
  else if c =? id_overlay_empty_certificate then ret EmptyCert
  else fail.

(** [OverlayBroadcast] (overlay.rs:141-149). *)
Record ov_broadcast := mk_ov_broadcast
  { ob_src : public_key; ob_certificate : certificate; ob_flags : N; ob_data : bytes;
    ob_date : N; ob_signature : bytes }.
Definition put_ov_broadcast (b : ov_broadcast) : bytes :=
  put_public_key (ob_src b) ++ put_certificate (ob_certificate b) ++ put_u32 (ob_flags b)
  ++ put_bytes (ob_data b) ++ put_u32 (ob_date b) ++ put_bytes (ob_signature b).
Definition get_ov_broadcast : parser ov_broadcast :=
  let* s := get_public_key in let* c := get_certificate in let* f := get_u32 in
  let* d := get_bytes in let* t := get_u32 in let* g := get_bytes in
  ret (mk_ov_broadcast s c f d t g).

(** [OverlayBroadcastFec] (overlay.rs:151-163). *)
Record ov_broadcast_fec := mk_ov_broadcast_fec
  { bf_src : public_key; bf_certificate : certificate; bf_data_hash : bytes; bf_data_size : N;
    bf_flags : N; bf_data : bytes; bf_seqno : N; bf_fec : fec_type; bf_date : N;
    bf_signature : bytes }.
Definition put_ov_broadcast_fec (b : ov_broadcast_fec) : bytes :=
  put_public_key (bf_src b) ++ put_certificate (bf_certificate b) ++ put_hash (bf_data_hash b)
  ++ put_u32 (bf_data_size b) ++ put_u32 (bf_flags b) ++ put_bytes (bf_data b)
  ++ put_u32 (bf_seqno b) ++ put_fec_type (bf_fec b) ++ put_u32 (bf_date b)
  ++ put_bytes (bf_signature b).
Definition get_ov_broadcast_fec : parser ov_broadcast_fec :=
  let* s := get_public_key in let* c := get_certificate in let* h := get_hash in
  let* z := get_u32 in let* f := get_u32 in let* d := get_bytes in let* q := get_u32 in
  let* e := get_fec_type in let* t := get_u32 in let* g := get_bytes in
  ret (mk_ov_broadcast_fec s c h z f d q e t g).

(** [Broadcast] (overlay.rs:115-139). *)
Inductive broadcast :=
| BBroadcast (b : ov_broadcast)
| BBroadcastFec (b : ov_broadcast_fec)
| BBroadcastFecShort (src : public_key) (c : certificate) (broadcast_hash part_data_hash : bytes)
                     (seqno : N) (signature : bytes)
| BBroadcastNotFound
| BFecCompleted (hash : bytes)
| BFecReceived (hash : bytes)
| BUnicast (data : bytes).
Definition put_broadcast (b : broadcast) : bytes :=
  match b with
  | BBroadcast x => put_u32 id_overlay_broadcast ++ put_ov_broadcast x
  | BBroadcastFec x => put_u32 id_overlay_broadcast_fec ++ put_ov_broadcast_fec x
  | BBroadcastFecShort s c h p q g =>
      put_u32 id_overlay_broadcast_fec_short ++ put_public_key s ++ put_certificate c
      ++ put_hash h ++ put_hash p ++ put_u32 q ++ put_bytes g
  | BBroadcastNotFound => put_u32 id_overlay_broadcast_not_found
  | BFecCompleted h => put_u32 id_overlay_fec_completed ++ put_hash h
  | BFecReceived h => put_u32 id_overlay_fec_received ++ put_hash h
  | BUnicast d => put_u32 id_overlay_unicast ++ put_bytes d
  end.
Definition get_broadcast : parser broadcast :=
  let* k := get_u32 in
  if k =? id_overlay_broadcast then let* x := get_ov_broadcast in ret (BBroadcast x)
  else if k =? id_overlay_broadcast_fec then let* x := get_ov_broadcast_fec in ret (BBroadcastFec x)
  else if k =? id_overlay_broadcast_fec_short then
    let* s := get_public_key in let* c := get_certificate in let* h := get_hash in
    let* p := get_hash in let* q := get_u32 in let* g := get_bytes in
    ret (BBroadcastFecShort s c h p q g)
  else if k =? id_overlay_broadcast_not_found then ret BBroadcastNotFound
  else if k =? id_overlay_fec_completed then let* h := get_hash in ret (BFecCompleted h)
  else if k =? id_overlay_fec_received then let* h := get_hash in ret (BFecReceived h)
  else if k =? id_overlay_unicast then let* d := get_bytes in ret (BUnicast d)
  else fail.

(** [Message] prefix (overlay.rs:109-113), [OverlayQuery] and [OverlayGetRandomPeers]
    (/repo/src/proto/rpc.rs:11-27). *)
Definition put_overlay_message (overlay : bytes) : bytes := put_u32 id_overlay_message ++ put_hash overlay.
Definition get_overlay_message : parser bytes :=
  let* c := get_u32 in if c =? id_overlay_message then get_hash else fail.
Definition put_overlay_query (overlay : bytes) : bytes := put_u32 id_overlay_query ++ put_hash overlay.
Definition get_overlay_query : parser bytes :=
  let* c := get_u32 in if c =? id_overlay_query then get_hash else fail.
Definition put_get_random_peers (l : list ov_node) : bytes :=
  put_u32 id_overlay_get_random_peers ++ put_ov_nodes l.
Definition get_get_random_peers : parser (list ov_node) :=
  let* c := get_u32 in if c =? id_overlay_get_random_peers then get_ov_nodes else fail.
