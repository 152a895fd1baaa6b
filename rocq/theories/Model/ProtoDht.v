(** Codec of DHT values and queries: /repo/src/proto/dht.rs and /repo/src/proto/rpc.rs. *)
From Coq Require Import List NArith Bool.
From Verif.Base Require Import Bytes.
From Verif.Model Require Import Tl Scheme ProtoAdnl.
Import ListNotations.
Open Scope N_scope.

(** [Node] / [NodeOwned] (dht.rs:47-84): bare. *)
Record dht_node := mk_dht_node
  { dn_id : public_key; dn_addr_list : address_list; dn_version : N; dn_signature : bytes }.
Definition put_dht_node (n : dht_node) : bytes :=
  put_public_key (dn_id n) ++ put_address_list (dn_addr_list n) ++ put_u32 (dn_version n)
  ++ put_bytes (dn_signature n).
Definition get_dht_node : parser dht_node :=
  let* i := get_public_key in let* a := get_address_list in let* v := get_u32 in
  let* s := get_bytes in ret (mk_dht_node i a v s).
(** Boxed form, e.g. [dht.getSignedAddressList] answers and signing. *)
Definition put_dht_node_boxed (n : dht_node) : bytes := put_u32 id_dht_node ++ put_dht_node n.

(** [Nodes] / [NodesOwned] (dht.rs:26-45): bare vector of bare nodes. *)
Definition put_dht_nodes (l : list dht_node) : bytes := put_vector put_dht_node l.
Definition get_dht_nodes : parser (list dht_node) := get_vector get_dht_node.
(** An answer to [dht.findNode] ([BoxedWrapper], dht/node.rs:239). *)
Definition get_dht_nodes_boxed : parser (list dht_node) :=
  let* c := get_u32 in if c =? id_dht_nodes then get_dht_nodes else fail.

(** [Key] (dht.rs:182-221): bare / boxed (hashing). *)
Record dht_key := mk_dht_key { dk_id : bytes; dk_name : bytes; dk_idx : N }.
Definition put_dht_key (k : dht_key) : bytes :=
  put_hash (dk_id k) ++ put_bytes (dk_name k) ++ put_u32 (dk_idx k).
Definition put_dht_key_boxed (k : dht_key) : bytes := put_u32 id_dht_key ++ put_dht_key k.
Definition get_dht_key : parser dht_key :=
  let* i := get_hash in let* n := get_bytes in let* x := get_u32 in ret (mk_dht_key i n x).

(** [UpdateRule] (dht.rs:223-232): boxed. *)
Inductive update_rule := UrAnybody | UrOverlayNodes | UrSignature.
Definition put_update_rule (r : update_rule) : bytes :=
  put_u32 (match r with
           | UrAnybody => id_rule_anybody
           | UrOverlayNodes => id_rule_overlay_nodes
           | UrSignature => id_rule_signature
           end).
Definition get_update_rule : parser update_rule :=
  let* c := get_u32 in
  if c =? id_rule_anybody then ret UrAnybody
  else if c =? id_rule_overlay_nodes then ret UrOverlayNodes
  else if c =? id_rule_signature then ret UrSignature
  else fail.

(** [KeyDescription] (dht.rs:138-180). *)
Record key_description := mk_key_description
  { kd_key : dht_key; kd_id : public_key; kd_rule : update_rule; kd_signature : bytes }.
Definition put_key_description (d : key_description) : bytes :=
  put_dht_key (kd_key d) ++ put_public_key (kd_id d) ++ put_update_rule (kd_rule d)
  ++ put_bytes (kd_signature d).
Definition put_key_description_boxed (d : key_description) : bytes :=
  put_u32 id_dht_key_description ++ put_key_description d.
Definition get_key_description : parser key_description :=
  let* k := get_dht_key in let* i := get_public_key in let* r := get_update_rule in
  let* s := get_bytes in ret (mk_key_description k i r s).

(** [Value] (dht.rs:86-136). *)
Record dht_value := mk_dht_value
  { dv_key : key_description; dv_value : bytes; dv_ttl : N; dv_signature : bytes }.
Definition put_dht_value (v : dht_value) : bytes :=
  put_key_description (dv_key v) ++ put_bytes (dv_value v) ++ put_u32 (dv_ttl v)
  ++ put_bytes (dv_signature v).
Definition put_dht_value_boxed (v : dht_value) : bytes := put_u32 id_dht_value ++ put_dht_value v.
Definition get_dht_value : parser dht_value :=
  let* k := get_key_description in let* v := get_bytes in let* t := get_u32 in
  let* s := get_bytes in ret (mk_dht_value k v t s).

(** [ValueResult] / [ValueResultOwned] (dht.rs:8-24). *)
Inductive value_result := VrFound (v : dht_value) | VrNotFound (nodes : list dht_node).
Definition put_value_result (r : value_result) : bytes :=
  match r with
  | VrFound v => put_u32 id_dht_value_found ++ put_dht_value_boxed v
  | VrNotFound l => put_u32 id_dht_value_not_found ++ put_dht_nodes l
  end.
Definition get_value_result : parser value_result :=
  let* c := get_u32 in
  if c =? id_dht_value_found then
    let* b := get_u32 in
    if b =? id_dht_value then let* v := get_dht_value in ret (VrFound v) else fail
  else if c =? id_dht_value_not_found then let* l := get_dht_nodes in ret (VrNotFound l)
  else fail.

(** [Pong], [Stored] (dht.rs:234-244). *)
Definition put_dht_pong (v : N) : bytes := put_u32 id_dht_pong ++ put_u64 v.
Definition get_dht_pong : parser N := let* c := get_u32 in if c =? id_dht_pong then get_u64 else fail.
Definition put_dht_stored : bytes := put_u32 id_dht_stored.
Definition get_dht_stored : parser unit := let* c := get_u32 in if c =? id_dht_stored then ret tt else fail.

(** DHT queries (/repo/src/proto/rpc.rs:29-63). *)
Inductive dht_query :=
| DqPing (random_id : N)
| DqFindNode (key : bytes) (k : N)
| DqFindValue (key : bytes) (k : N)
| DqGetSignedAddressList
| DqStore (v : dht_value)
| DqQuery (node : dht_node).
Definition put_dht_query (q : dht_query) : bytes :=
  match q with
  | DqPing r => put_u32 id_dht_ping ++ put_u64 r
  | DqFindNode key k => put_u32 id_dht_find_node ++ put_hash key ++ put_u32 k
  | DqFindValue key k => put_u32 id_dht_find_value ++ put_hash key ++ put_u32 k
  | DqGetSignedAddressList => put_u32 id_dht_get_signed_address_list
  | DqStore v => put_u32 id_dht_store ++ put_dht_value v
  | DqQuery n => put_u32 id_dht_query ++ put_dht_node n
  end.
Definition get_dht_query : parser dht_query :=
  let* c := get_u32 in
  if c =? id_dht_ping then let* r := get_u64 in ret (DqPing r)
  else if c =? id_dht_find_node then let* key := get_hash in let* k := get_u32 in ret (DqFindNode key k)
  else if c =? id_dht_find_value then let* key := get_hash in let* k := get_u32 in ret (DqFindValue key k)
  else if c =? id_dht_get_signed_address_list then ret DqGetSignedAddressList
  else if c =? id_dht_store then let* v := get_dht_value in ret (DqStore v)
  else if c =? id_dht_query then let* n := get_dht_node in ret (DqQuery n)
  else fail.
