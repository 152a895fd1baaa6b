(** The local DHT storage: /repo/src/dht/storage.rs, with [verify_overlay_node] of
    /repo/src/overlay/overlay_id.rs.

    Clock readings are arguments.  The iteration order of the hash map in
    [make_overlay_nodes_value] is an argument too ([order]). *)
From stdpp Require Import gmap.
From Coq Require Import NArith.
From Verif.Base Require Import Bytes Res.
From Verif.Model Require Import Crypto Tl Scheme ProtoAdnl ProtoDht ProtoOverlay AdnlNode.
Open Scope N_scope.

(** [KEY_ADDRESS] and [KEY_NODES] (dht/mod.rs): "address", "nodes". *)
Definition key_address : bytes := [97; 100; 100; 114; 101; 115; 115].
Definition key_nodes : bytes := [110; 111; 100; 101; 115].

(** [NodeIdFull::verify] (adnl/node_id.rs:35-44): the signature must have 64 bytes. *)
Definition verify_full (P : prims) (key message signature : bytes) : bool :=
  (length signature =? 64)%nat && verify P key message signature.

(** [verify_overlay_node] (overlay_id.rs:62-79). *)
Definition verify_overlay_node (P : prims) (overlay : bytes) (n : ov_node) : bool :=
  if negb (bytes_eqb (on_overlay n) overlay) then false else
  match full_id P (on_id n) with
  | Err _ => false
  | Ok key =>
    verify_full P key (put_node_to_sign (short_id P key) (on_overlay n) (on_version n)) (on_signature n)
  end.

(** [StorageOptions] (storage.rs:14-17). *)
Record storage_options := mk_storage_options { so_name_len : N; so_index : N }.

(** [Storage] (20-23). *)
Notation storage := (gmap bytes dht_value).

(** [StorageError] (233-250) and the other errors of [insert]. *)
Inductive storage_error :=
| UnsupportedUpdateRule | InvalidSignatureValue | InvalidKeyDescription | InvalidDhtKey
| EmptyOverlayNodes | ValueExpired | InvalidKey | BadPublicKey | BadSignature | BadNodes.

(** The hash under which a key is stored ([hash_as_boxed], 97, 148). *)
Definition storage_key (P : prims) (k : dht_key) : bytes := sha256 P (put_dht_key_boxed k).

(** [get_ref] (44-52). *)
Definition storage_get (s : storage) (key : bytes) (now : N) : option dht_value :=
  match s !! key with
  | Some v => if now <? dv_ttl v then Some v else None
  | None => None
  end.

(** [gc] (80-83). *)
Definition storage_gc (s : storage) (now : N) : storage :=
  filter (fun kv => now < dv_ttl (snd kv)) s.

(** What the owner signs: the description and the value with empty signatures (91-97). *)
Definition unsigned_key (d : key_description) : key_description :=
  mk_key_description (kd_key d) (kd_id d) (kd_rule d) [].
Definition unsigned_value (v : dht_value) : dht_value :=
  mk_dht_value (dv_key v) (dv_value v) (dv_ttl v) [].

(** The two signature checks (89-97 and node.rs:734-742). *)
Definition check_signatures (P : prims) (v : dht_value) : res storage_error unit :=
  match full_id P (kd_id (dv_key v)) with
  | Err _ => Err BadPublicKey
  | Ok key =>
    if negb (verify_full P key (put_key_description_boxed (unsigned_key (dv_key v))) (kd_signature (dv_key v)))
    then Err BadSignature
    else if negb (verify_full P key (put_dht_value_boxed (unsigned_value v)) (dv_signature v))
    then Err BadSignature
    else Ok tt
  end.

(** [insert_signed_value] (86-111). *)
Definition insert_signed_value (P : prims) (s : storage) (v : dht_value) : res storage_error bool * storage :=
  match check_signatures P v with
  | Err e => (Err e, s)
  | Ok _ =>
    let key := storage_key P (kd_key (dv_key v)) in
    match s !! key with
    | Some old => if dv_ttl old <? dv_ttl v then (Ok true, <[key := v]> s) else (Ok false, s)
    | None => (Ok true, <[key := v]> s)
    end
  end.

(** Equality of public keys, derived in the external crate. *)
Definition public_key_eqb (a b : public_key) : bool :=
  match a, b with
  | PkEd25519 x, PkEd25519 y | PkAes x, PkAes y | PkOverlay x, PkOverlay y
  | PkUnencoded x, PkUnencoded y => bytes_eqb x y
  | _, _ => false
  end.

(** [HashMap::insert] by node id, on the list of entries: [put_newer] only replaces an older version
    (190-201), [put_always] is [collect] (182-188). *)
Fixpoint put_newer (l : list ov_node) (n : ov_node) : list ov_node :=
  match l with
  | [] => [n]
  | x :: r =>
    if public_key_eqb (on_id x) (on_id n)
    then (if on_version x <? on_version n then n else x) :: r
    else x :: put_newer r n
  end.
Fixpoint put_always (l : list ov_node) (n : ov_node) : list ov_node :=
  match l with
  | [] => [n]
  | x :: r => if public_key_eqb (on_id x) (on_id n) then n :: r else x :: put_always r n
  end.

(** [make_overlay_nodes_value] (175-221); [result.len() as u32] truncates. *)
Definition merge_nodes (new old : list ov_node) : list ov_node :=
  fold_left put_newer new (fold_left put_always old []).
Definition make_overlay_nodes_value (order : list ov_node -> list ov_node) (v : dht_value)
    (new old : list ov_node) : dht_value :=
  let result := order (merge_nodes new old) in
  mk_dht_value (dv_key v)
    (put_u32 id_overlay_nodes ++ put_u32 (N.of_nat (length result)) ++ flat_map put_ov_node result)
    (dv_ttl v) (dv_signature v).

(** [insert_overlay_nodes] (116-171); [now] is the clock at line 154. *)
Definition insert_overlay_nodes (P : prims) (order : list ov_node -> list ov_node) (s : storage) (now : N)
    (v : dht_value) : res storage_error bool * storage :=
  let d := dv_key v in
  match dv_signature v, kd_signature d with
  | [], [] =>
    match kd_id d with
    | PkOverlay _ =>
      let overlay := sha256 P (put_public_key (kd_id d)) in
      let k := kd_key d in
      if negb (bytes_eqb (dk_id k) overlay && bytes_eqb (dk_name k) key_nodes && (dk_idx k =? 0))
      then (Err InvalidDhtKey, s)
      else
        match deserialize get_ov_nodes_boxed (dv_value v) with
        | None => (Err BadNodes, s)
        | Some received =>
          match List.filter (verify_overlay_node P overlay) received with
          | [] => (Err EmptyOverlayNodes, s)
          | new =>
            let key := storage_key P k in
            match s !! key with
            | Some old =>
              if dv_ttl old <? now
              then (Ok true, <[key := make_overlay_nodes_value order v new []]> s)
              else if dv_ttl v <? dv_ttl old then (Ok false, s)
              else
                match deserialize get_ov_nodes_boxed (dv_value old) with
                | None => (Err BadNodes, s)
                | Some old_nodes => (Ok true, <[key := make_overlay_nodes_value order v new old_nodes]> s)
                end
            | None => (Ok true, <[key := make_overlay_nodes_value order v new []]> s)
            end
          end
        end
    | _ => (Err InvalidKeyDescription, s)
    end
  | _, _ => (Err InvalidSignatureValue, s)
  end.

(** [insert] (57-77); [now] is the clock at line 58, [now'] at line 154. *)
Definition storage_insert (P : prims) (o : storage_options) (order : list ov_node -> list ov_node)
    (s : storage) (now now' : N) (v : dht_value) : res storage_error bool * storage :=
  let k := kd_key (dv_key v) in
  if dv_ttl v <=? now then (Err ValueExpired, s)
  else if negb (N.of_nat (length (dk_name k)) <=? so_name_len o) || (so_index o <? dk_idx k)
  then (Err InvalidKey, s)
  else if negb (bytes_eqb (dk_id k) (sha256 P (put_public_key (kd_id (dv_key v)))))
  then (Err InvalidKey, s)
  else
    match kd_rule (dv_key v) with
    | UrSignature => insert_signed_value P s v
    | UrOverlayNodes => insert_overlay_nodes P order s now' v
    | UrAnybody => (Err UnsupportedUpdateRule, s)
    end.

(** A history of the storage. *)
Inductive storage_op :=
| OpStore (order : list ov_node -> list ov_node) (now now' : N) (v : dht_value)
| OpGc (now : N).
Definition storage_step (P : prims) (o : storage_options) (s : storage) (op : storage_op) : storage :=
  match op with
  | OpStore order now now' v => snd (storage_insert P o order s now now' v)
  | OpGc now => storage_gc s now
  end.
Definition storage_run (P : prims) (o : storage_options) (ops : list storage_op) : storage :=
  fold_left (storage_step P o) ops ∅.
