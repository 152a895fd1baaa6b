(** The DHT, in words. *)
From stdpp Require Import gmap.
From Coq Require Import NArith Permutation.
From Verif.Base Require Import Bytes.
From Verif.Model Require Import Crypto Tl Scheme ProtoAdnl ProtoDht ProtoOverlay DhtStorage.
From Verif.Spec Require Import Codec.
Open Scope N_scope.

(** ** Values *)

(** [signature] is a signature of [message] by the owner of [key]. *)
Definition signed_by (P : prims) (key message signature : bytes) : Prop :=
  valid_pub P key = true /\ length signature = 64%nat /\ verify P key message signature = true.

(** Signed by its owner: the description (with an empty signature) and the value (with an empty
    signature) are both signed by the key of the description. *)
Definition signed_value (P : prims) (v : dht_value) : Prop :=
  let d := dv_key v in
  kd_rule d = UrSignature
  /\ exists key, kd_id d = PkEd25519 key
     /\ signed_by P key (put_key_description_boxed (mk_key_description (kd_key d) (kd_id d) (kd_rule d) []))
          (kd_signature d)
     /\ signed_by P key (put_dht_value_boxed (mk_dht_value d (dv_value v) (dv_ttl v) [])) (dv_signature v).

(** A node that signed its membership in the overlay. *)
Definition signed_node (P : prims) (overlay : bytes) (n : ov_node) : Prop :=
  on_overlay n = overlay
  /\ exists key, on_id n = PkEd25519 key
     /\ signed_by P key
          (put_node_to_sign (sha256 P (put_public_key (PkEd25519 key))) overlay (on_version n))
          (on_signature n).

(** A list of overlay nodes under the key "nodes" of the overlay, each node once and signed. *)
Definition overlay_list (P : prims) (v : dht_value) (nodes : list ov_node) : Prop :=
  let d := dv_key v in
  let overlay := sha256 P (put_public_key (kd_id d)) in
  kd_rule d = UrOverlayNodes /\ kd_key d = mk_dht_key overlay key_nodes 0
  /\ (exists name, kd_id d = PkOverlay name)
  /\ deserialize get_ov_nodes_boxed (dv_value v) = Some nodes
  /\ Forall (signed_node P overlay) nodes /\ List.NoDup (map on_id nodes).

(** A value that may be served under [key]. *)
Definition authentic (P : prims) (o : storage_options) (key : bytes) (v : dht_value) : Prop :=
  let k := kd_key (dv_key v) in
  key = sha256 P (put_dht_key_boxed k)
  /\ dk_id k = sha256 P (put_public_key (kd_id (dv_key v)))
  /\ N.of_nat (length (dk_name k)) <= so_name_len o /\ dk_idx k <= so_index o
  /\ (signed_value P v \/ exists nodes, overlay_list P v nodes).

(** Stored values are made of bytes and were decoded from the wire; hash maps are iterated in some
    order. *)
Definition op_ok (op : storage_op) : Prop :=
  match op with
  | OpStore order _ _ v =>
    bytes_ok (dv_value v) = true /\ key_description_ok (dv_key v) /\ (forall l, Permutation (order l) l)
  | OpGc _ => True
  end.

(** The keys hashed during a history do not collide. *)
Definition hashed_by (op : storage_op) : list bytes :=
  match op with
  | OpStore _ _ _ v => [put_dht_key_boxed (kd_key (dv_key v)); put_public_key (kd_id (dv_key v))]
  | OpGc _ => []
  end.
Definition no_collision (P : prims) (ops : list storage_op) : Prop :=
  forall x y, In x (flat_map hashed_by ops) -> In y (flat_map hashed_by ops) ->
  sha256 P x = sha256 P y -> x = y.

(** No clock reading of the operation is past [t]. *)
Definition clock_until (t : N) (op : storage_op) : Prop :=
  match op with OpStore _ now now' _ => now <= t /\ now' <= t | OpGc now => now <= t end.

(** [result] keeps of each node of [old] and [new] a newest record, and nothing else. *)
Definition newest_of_each (old new result : list ov_node) : Prop :=
  List.NoDup (map on_id result)
  /\ (forall n, In n result -> In n old \/ In n new)
  /\ (forall n, In n old \/ In n new ->
        exists m, In m result /\ on_id m = on_id n /\ on_version n <= on_version m).
