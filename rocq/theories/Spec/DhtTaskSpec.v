(** Lookups, storing and discovery over several peers, in words. *)
From stdpp Require Import gmap.
From Coq Require Import NArith Permutation.
From Verif.Base Require Import Bytes Res.
From Verif.Model Require Import Crypto Tl ProtoAdnl ProtoDht ProtoOverlay Peer AdnlNode PeersSet DhtStorage DhtNode DhtStream DhtTasks.
From Verif.Spec Require Import Codec DhtSpec DhtNodeSpec.
Open Scope N_scope.

(** The sort of the iterator sorts. *)
Definition lookup_event_ok (ev : lookup_event) : Prop :=
  match ev with LkEnds _ _ sort _ _ => sorts sort | LkOther _ => True end.
Definition store_event_ok (ev : store_event) : Prop :=
  match ev with SkLook sort | SkFound _ _ sort _ _ => sorts sort | _ => True end.

(** The check said no to every value of the list, in the order they came. *)
Definition all_refused {V E} (check : list V -> V -> res E bool) (l : list V) : Prop :=
  forall before v after, l = before ++ v :: after -> check before v = Ok false.

(** The reply contains the value. *)
Definition reply_gives {T} (P : prims) (get : parser T) (reply : bytes) (v : key_description * T) : Prop :=
  exists d now fresh, fst (parse_value_result P get d now fresh reply) = Ok (Some v).
Definition replied_with {T} (P : prims) (get : parser T) (v : key_description * T) (ev : store_event) : Prop :=
  match ev with SkFound _ (Replied reply) _ _ _ => reply_gives P get reply v | _ => False end.

(** Where the operation is. *)
Definition looking_or_decided {T E} (s : store_check T E) : Prop :=
  match sk_stage s with Looking _ | Decided _ _ => True | _ => False end.

(** What else happened on the node. *)
Definition other_ops (evs : list store_event) : list dht_op :=
  flat_map (fun ev => match ev with SkOther op => [op] | _ => [] end) evs.
(** The queries of a lookup that ended. *)
Definition lookup_ends_count (evs : list lookup_event) : nat :=
  length (List.filter (fun ev => match ev with LkEnds _ _ _ _ _ => true | _ => false end) evs).
Definition found_count (evs : list store_event) : nat :=
  length (List.filter (fun ev => match ev with SkFound _ _ _ _ _ => true | _ => false end) evs).
Definition decided {T E} (s : store_check T E) : option (res E bool) :=
  match sk_stage s with Decided r _ => Some r | _ => None end.
Definition lookup_of {T E} (s : store_check T E) : option (lookup T) :=
  match sk_stage s with Looking l | Decided _ l => Some l | _ => None end.

(** A list of overlay nodes under the key of its overlay, with at least one node that signed. *)
Definition signed_list (P : prims) (v : dht_value) : Prop :=
  let d := dv_key v in
  let overlay := sha256 P (put_public_key (kd_id d)) in
  kd_rule d = UrOverlayNodes /\ kd_key d = mk_dht_key overlay key_nodes 0 /\ (exists name, kd_id d = PkOverlay name)
  /\ exists received n, deserialize get_ov_nodes_boxed (dv_value v) = Some received /\ In n received /\ signed_node P overlay n.
(** A value that may be stored in the network at the time [now]. *)
Definition storable (P : prims) (o : storage_options) (now : N) (v : dht_value) : Prop :=
  let k := kd_key (dv_key v) in
  now < dv_ttl v /\ N.of_nat (length (dk_name k)) <= so_name_len o /\ dk_idx k <= so_index o
  /\ dk_id k = sha256 P (put_public_key (kd_id (dv_key v)))
  /\ (signed_value P v \/ signed_list P v).

(** ** Discovery *)

(** The answers that were taken into account: those of queries in flight while nothing was decided. *)
Fixpoint answers_of (P : prims) (s : discovery) (evs : list discovery_event) : list offered :=
  match evs with
  | [] => []
  | ev :: r =>
    (match ev, dc_result s with
     | DcEnds i (Ok l), None => match nth_error (dc_flying s) i with Some _ => l | None => [] end
     | _, _ => []
     end) ++ answers_of P (discovery_step P s ev) r
  end.
(** What else happened. *)
Definition other_ops_of (evs : list discovery_event) : list dht_op :=
  flat_map (fun ev => match ev with DcOther op => [op] | _ => [] end) evs.
