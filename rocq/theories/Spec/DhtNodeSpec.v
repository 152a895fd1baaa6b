(** A DHT node, in words. *)
From stdpp Require Import gmap.
From Coq Require Import NArith Permutation Sorted.
From Verif.Base Require Import Bytes.
From Verif.Model Require Import Crypto Tl ProtoAdnl ProtoDht ProtoOverlay DhtStorage DhtBuckets DhtNode.
From Verif.Spec Require Import Codec DhtSpec.
Open Scope N_scope.

(** ** What a history contains *)

(** A query may be preceded by announcements of nodes; these are their nodes and the query itself. *)
Fixpoint unwrap (fuel : nat) (query : bytes) : list dht_node * option dht_query :=
  match get_dht_query query with
  | Some (DqQuery n, rest) =>
    match fuel with
    | O => ([n], None)
    | S f => let '(ns, q) := unwrap f rest in (n :: ns, q)
    end
  | Some (q, _) => ([], Some q)
  | None => ([], None)
  end.

(** The attempts to store a value and the collections of a history. *)
Definition stores_of (op : dht_op) : list storage_op :=
  match op with
  | DReceive e query =>
    match snd (unwrap (length query) query) with
    | Some (DqStore v) => [OpStore (qe_node_order e) (qe_now e) (qe_now2 e) v]
    | _ => []
    end
  | DStore e v => [OpStore (qe_node_order e) (qe_now e) (qe_now2 e) v]
  | DGc now => [OpGc now]
  | _ => []
  end.

(** The nodes heard of in a history. *)
Definition heard_of (op : dht_op) : list dht_node :=
  match op with
  | DReceive e query => fst (unwrap (length query) query)
  | DAddPeer _ _ n => [n]
  | DReply _ _ reply => match deserialize get_value_result reply with Some (VrNotFound l) => l | _ => [] end
  | _ => []
  end.

Definition stores (ops : list dht_op) : list storage_op := flat_map stores_of ops.
Definition heard (ops : list dht_op) : list dht_node := flat_map heard_of ops.

(** Messages are made of bytes, values given to the API are well-formed, iteration orders permute. *)
Definition env_ok (e : query_env) : Prop :=
  (forall l, Permutation (qe_node_order e l) l) /\ (forall b, Permutation (qe_bucket_order e b) b).
Definition dht_op_ok (op : dht_op) : Prop :=
  match op with
  | DReceive e query => env_ok e /\ bytes_ok query = true
  | DAddPeer _ _ n => dht_node_ok n
  | DReply _ _ reply => bytes_ok reply = true
  | DStore e v => env_ok e /\ op_ok (OpStore (qe_node_order e) (qe_now e) (qe_now2 e) v)
  | _ => True
  end.

(** What can be stored: a name, an index, data and an expiry that fit the wire format. *)
Definition entry_ok (name : bytes) (idx : N) (data : bytes) (ttl : N) : Prop :=
  blob_ok name /\ u32_ok idx /\ blob_ok data /\ u32_ok ttl.

(** ** Nodes *)

Definition node_id_of (P : prims) (n : dht_node) : bytes := sha256 P (put_public_key (dn_id n)).
(** The record of a node is signed by the node itself. *)
Definition announced (P : prims) (n : dht_node) : Prop :=
  exists key, dn_id n = PkEd25519 key
    /\ signed_by P key (put_dht_node_boxed (mk_dht_node (dn_id n) (dn_addr_list n) (dn_version n) [])) (dn_signature n).

(** ** Penalties *)

(** The documented rule: two points for a failure, minus one for a success. *)
Definition expected_points (start : N) (l : list query_outcome) : N :=
  fold_left (fun p o => match o with Answered => p - 1 | TimedOut | Failed => p + 2 end) l start.
(** The outcomes of the queries to one peer. *)
Definition outcomes_of (peer : bytes) (l : list (bytes * query_outcome)) : list query_outcome :=
  map snd (List.filter (fun x => bytes_eqb (fst x) peer) l).
(** What follows the first failure. *)
Fixpoint after_first_failure (l : list query_outcome) : option (list query_outcome) :=
  match l with
  | [] => None
  | Failed :: r => Some r
  | _ :: r => after_first_failure r
  end.
Definition after_queries (d : dht) (l : list (bytes * query_outcome)) : dht :=
  fold_left (fun d x => after_query d (fst x) (snd x)) l d.

(** ** Selection of peers *)

(** Sorting by descending affinity. *)
Definition sorts (sort : list (N * bytes) -> list (N * bytes)) : Prop :=
  forall l, Permutation (sort l) l /\ StronglySorted (fun x y => fst y <= fst x) (sort l).
(** The known peers that are not bad. *)
Definition good_peers (d : dht) : list bytes :=
  List.filter (fun p => negb (is_bad_peer d p)) (PeersSet.ps_members (d_known d)).

(** The peers taken from the iterator one after another. *)
Fixpoint taken (n : nat) (it : peers_iter) : list bytes :=
  match n with
  | O => []
  | S n => match iter_next it with
           | (None, _) => []
           | (Some p, it) => p :: taken n it
           end
  end.
