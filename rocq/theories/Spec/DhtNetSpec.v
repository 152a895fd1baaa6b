(** A lookup in a network of DHT nodes. *)
From stdpp Require Import gmap.
From Coq Require Import NArith.
From Verif.Base Require Import Bytes Res.
From Verif.Model Require Import Crypto Tl ProtoAdnl ProtoDht ProtoOverlay Peer AdnlNode PeersSet DhtStorage DhtNode DhtStream DhtTasks.
From Verif.Spec Require Import Codec DhtSpec DhtNodeSpec DhtTaskSpec.
Open Scope N_scope.

(** The nodes by their ids, the node that looks something up, and its lookup. *)
Record dht_net (T : Type) := mk_dht_net
  { net_nodes : gmap bytes dht; net_reader : dht; net_lookup : lookup T }.
Arguments mk_dht_net {T}. Arguments net_nodes {T}. Arguments net_reader {T}. Arguments net_lookup {T}.

(** Something happens on one of the nodes, for example it receives a query of somebody; something else happens
    on the reader; the query of the reader that is the [i]th in flight arrives at the time of [e] and
    its answer comes back; it is lost, or its answer is. *)
Inductive net_event :=
| NetNode (x : bytes) (op : dht_op)
| NetReader (op : dht_op)
| NetReply (i : nat) (e : query_env) (sort : list (N * bytes) -> list (N * bytes)) (now : N) (fresh : bytes)
| NetLost (i : nat) (broken : bool) (sort : list (N * bytes) -> list (N * bytes)) (now : N) (fresh : bytes).

(** The peer the [i]th query in flight is for. *)
Definition being_asked {T} (l : lookup T) (i : nat) : option bytes :=
  match vs_flying (stream_refill (lk_stream l)) with
  | [] => None
  | (p0 :: _) as flying => Some (nth (i mod length flying) flying p0)
  end.

Definition net_reads {T} (P : prims) (get : parser T) (nodes : gmap bytes dht) (n : dht_net T) (ev : lookup_event) : dht_net T :=
  let '(d, l) := lookup_step P get (net_reader n, net_lookup n) ev in mk_dht_net nodes d l.
Definition net_step {T} (P : prims) (get : parser T) (key : bytes) (n : dht_net T) (ev : net_event) : dht_net T :=
  match ev with
  | NetNode x op => mk_dht_net (alter (fun d => dht_step P d op) x (net_nodes n)) (net_reader n) (net_lookup n)
  | NetReader op => net_reads P get (net_nodes n) n (LkOther op)
  | NetReply i e sort now fresh =>
    match being_asked (net_lookup n) i with
    | None => net_reads P get (net_nodes n) n (LkEnds i Silent sort now fresh)
    | Some p =>
      match net_nodes n !! p with
      | None => net_reads P get (net_nodes n) n (LkEnds i Silent sort now fresh)
      | Some d =>
        let '(answer, d') := dht_receive P e d (lookup_query key) in
        net_reads P get (<[p := d']> (net_nodes n)) n
          (LkEnds i (match answer with Ok (Some reply) => Replied reply | _ => Silent end) sort now fresh)
      end
    end
  | NetLost i broken sort now fresh =>
    net_reads P get (net_nodes n) n (LkEnds i (if broken then Broken else Silent) sort now fresh)
  end.
Definition net_run {T} (P : prims) (get : parser T) (key : bytes) (n : dht_net T) (evs : list net_event) : dht_net T :=
  fold_left (net_step P get key) evs n.

(** The sort sorts, and queries arrive until the time [t]. *)
Definition net_event_ok (t : N) (ev : net_event) : Prop :=
  match ev with
  | NetReply _ e sort _ _ => sorts sort /\ qe_now e <= t
  | NetLost _ _ sort _ _ => sorts sort
  | _ => True
  end.

(** What happens on one node. *)
Definition ops_at (p : bytes) (evs : list net_event) : list dht_op :=
  flat_map (fun ev => match ev with NetNode x op => if bytes_eqb x p then [op] else [] | _ => [] end) evs.

(** No query for [p] is lost. *)
Fixpoint never_lost {T} (P : prims) (get : parser T) (key : bytes) (n : dht_net T) (evs : list net_event) (p : bytes) : Prop :=
  match evs with
  | [] => True
  | ev :: r =>
    match ev with NetLost i _ _ _ _ => being_asked (net_lookup n) i <> Some p | _ => True end
    /\ never_lost P get key (net_step P get key n ev) r p
  end.

(** Until [t] nobody publishes anything under the key of [v] but [v] itself: no other signed value, no list. *)
Definition nothing_else (P : prims) (v : dht_value) (t : N) (op : storage_op) : Prop :=
  match op with
  | OpStore _ now now' w =>
    now <= t /\ now' <= t
    /\ (sha256 P (put_dht_key_boxed (kd_key (dv_key w))) = sha256 P (put_dht_key_boxed (kd_key (dv_key v))) ->
        signed_value P w \/ kd_rule (dv_key w) = UrOverlayNodes -> w = v)
  | OpGc now => now <= t
  end.
