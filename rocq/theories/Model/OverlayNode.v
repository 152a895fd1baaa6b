(** The overlay node: /repo/src/overlay/node.rs.  It keeps the overlays of this program by their ids and
    hands messages and queries over to them. *)
From stdpp Require Import gmap.
From Coq Require Import NArith.
From Verif.Base Require Import Bytes Res.
From Verif.Model Require Import Crypto Tl Scheme ProtoAdnl ProtoOverlay PeersSet Compression Fec OverlayPeers Broadcast.
From Verif.Model Require Subscribers.
Open Scope N_scope.

(** One [Overlay] (overlay.rs:108-141): its peers, its options, its broadcasts and their tasks. *)
Record instance := mk_instance { in_peers : overlay; in_options : bc_options; in_broadcasts : bstate }.

(** [NodeState] (node.rs:119-125) and the key of the node (17); a registered consumer is named by a
    number. *)
Record group := mk_group
  { gr_key : bytes;
    gr_overlays : gmap bytes instance;
    gr_subscribers : gmap bytes nat }.

(** [Node::new] (25-37). *)
Definition group_new (key : bytes) : group := mk_group key ∅ ∅.

Definition set_overlays (g : group) (m : gmap bytes instance) : group := mk_group (gr_key g) m (gr_subscribers g).
Definition set_instance (g : group) (id : bytes) (i : instance) : group := set_overlays g (<[id := i]> (gr_overlays g)).

(** [Overlay::new] (overlay.rs:145-197): the peers, and an idle collector. *)
Definition instance_new (key id : bytes) (peers : list bytes) (max_neighbours : N) (o : bc_options) (clock : N)
    (picks : list nat) : instance :=
  mk_instance (overlay_new key id peers max_neighbours picks) o (bstate_new clock).

(** [add_public_overlay] (75-90) and [add_private_overlay] (93-110): is it new? *)
Definition add_overlay (g : group) (key id : bytes) (peers : list bytes) (max_neighbours : N) (o : bc_options)
    (clock : N) (picks : list nat) : bool * group :=
  match gr_overlays g !! id with
  | None => (true, set_instance g id (instance_new key id peers max_neighbours o clock picks))
  | Some _ => (false, g)
  end.
Definition add_public_overlay (g : group) (id : bytes) (max_neighbours : N) (o : bc_options) (clock : N) : bool * group :=
  add_overlay g (gr_key g) id [] max_neighbours o clock [].
Definition add_private_overlay (g : group) (id key : bytes) (peers : list bytes) (max_neighbours : N) (o : bc_options)
    (clock : N) (picks : list nat) : bool * group :=
  add_overlay g key id peers max_neighbours o clock picks.

(** [add_overlay_subscriber] (58-72). *)
Definition add_overlay_subscriber (g : group) (id : bytes) (consumer : nat) : bool * group :=
  match gr_subscribers g !! id with
  | None => (true, mk_group (gr_key g) (gr_overlays g) (<[id := consumer]> (gr_subscribers g)))
  | Some _ => (false, g)
  end.

(** [NodeError] (212-222) and the errors of the parser, of broadcasts and of consumers. *)
Inductive group_error :=
| BadEncoding | UnsupportedOverlayBroadcastMessage | UnknownOverlay | NoConsumerFound | UnsupportedQuery
| BroadcastError | BroadcastPanic | ConsumerError.

Section Parameters.
Context (P : prims) (z : zstd) (checks : bool).

(** How the reception of a broadcast ends. *)
Definition received (r : bc_result) : res group_error bool :=
  match r with Done => Ok true | Failed => Err BroadcastError | Panic => Err BroadcastPanic end.

(** [try_consume_custom] (138-170): [data] begins with the constructor.  Bytes after the broadcast
    are ignored. *)
Definition on_message (g : group) (peer : bytes) (constructor : N) (data : bytes) (picks : list nat)
  : res group_error bool * group :=
  if negb (constructor =? id_overlay_message) then (Ok false, g) else
  match get_hash (skipn 4 data) with
  | None => (Err BadEncoding, g)
  | Some (id, r) =>
    match get_broadcast r with
    | None => (Err BadEncoding, g)
    | Some (b, _) =>
      match gr_overlays g !! id with
      | None => (Err UnknownOverlay, g)
      | Some i =>
        let e := mk_bc_env (ov_neighbours (in_peers i)) picks in
        match b with
        | BBroadcast b =>
          let '(x, s) := receive_broadcast P z checks (in_options i) e (in_broadcasts i) peer data b in
          (received x, set_instance g id (mk_instance (in_peers i) (in_options i) s))
        | BBroadcastFec b =>
          let '(x, s) := receive_fec P checks (in_options i) e (in_broadcasts i) peer data b in
          (received x, set_instance g id (mk_instance (in_peers i) (in_options i) s))
        | _ => (Err UnsupportedOverlayBroadcastMessage, g)
        end
      end
    end
  end.

(** What the consumers answer ([None]: an error). *)
Definition consumers := nat -> N -> bytes -> option (option (option bytes)).
(** Which consumer was asked what. *)
Definition calls := list (nat * N * bytes).

(** [try_consume_query] (175-209). *)
Definition on_query (react : consumers) (g : group) (constructor : N) (query : bytes) (now : N) (picks : list nat)
  : Subscribers.reply group_error * calls * group :=
  if negb (constructor =? id_overlay_query) then (Subscribers.Refused query, [], g) else
  match get_hash (skipn 4 query) with
  | None => (Subscribers.Failed BadEncoding, [], g)
  | Some (id, r) =>
    match get_u32 r with
    | None => (Subscribers.Failed BadEncoding, [], g)
    | Some (inner, _) =>
      if inner =? id_overlay_get_random_peers then
        match get_get_random_peers r with
        | None => (Subscribers.Failed BadEncoding, [], g)
        | Some (nodes, _) =>
          match gr_overlays g !! id with
          | None => (Subscribers.Failed UnknownOverlay, [], g)
          | Some i =>
            let '(answer, peers) := process_get_random_peers P (in_peers i) nodes now picks in
            (Subscribers.Consumed (Some (put_ov_nodes_boxed answer)), [],
             set_instance g id (mk_instance peers (in_options i) (in_broadcasts i)))
          end
        end
      else
        match gr_subscribers g !! id with
        | None => (Subscribers.Failed NoConsumerFound, [], g)
        | Some c =>
          (match react c inner r with
           | None => Subscribers.Failed ConsumerError
           | Some None => Subscribers.Failed UnsupportedQuery
           | Some (Some a) => Subscribers.Consumed a
           end, [(c, inner, r)], g)
        end
    end
  end.

(** Everything that can happen to the overlays of a node: calls of its owner ([GoPeers] and
    [GoBroadcasts] go to the overlay with that id, if there is one), messages, queries, and the steps
    of the tasks of each overlay.  Broadcasts are received only as messages. *)
Inductive group_op :=
| GoPublic (id : bytes) (max_neighbours : N) (o : bc_options) (clock : N)
| GoPrivate (id key : bytes) (peers : list bytes) (max_neighbours : N) (o : bc_options) (clock : N) (picks : list nat)
| GoSubscribe (id : bytes) (consumer : nat)
| GoMessage (peer : bytes) (constructor : N) (data : bytes) (picks : list nat)
| GoQuery (constructor : N) (query : bytes) (now : N) (picks : list nat)
| GoPeers (id : bytes) (op : overlay_op)
| GoBroadcasts (id : bytes) (e : bc_event).

Context (F : fec) (react : consumers).
Definition setup_of (id : bytes) (i : instance) : bc_setup := mk_bc_setup P z F checks (in_options i) id.
Definition on_instance (g : group) (id : bytes) (f : instance -> instance) : group :=
  match gr_overlays g !! id with Some i => set_instance g id (f i) | None => g end.
Definition is_reception (e : bc_event) : bool := match e with EvBroadcast _ _ _ _ | EvFec _ _ _ _ => true | _ => false end.
Definition group_step (g : group) (op : group_op) : group :=
  match op with
  | GoPublic id n o clock => snd (add_public_overlay g id n o clock)
  | GoPrivate id key peers n o clock picks => snd (add_private_overlay g id key peers n o clock picks)
  | GoSubscribe id c => snd (add_overlay_subscriber g id c)
  | GoMessage peer constructor data picks => snd (on_message g peer constructor data picks)
  | GoQuery constructor query now picks => snd (on_query react g constructor query now picks)
  | GoPeers id op => on_instance g id (fun i => mk_instance (overlay_step P (in_peers i) op) (in_options i) (in_broadcasts i))
  | GoBroadcasts id e =>
      if is_reception e then g else
      on_instance g id (fun i => mk_instance (in_peers i) (in_options i) (bc_step (setup_of id i) (in_broadcasts i) e))
  end.
Definition group_run (g : group) (ops : list group_op) : group := fold_left group_step ops g.
End Parameters.
