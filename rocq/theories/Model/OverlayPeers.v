(** The peers of an overlay: /repo/src/overlay/overlay.rs and /repo/src/overlay/overlay_id.rs.

    Each operation is one atomic step: the operations on the shared tables commute or are separated
    by nothing a user can see.  [picks] are the positions chosen at random.  Clock readings are
    arguments.  The ADNL node is given to each operation by its caller. *)
From stdpp Require Import gmap.
From Coq Require Import NArith.
From Verif.Base Require Import Bytes Res.
From Verif.Model Require Import Crypto Tl Scheme ProtoAdnl ProtoOverlay Peer AdnlNode PeersSet DhtStorage.
Open Scope N_scope.

(** [IdFull::for_workchain_overlay] (overlay_id.rs:32-38), [for_catchain_overlay] (20-28) and
    [compute_short_id] (46-49); [workchain] is the u32 bit pattern. *)
Definition workchain_overlay (P : prims) (workchain : N) (zero_state : bytes) : bytes :=
  sha256 P (put_shard_public_overlay_id workchain (2 ^ 63) zero_state).
Definition catchain_overlay (P : prims) (unique_hash : bytes) (nodes : list bytes) : bytes :=
  sha256 P (put_catchain_first_block unique_hash nodes).
Definition overlay_short_id (P : prims) (name : bytes) : bytes := sha256 P (put_public_key (PkOverlay name)).

(** [MAX_OVERLAY_PEERS] (overlay/mod.rs:103). *)
Definition max_overlay_peers : N := 65536.

(** The part of [Overlay] (overlay.rs:108-141) about peers; [received_peers] is keyed by the encoding
    of the public key. *)
Record overlay := mk_overlay
  { ov_id : bytes;
    ov_key : bytes;
    ov_max_neighbours : N;
    ov_nodes : gmap bytes ov_node;
    ov_ignored : list bytes;
    ov_known : peers_set;
    ov_neighbours : peers_set;
    ov_received : gmap bytes ov_node }.

(** [overlay_key().id()]. *)
Definition ov_local_id (P : prims) (o : overlay) : bytes := short_id P (pub_of P (ov_key o)).

(** [update_neighbours] (917-921). *)
Definition update_neighbours (o : overlay) (amount : N) (picks : list nat) : overlay :=
  mk_overlay (ov_id o) (ov_key o) (ov_max_neighbours o) (ov_nodes o) (ov_ignored o) (ov_known o)
    (randomly_fill_from (ov_neighbours o) (ov_known o) amount (Some (ov_ignored o)) picks) (ov_received o).

(** [Overlay::new] (145-181). *)
Definition overlay_new (key id : bytes) (peers : list bytes) (max_neighbours : N) (picks : list nat) : overlay :=
  let o := mk_overlay id key max_neighbours ∅ [] (with_peers_and_capacity peers (N.to_nat max_overlay_peers))
             (peers_set_new (N.to_nat max_neighbours)) ∅ in
  match peers with [] => o | _ => update_neighbours o max_neighbours picks end.

(** A record replaces an older one (698-707, 934-943). *)
Definition keep_newer (m : gmap bytes ov_node) (k : bytes) (n : ov_node) : gmap bytes ov_node :=
  match m !! k with
  | Some old => if on_version old <? on_version n then <[k := n]> m else m
  | None => <[k := n]> m
  end.

(** [insert_public_peer] (924-944). *)
Definition insert_public_peer (o : overlay) (peer : bytes) (n : ov_node) : overlay :=
  mk_overlay (ov_id o) (ov_key o) (ov_max_neighbours o)
    (keep_newer (ov_nodes o) peer n)
    (List.filter (fun x => negb (bytes_eqb x peer)) (ov_ignored o))
    (snd (ps_insert (ov_known o) peer))
    (if ps_is_full (ov_neighbours o) then ov_neighbours o else snd (ps_insert (ov_neighbours o) peer))
    (ov_received o).

(** [add_public_peer] (243-270): the new peer if any; the ADNL node learns the address. *)
Definition add_public_peer (P : prims) (o : overlay) (adnl : node) (addr : sockaddr) (n : ov_node) (fresh : bytes)
  : res node_error (option bytes) * overlay * node :=
  if negb (verify_overlay_node P (ov_id o) n) then (Ok None, o, adnl) else
  match full_id P (on_id n) with
  | Err e => (Err e, o, adnl)
  | Ok key =>
    let peer := short_id P key in
    match add_peer adnl CtxPublicOverlay (ov_local_id P o) peer addr key fresh with
    | (Err e, adnl') => (Err e, o, adnl')
    | (Ok true, adnl') => (Ok (Some peer), insert_public_peer o peer n, adnl')
    | (Ok false, adnl') => (Ok None, o, adnl')
    end
  end.

(** [add_public_peers] (275-310). *)
Fixpoint add_public_peers (P : prims) (o : overlay) (adnl : node) (l : list (sockaddr * ov_node * bytes))
  : res node_error (list bytes) * overlay * node :=
  match l with
  | [] => (Ok [], o, adnl)
  | (addr, n, fresh) :: r =>
    match add_public_peer P o adnl addr n fresh with
    | (Err e, o', adnl') => (Err e, o', adnl')
    | (Ok new, o', adnl') =>
      match add_public_peers P o' adnl' r with
      | (Err e, o'', adnl'') => (Err e, o'', adnl'')
      | (Ok rest, o'', adnl'') =>
        (Ok (match new with Some p => p :: rest | None => rest end), o'', adnl'')
      end
    end
  end.

(** [remove_public_peer] (313-322). *)
Definition remove_public_peer (o : overlay) (peer : bytes) (picks : list nat) : bool * overlay :=
  if existsb (bytes_eqb peer) (ov_ignored o) then (false, o) else
  let o := mk_overlay (ov_id o) (ov_key o) (ov_max_neighbours o) (ov_nodes o) (peer :: ov_ignored o)
             (ov_known o) (ov_neighbours o) (ov_received o) in
  (true, if ps_contains (ov_neighbours o) peer then update_neighbours o (ov_max_neighbours o) picks else o).

(** [is_known_peer] (328-330), [is_active_public_peer] (333-335), [write_cached_peers] (338-340). *)
Definition is_known_peer (o : overlay) (peer : bytes) : bool := ps_contains (ov_known o) peer.
Definition is_active_public_peer (o : overlay) (peer : bytes) : bool :=
  ps_contains (ov_known o) peer && negb (existsb (bytes_eqb peer) (ov_ignored o)).
Definition write_cached_peers (o : overlay) (amount : N) (dst : peers_set) (picks : list nat) : peers_set :=
  randomly_fill_from dst (ov_known o) amount (Some (ov_ignored o)) picks.

(** Broadcast targets (763-769, 816-822): [amount] random neighbours, never [except]. *)
Definition broadcast_targets (o : overlay) (amount : N) (except : option bytes) (picks : list nat) : list bytes :=
  get_random_peers (ov_neighbours o) amount except picks.

(** [filter_nodes] (877-896). *)
Definition filter_nodes (P : prims) (o : overlay) (l : list ov_node) : list ov_node :=
  List.filter (fun n =>
    match on_id n with
    | PkEd25519 key => negb (bytes_eqb key (pub_of P (ov_key o))) && verify_overlay_node P (ov_id o) n
    | _ => false
    end) l.

(** [sign_local_node] (459-476). *)
Definition sign_overlay_node (P : prims) (o : overlay) (now : N) : ov_node :=
  mk_ov_node (PkEd25519 (pub_of P (ov_key o))) (ov_id o) now
    (sign P (ov_key o) (put_node_to_sign (ov_local_id P o) (ov_id o) now)).

(** [prepare_random_peers] (899-914). *)
Definition prepare_random_peers (P : prims) (o : overlay) (now : N) (picks : list nat) : list ov_node :=
  sign_overlay_node P o now ::
  flat_map (fun p => match ov_nodes o !! p with Some n => [n] | None => [] end)
    (ps_members (randomly_fill_from (peers_set_new 4) (ov_neighbours o) 4 None picks)).

(** [process_get_random_peers] (688-717). *)
Definition process_get_random_peers (P : prims) (o : overlay) (l : list ov_node) (now : N) (picks : list nat)
  : list ov_node * overlay :=
  let received := fold_left (fun m n => keep_newer m (put_public_key (on_id n)) n) (filter_nodes P o l) (ov_received o) in
  let o := mk_overlay (ov_id o) (ov_key o) (ov_max_neighbours o) (ov_nodes o) (ov_ignored o) (ov_known o)
             (ov_neighbours o) received in
  (prepare_random_peers P o now picks, o).

(** [take_new_peers] (453-456). *)
Definition take_new_peers (o : overlay) : gmap bytes ov_node * overlay :=
  (ov_received o,
   mk_overlay (ov_id o) (ov_key o) (ov_max_neighbours o) (ov_nodes o) (ov_ignored o) (ov_known o)
     (ov_neighbours o) ∅).

(** The end of [exchange_random_peers_ext] (518-538): the unknown peers of an answer. *)
Definition new_random_peers (P : prims) (o : overlay) (existing : bytes -> bool) (answer : list ov_node) : list bytes :=
  flat_map (fun n =>
    match full_id P (on_id n) with
    | Ok key => if existing (short_id P key) then [] else [short_id P key]
    | Err _ => []
    end) (filter_nodes P o answer).

(** The operations of an overlay on its peers. *)
Inductive overlay_op :=
| OvAdd (adnl : node) (addr : sockaddr) (n : ov_node) (fresh : bytes)
| OvAddMany (adnl : node) (l : list (sockaddr * ov_node * bytes))
| OvRemove (peer : bytes) (picks : list nat)
| OvUpdate (amount : N) (picks : list nat)
| OvGetRandomPeers (l : list ov_node) (now : N) (picks : list nat)
| OvTake.
Definition overlay_step (P : prims) (o : overlay) (op : overlay_op) : overlay :=
  match op with
  | OvAdd adnl addr n fresh => snd (fst (add_public_peer P o adnl addr n fresh))
  | OvAddMany adnl l => snd (fst (add_public_peers P o adnl l))
  | OvRemove p picks => snd (remove_public_peer o p picks)
  | OvUpdate amount picks => update_neighbours o amount picks
  | OvGetRandomPeers l now picks => snd (process_get_random_peers P o l now picks)
  | OvTake => snd (take_new_peers o)
  end.
Definition overlay_run (P : prims) (o : overlay) (ops : list overlay_op) : overlay :=
  fold_left (overlay_step P) ops o.
