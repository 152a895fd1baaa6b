(** How users of an overlay broadcast (src/overlay/overlay.rs). *)
From stdpp Require Import gmap.
From Coq Require Import NArith.
From Verif.Base Require Import Bytes.
From Verif.Model Require Import PeersSet Broadcast.
Open Scope N_scope.

(** [BroadcastTarget] (1150-1155). *)
Inductive broadcast_target := RandomNeighbours | Explicit (peers : list bytes).
(** Whom a broadcast is sent to (765-771, 821-827); [order]: the positions in a random order, of which as many
    are chosen as asked for. *)
Definition chosen_targets (o : bc_options) (neighbours : peers_set) (t : broadcast_target) (order : list nat) : list bytes :=
  match t with
  | RandomNeighbours =>
    let amount := bo_targets o in get_random_peers neighbours amount None (firstn (N.to_nat amount) order)
  | Explicit peers => peers
  end.

(** [broadcast] (423-442): which way of sending is chosen, with which key; [node_key] is [node_key] of the
    overlay, [max_ordinary] the option [max_ordinary_broadcast_len]. *)
Definition broadcast_call (max_ordinary : N) (o : bc_options) (neighbours : peers_set) (node_key data : bytes)
    (source : option bytes) (target : broadcast_target) (picks : list nat) : bc_event :=
  let key := match source with Some k => k | None => node_key end in
  let targets := chosen_targets o neighbours target picks in
  if N.of_nat (length data) <=? max_ordinary then EvSend key data targets else EvSendFec key data targets.
