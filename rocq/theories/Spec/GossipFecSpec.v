(** A broadcast in several packets in an overlay as a whole (see [GossipSpec]).  The packets of its sender
    are sent by a task of their own and come to the nodes from outside. *)
From stdpp Require Import gmap.
From Coq Require Import NArith.
From Verif.Base Require Import Bytes.
From Verif.Model Require Import Crypto Tl Scheme ProtoAdnl ProtoOverlay PeersSet Compression Fec OverlayPeers Broadcast OverlayNode.
From Verif.Spec Require Import OverlaySpec PeersSetSpec BroadcastSpec OverlayNodeSpec GossipSpec.
Open Scope N_scope.

Section parts.
Variables (P : prims) (z : zstd) (checks : bool) (F : fec) (react : consumers) (overlay : bytes).
(** [secret] broadcasts [data]. *)
Variables (packed : bool) (secret data : bytes).

Definition parts_of : bytes := if packed then compress z data else data.
Definition parts_id : bytes := sha256 P data.
(** The message with symbol [esi] made at [date]. *)
Definition part_message (date esi : N) : bytes :=
  overlay_message overlay (BBroadcastFec (own_fec_packet P F secret parts_id parts_of date esi)).

(** What can be broadcast in packets: data from which nobody can guess other data with the same hash. *)
Definition divisible : Prop :=
  bytes_ok data = true /\ N.of_nat (length data) < 2 ^ 32 /\ N.of_nat (length parts_of) < 2 ^ 32 /\ parts_of <> []
  /\ (forall u, decompress z parts_of = Some u -> sha256 P u = parts_id -> u = data).

(** [n] received symbol [esi] of the broadcast from [peer] when the nodes were [w]. *)
Definition receives_part (w : nodes) (e : gossip_event) (n peer : bytes) (date esi : N) (picks : list nat) : Prop :=
  date < 2 ^ 32 /\ esi < 2 ^ 32 /\ receives overlay w e n peer (part_message date esi) picks.
Definition gets_part (keys : bytes -> bytes) (evs : list gossip_event) (n : bytes) (esi : N) : Prop :=
  exists w e peer date picks, at_time P z checks F react overlay keys evs w e /\ receives_part w e n peer date esi picks.

(** Whenever a node receives one of the packets, it takes part in the overlay and the packet is not too old. *)
Definition parts_punctual (keys : bytes -> bytes) (evs : list gossip_event) : Prop :=
  forall w e n peer date esi picks, at_time P z checks F react overlay keys evs w e -> receives_part w e n peer date esi picks ->
  exists i, at_node overlay w n = Some i /\ timely (setup_of P z checks F overlay i) (in_broadcasts i) date.

(** Nobody meddles: every packet received with this id is one of the sender's, and comes from [origin] or
    from a node it was sent by; no other broadcast has this id; only the user of [origin] sends it. *)
Definition parts_undisturbed (keys : bytes -> bytes) (evs : list gossip_event) (origin : bytes) : Prop :=
  let at_time := at_time P z checks F react overlay keys evs in
  (forall w e n peer raw picks b rest, at_time w e -> receives overlay w e n peer raw picks ->
     named raw = overlay -> get_broadcast (skipn 36 raw) = Some (BBroadcastFec b, rest) -> bf_data_hash b = parts_id ->
     exists date esi, date < 2 ^ 32 /\ esi < 2 ^ 32 /\ raw = part_message date esi
     /\ (peer = origin \/ exists k, e = Arrives peer k n picks))
  /\ (forall w e n peer raw picks b rest, at_time w e -> receives overlay w e n peer raw picks ->
     named raw = overlay -> get_broadcast (skipn 36 raw) = Some (BBroadcast b, rest) -> ~ In parts_id (broadcast_ids P z b))
  /\ (forall w e n, at_time w e -> ~ asked_to_send P overlay w e n parts_id)
  /\ (forall n sec dat targets, In (Local n (GoBroadcasts overlay (EvSendFec sec dat targets))) evs ->
     sha256 P dat = parts_id -> n = origin).

(** A node that receives one of the packets has the neighbours [neighbours] then, chooses at random to whom it
    passes on, and may choose all of them. *)
Definition parts_flood (keys : bytes -> bytes) (evs : list gossip_event) (neighbours : bytes -> list bytes) : Prop :=
  forall w e n peer date esi picks i, at_time P z checks F react overlay keys evs w e -> receives_part w e n peer date esi picks ->
  at_node overlay w n = Some i ->
  let set := ov_neighbours (in_peers i) in
  let amount := bo_secondary_fec (in_options i) in
  (forall p, In p (neighbours n) -> In p (ps_members set))
  /\ amount + 1 < 2 ^ 32 /\ sample_of (ps_len set) (N.to_nat (picks_wanted amount (Some peer))) picks
  /\ N.of_nat (ps_len set) <= amount.

(** Every copy of a packet that a node sent on has arrived at least once. *)
Definition no_part_lost (keys : bytes -> bytes) (evs : list gossip_event) : Prop :=
  forall date esi, date < 2 ^ 32 -> esi < 2 ^ 32 ->
  nothing_lost P z checks F react overlay keys evs (part_message date esi).

(** The neighbours of everybody but the origin. *)
Definition beyond (origin : bytes) (neighbours : bytes -> list bytes) (a b : bytes) : Prop := a <> origin /\ In b (neighbours a).

(** Since [n] received a packet of the broadcast for the first time, less than the timeout has passed. *)
Definition within_timeout (keys : bytes -> bytes) (evs : list gossip_event) (n : bytes) : Prop :=
  forall w e peer date esi picks i i', at_time P z checks F react overlay keys evs w e -> receives_part w e n peer date esi picks ->
  at_node overlay w n = Some i -> at_node overlay (gossip_run P z checks F react overlay (gossip_start keys) evs) n = Some i' ->
  br_clock (in_broadcasts i') < br_clock (in_broadcasts i) + bo_timeout (in_options i) * 1000.
(** [n] has worked off what it received of the broadcast. *)
Definition worked_off (keys : bytes -> bytes) (evs : list gossip_event) (n : bytes) : Prop :=
  forall i, at_node overlay (gossip_run P z checks F react overlay (gossip_start keys) evs) n = Some i ->
  processed parts_id (in_broadcasts i).
End parts.
