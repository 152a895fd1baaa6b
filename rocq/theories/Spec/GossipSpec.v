(** An overlay as a whole: any number of nodes, and a network between them that may lose, repeat,
    delay and reorder the messages they send. *)
From stdpp Require Import gmap.
From Coq Require Import NArith.
From Verif.Base Require Import Bytes.
From Verif.Model Require Import Crypto Tl Scheme ProtoAdnl ProtoOverlay PeersSet Compression Fec OverlayPeers Broadcast OverlayNode.
From Verif.Spec Require Import OverlaySpec PeersSetSpec BroadcastSpec OverlayNodeSpec.
Open Scope N_scope.

Section gossip.
Variables (P : prims) (z : zstd) (checks : bool) (F : fec) (react : consumers) (overlay : bytes).

(** The nodes by their ids. *)
Definition nodes := bytes -> group.
Definition place (w : nodes) (n : bytes) (g : group) : nodes := fun x => if bytes_eqb x n then g else w x.

(** What a node has of this overlay, what it sent to others in it, and what it delivered to its user. *)
Definition at_node (w : nodes) (n : bytes) : option instance := gr_overlays (w n) !! overlay.
Definition sent_by (w : nodes) (n : bytes) : list (list bytes * bytes) :=
  match at_node w n with Some i => br_sent (in_broadcasts i) | None => [] end.
Definition delivered_by (w : nodes) (n : bytes) : list delivery :=
  match at_node w n with Some i => br_delivered (in_broadcasts i) | None => [] end.

(** Anything happens at a node, a message from outside included; or the copy for [to] of the [k]-th
    message that [from] sent arrives. *)
Inductive gossip_event :=
| Local (n : bytes) (op : group_op)
| Arrives (from : bytes) (k : nat) (to : bytes) (picks : list nat).

Definition gossip_step (w : nodes) (e : gossip_event) : nodes :=
  match e with
  | Local n op => place w n (group_step P z checks F react (w n) op)
  | Arrives from k to picks =>
    match nth_error (sent_by w from) k with
    | Some (targets, m) =>
      match get_u32 m with
      | Some (constructor, _) =>
        if existsb (bytes_eqb to) targets
        then place w to (group_step P z checks F react (w to) (GoMessage from constructor m picks)) else w
      | None => w
      end
    | None => w
    end
  end.
Definition gossip_run (w : nodes) (evs : list gossip_event) : nodes := fold_left gossip_step evs w.

(** All of them start without overlays. *)
Definition gossip_start (keys : bytes -> bytes) : nodes := fun n => group_new (keys n).

(** The event [e] happened when the nodes were [w]. *)
Definition at_time (keys : bytes -> bytes) (evs : list gossip_event) (w : nodes) (e : gossip_event) : Prop :=
  exists before after, evs = before ++ e :: after /\ w = gossip_run (gossip_start keys) before.

(** [n] received the message [raw] from [peer] when the nodes were [w]. *)
Definition receives (w : nodes) (e : gossip_event) (n peer raw : bytes) (picks : list nat) : Prop :=
  match e with
  | Local x (GoMessage p constructor r q) => x = n /\ constructor = id_overlay_message /\ p = peer /\ r = raw /\ q = picks
  | Arrives from k to q =>
    to = n /\ from = peer /\ q = picks /\ exists targets, nth_error (sent_by w from) k = Some (targets, raw) /\ In to targets
  | _ => False
  end.

(** The broadcast that [secret] signs for [data] at [date], and the message it is sent in. *)
Definition the_broadcast (packed : bool) (secret data : bytes) (date : N) : ov_broadcast :=
  own_broadcast P z (mk_bc_options 0 0 0 0 0 packed) secret data date.
Definition the_message (packed : bool) (secret data : bytes) (date : N) : bytes :=
  overlay_message overlay (BBroadcast (the_broadcast packed secret data date)).
Definition the_id (data : bytes) (date : N) : bytes := sha256 P (broadcast_claim P 1 [] data date).

(** What users broadcast are bytes that fit into a message. *)
Definition sendable (packed : bool) (data : bytes) : Prop :=
  bytes_ok data = true /\ N.of_nat (length data) < 2 ^ 32
  /\ N.of_nat (length (if packed then compress z data else data)) < 2 ^ 24.
Definition proper_sends (evs : list gossip_event) : Prop :=
  forall n secret data targets packed, In (Local n (GoBroadcasts overlay (EvSend secret data targets))) evs -> sendable packed data.
(** The signature in a broadcast is good for its data only, and not for those bytes compressed or decompressed. *)
Definition unambiguous (packed : bool) (secret data : bytes) (date : N) : Prop :=
  forall other, genuine_broadcast P z (the_broadcast packed secret data date) other (node_id P (pub_of P secret)) -> other = data.

(** Whenever a node receives the message [m] dated [date], it takes part in the overlay and the message is not
    too old. *)
Definition punctual (keys : bytes -> bytes) (evs : list gossip_event) (m : bytes) (date : N) : Prop :=
  forall w e n peer picks, at_time keys evs w e -> receives w e n peer m picks ->
  exists i, at_node w n = Some i /\ timely (setup_of P z checks F overlay i) (in_broadcasts i) date.

(** No FEC broadcast has the id [id] (ids are hashes of different things). *)
Definition no_fec (keys : bytes -> bytes) (evs : list gossip_event) (id : bytes) : Prop :=
  (forall n secret data targets, In (Local n (GoBroadcasts overlay (EvSendFec secret data targets))) evs -> sha256 P data <> id)
  /\ (forall w e n peer raw picks b rest, at_time keys evs w e -> receives w e n peer raw picks ->
      named raw = overlay -> get_broadcast (skipn 36 raw) = Some (BBroadcastFec b, rest) -> bf_data_hash b <> id).

(** The user of [n] asked to broadcast what has the id [id]. *)
Definition asked_to_send (w : nodes) (e : gossip_event) (n id : bytes) : Prop :=
  exists secret data targets i, e = Local n (GoBroadcasts overlay (EvSend secret data targets))
  /\ at_node w n = Some i /\ the_id data (now_sec (in_broadcasts i)) = id.
(** [n] has the broadcast: it delivered it to its user, or its user sent it. *)
Definition has (keys : bytes -> bytes) (evs : list gossip_event) (n id : bytes) : Prop :=
  (exists d, In d (delivered_by (gossip_run (gossip_start keys) evs) n) /\ dl_id d = id)
  \/ (exists w e, at_time keys evs w e /\ asked_to_send w e n id).

(** [n] sent [m] to [to]. *)
Definition passed (w : nodes) (m n to : bytes) : Prop :=
  exists k targets, nth_error (sent_by w n) k = Some (targets, m) /\ In to targets.
(** Every copy of [m] that was sent has arrived at least once. *)
Definition nothing_lost (keys : bytes -> bytes) (evs : list gossip_event) (m : bytes) : Prop :=
  forall n k targets to, nth_error (sent_by (gossip_run (gossip_start keys) evs) n) k = Some (targets, m) -> In to targets ->
  exists w picks, at_time keys evs w (Arrives n k to picks) /\ (k < length (sent_by w n))%nat.

(** From [a], [b] can be reached along [link]. *)
Inductive path (link : bytes -> bytes -> Prop) (a : bytes) : bytes -> Prop :=
| path_here : path link a a
| path_on b c : path link a b -> link b c -> path link a c.

(** A broadcast nobody meddles with: it was sent by the user of [origin] alone, every message received
    about it is [m], and comes from a node it was sent by. *)
Definition undisturbed (keys : bytes -> bytes) (evs : list gossip_event) (origin m id : bytes) : Prop :=
  (forall w e n, at_time keys evs w e -> asked_to_send w e n id -> n = origin)
  /\ (forall w e n peer raw picks b rest, at_time keys evs w e -> receives w e n peer raw picks ->
      named raw = overlay -> get_broadcast (skipn 36 raw) = Some (BBroadcast b, rest) -> In id (broadcast_ids P z b) ->
      raw = m /\ exists k, e = Arrives peer k n picks).

(** A node that receives [m] has the neighbours [neighbours] then, and chooses at random to whom it passes on. *)
Definition chooses (keys : bytes -> bytes) (evs : list gossip_event) (m : bytes) (neighbours : bytes -> list bytes) : Prop :=
  forall w e n peer picks i, at_time keys evs w e -> receives w e n peer m picks -> at_node w n = Some i ->
  let set := ov_neighbours (in_peers i) in
  let amount := bo_secondary (in_options i) in
  (forall p, In p (neighbours n) -> In p (ps_members set))
  /\ amount + 1 < 2 ^ 32 /\ sample_of (ps_len set) (N.to_nat (picks_wanted amount (Some peer))) picks.
(** Moreover it may choose all of them. *)
Definition floods (keys : bytes -> bytes) (evs : list gossip_event) (m : bytes) (neighbours : bytes -> list bytes) : Prop :=
  chooses keys evs m neighbours
  /\ forall w e n peer picks i, at_time keys evs w e -> receives w e n peer m picks -> at_node w n = Some i ->
     N.of_nat (ps_len (ov_neighbours (in_peers i))) <= bo_secondary (in_options i).

(** The ways a flooding broadcast takes: from the origin to whom it was sent, from others to their neighbours. *)
Definition way (w : nodes) (m origin : bytes) (neighbours : bytes -> list bytes) (a b : bytes) : Prop :=
  (a = origin /\ passed w m origin b) \/ (a <> origin /\ In b (neighbours a)).
End gossip.
