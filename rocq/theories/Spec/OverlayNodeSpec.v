(** The overlays of a node, in words. *)
From stdpp Require Import gmap.
From Coq Require Import NArith.
From Verif.Base Require Import Bytes.
From Verif.Model Require Import Crypto Tl Scheme ProtoAdnl ProtoOverlay Compression Fec OverlayPeers Broadcast OverlayNode.
Open Scope N_scope.

(** The id written in a message or query after its constructor. *)
Definition named (data : bytes) : bytes := firstn 32 (skipn 4 data).
(** The operation is about the overlay [id]. *)
Definition concerns (id : bytes) (op : group_op) : bool :=
  match op with
  | GoPublic i _ _ _ | GoPrivate i _ _ _ _ _ _ | GoSubscribe i _ | GoPeers i _ | GoBroadcasts i _ => bytes_eqb i id
  | GoMessage _ _ data _ => bytes_eqb (named data) id
  | GoQuery _ query _ _ => bytes_eqb (named query) id
  end.

(** With which key, limit and options an overlay was created. *)
Record terms := mk_terms { te_key : bytes; te_max_neighbours : N; te_options : bc_options }.
Definition terms_of (i : instance) : terms := mk_terms (ov_key (in_peers i)) (ov_max_neighbours (in_peers i)) (in_options i).
(** The first creation of the overlay. *)
Fixpoint created (node_key id : bytes) (ops : list group_op) : option terms :=
  match ops with
  | [] => None
  | GoPublic i n o _ :: r => if bytes_eqb i id then Some (mk_terms node_key n o) else created node_key id r
  | GoPrivate i key _ n o _ _ :: r => if bytes_eqb i id then Some (mk_terms key n o) else created node_key id r
  | _ :: r => created node_key id r
  end.
(** The first consumer registered for the overlay. *)
Fixpoint registered (id : bytes) (ops : list group_op) : option nat :=
  match ops with
  | [] => None
  | GoSubscribe i c :: r => if bytes_eqb i id then Some c else registered id r
  | _ :: r => registered id r
  end.

(** The broadcast [b] came in the message [raw] of [peer], named for the overlay [id]. *)
Definition arrived (id : bytes) (ops : list group_op) (peer raw : bytes) (b : broadcast) : Prop :=
  exists picks rest, In (GoMessage peer id_overlay_message raw picks) ops /\ named raw = id
    /\ get_broadcast (skipn 36 raw) = Some (b, rest).
(** The overlay is what a lone overlay with its terms would be after some history of operations on
    its peers and broadcasts, in which every broadcast received came in a message named for it. *)
Definition lives (P : prims) (z : zstd) (checks : bool) (F : fec) (id : bytes) (ops : list group_op) (i : instance) : Prop :=
  exists peers picks clock pops evs,
  in_peers i = overlay_run P (overlay_new (ov_key (in_peers i)) id peers (ov_max_neighbours (in_peers i)) picks) pops
  /\ in_broadcasts i = bc_run (setup_of P z checks F id i) (bstate_new clock) evs
  /\ (forall e peer raw b, In (EvBroadcast e peer raw b) evs -> arrived id ops peer raw (BBroadcast b))
  /\ (forall e peer raw b, In (EvFec e peer raw b) evs -> arrived id ops peer raw (BBroadcastFec b)).
