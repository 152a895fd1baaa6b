(** Two members of an overlay exchange the peers they know, in words. *)
From stdpp Require Import gmap.
From Coq Require Import NArith.
From Verif.Base Require Import Bytes.
From Verif.Model Require Import Crypto ProtoAdnl ProtoOverlay PeersSet OverlayPeers.
From Verif.Spec Require Import Codec DhtSpec OverlaySpec.
Open Scope N_scope.

(** [o] is the overlay [id] of the node with key [key] after some history in which every record that
    was offered can be encoded. *)
Definition member_of (P : prims) (id key : bytes) (o : overlay) : Prop :=
  exists initial m picks ops,
    o = overlay_run P (overlay_new key id initial m picks) ops /\ Forall ov_node_ok (flat_map offered ops).

(** Its id and its public key. *)
Definition member_key (P : prims) (o : overlay) : bytes := pub_of P (ov_key o).
Definition member_id (P : prims) (o : overlay) : bytes := node_id P (member_key P o).

(** The neighbours at the chosen positions. *)
Definition chosen (o : overlay) (picks : list nat) : list bytes :=
  flat_map (fun i => match nth_error (ps_members (ov_neighbours o)) i with Some p => [p] | None => [] end) picks.

(** The records [o] tells about when it chooses [picks]: its own, dated [now], and those it has of the chosen
    neighbours. *)
Definition told_by (P : prims) (o : overlay) (now : N) (picks : list nat) (n : ov_node) : Prop :=
  (on_id n = PkEd25519 (member_key P o) /\ on_version n = now /\ signed_node P (ov_id o) n)
  \/ exists p, In p (chosen o picks) /\ ov_nodes o !! p = Some n.
