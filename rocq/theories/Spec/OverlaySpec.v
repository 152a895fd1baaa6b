(** The peers of an overlay, in words. *)
From stdpp Require Import gmap.
From Coq Require Import NArith.
From Verif.Base Require Import Bytes.
From Verif.Model Require Import Crypto ProtoAdnl ProtoOverlay Peer AdnlNode OverlayPeers.
From Verif.Spec Require Import DhtSpec.
Open Scope N_scope.

(** The records a user offered for addition, and the records other nodes sent us. *)
Definition offered (op : overlay_op) : list ov_node :=
  match op with
  | OvAdd _ _ n _ => [n]
  | OvAddMany _ l => map (fun x => snd (fst x)) l
  | _ => []
  end.
Definition gossiped (op : overlay_op) : list ov_node :=
  match op with OvGetRandomPeers l _ _ => l | _ => [] end.

(** The id of the node with this public key. *)
Definition node_id (P : prims) (key : bytes) : bytes := sha256 P (put_public_key (PkEd25519 key)).

(** [n] is the record of [peer], a node other than [self], signed for this overlay. *)
Definition record_of (P : prims) (overlay self peer : bytes) (n : ov_node) : Prop :=
  signed_node P overlay n
  /\ exists key, on_id n = PkEd25519 key /\ peer = node_id P key /\ peer <> self.

(** [peer] is offered by the operation. *)
Definition offers (P : prims) (peer : bytes) (op : overlay_op) : Prop :=
  exists n key, In n (offered op) /\ on_id n = PkEd25519 key /\ peer = node_id P key.

(** The ADNL node accepts [peer] at [addr]: it is not itself, not its address, not filtered out, and
    the overlay's key is one of its keys. *)
Definition acceptable (adnl : node) (self peer : bytes) (addr : sockaddr) : Prop :=
  peer <> self /\ sockaddr_eqb addr (n_addr adnl) = false
  /\ match n_filter adnl with Some f => f CtxPublicOverlay addr peer = true | None => True end
  /\ is_Some (n_peers adnl !! self).

(** The records sent to us since they were last taken. *)
Definition since_taken (ops : list overlay_op) : list ov_node :=
  fold_left (fun l op => match op with OvTake => [] | _ => l ++ gossiped op end) ops [].
