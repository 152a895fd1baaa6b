(** What concerns the connection with one peer and what does not. *)
From stdpp Require Import gmap.
From Coq Require Import NArith.
From Verif.Base Require Import Bytes Res.
From Verif.Model Require Import Crypto Tl ProtoAdnl Channel Peer AdnlNode.
From Verif.Spec Require Import NodeSpec.
Open Scope N_scope.

(** An operation on the node concerns [peer] as seen by [local]: the user names the peer, the datagram
    came over its channel or names it as the source, or the query that timed out was sent over its
    channel.  Datagrams with the key of the peer but without its signature do not concern it if signatures
    are required. *)
Definition concerns (P : prims) (n : node) (o : op) (local peer : bytes) : Prop :=
  match o with
  | OAddPeer _ l i _ _ _ | OSend _ l i _ _ _ => l = local /\ i = peer
  | ORemovePeer _ i => i = peer
  | OReceive _ data _ _ =>
    (exists l contents packet, came_directly P n data l contents /\ parse_packet contents = Some packet
       /\ names P packet peer
       /\ forall key, ip_from packet = Some (PkEd25519 key) -> o_signature_required (n_opts n) = true ->
          signed_by P contents packet key)
    \/ (exists l contents, came_by_channel P n data l peer contents)
  | OTimeout _ _ i sent_over _ => i = peer \/ exists h, sent_over = Some h /\ n_by_peer n !! peer = Some h
  | OExpire _ => False
  end.

(** None of the operations, each in the state it happens in, concerns the peer. *)
Fixpoint unconcerned (P : prims) (fuel : nat) (n : node) (ops : list op) (local peer : bytes) : Prop :=
  match ops with
  | [] => True
  | o :: r => ~ concerns P n o local peer /\ unconcerned P fuel (step P fuel n o) r local peer
  end.

(** The connection is the same: what is known about the peer (its key, address, numbers, histories and
    dates), the channel in use with it, and under which ids packets for that channel are expected. *)
Definition same_connection (n n' : node) (local peer : bytes) : Prop :=
  get_peer n' local peer = get_peer n local peer
  /\ (forall h c, current n' peer h c <-> current n peer h c)
  /\ (forall h c priority, current n peer h c ->
      n_by_id n' !! channel_in_id c priority = n_by_id n !! channel_in_id c priority).
