(** C90: where packets go, over what, and what they say about their sender. *)
From stdpp Require Import gmap.
From Coq Require Import NArith.
From Verif.Base Require Import Bytes Res.
From Verif.Model Require Import Crypto Tl ProtoAdnl History Channel Handshake Peer AdnlNode.
From Verif.Spec Require Import NodeSpec.
Open Scope N_scope.

(** 127.0.0.0 - 127.255.255.255, and 127.0.0.1 with the port of an address. *)
Definition loopback_net (a : sockaddr) : Prop := 0x7f000000 <= sa_ip a <= 0x7fffffff.
Definition localhost (a : sockaddr) : sockaddr := mk_sockaddr 0x7f000001 (sa_port a).

(** Nodes behind one address talk over the loopback interface, if the node is told to do so. *)
Definition neighbour (n : node) (known : sockaddr) : Prop :=
  o_loopback (n_opts n) = true /\ sa_ip (n_addr n) = sa_ip known /\ ~ loopback_net known.

(** Given the address known of the peer: where a packet goes and which address the node calls its own in it. *)
Definition addressed (n : node) (known dest own : sockaddr) : Prop :=
  (neighbour n known -> dest = localhost known /\ own = localhost (n_addr n))
  /\ (~ neighbour n known -> dest = known /\ own = n_addr n).

(** How a packet travels: sealed for the key of the peer, or over one of the two directions of a channel. *)
Inductive route := Direct (temp : bytes) | Over (c : channel) (priority : bool).
Definition on_route (P : prims) (n : node) (peer key : bytes) (r : route) (packet : out_packet) : bytes :=
  match r with
  | Direct temp => build_handshake P temp peer key (put_out_packet packet) (o_version (n_opts n))
  | Over c priority => channel_encrypt P c (put_out_packet packet) priority (o_version (n_opts n))
  end.
Definition route_kind (r : route) : option bool := match r with Direct _ => None | Over _ p => Some p end.

(** The kinds and numbers of [k] packets sent over a channel, given the last numbers used: a peer from which
    no priority packet ever came gets at most eleven of them, the rest goes the ordinary way. *)
Fixpoint numbered (asked answered : bool) (ordinary urgent : N) (k : nat) : list (bool * N) :=
  match k with
  | O => []
  | S k =>
    if asked && (answered || (urgent <=? 10))
    then (true, urgent + 1) :: numbered asked answered ordinary (urgent + 1) k
    else (false, ordinary + 1) :: numbered asked answered (ordinary + 1) urgent k
  end.

(** What a packet says about its sender: an address that was current when it was sent, and the start of the node. *)
Definition introduces (n : node) (now : N) (own : sockaddr) (packet : out_packet) : Prop :=
  op_address packet = mk_address_list (Some (address_of own)) now (n_start n)
    ((now + o_address_list_timeout (n_opts n)) mod 2 ^ 32).

(** What a packet sealed for a local key must contain to tell a new address of the peer [i]: a key whose hash is
    [i], its signature if the node wants signatures, and the address. *)
Definition tells_address (P : prims) (n : node) (contents : bytes) (i : bytes) (a : sockaddr) : Prop :=
  exists packet key l w, parse_packet contents = Some packet /\ ip_from packet = Some (PkEd25519 key)
  /\ i = id_of_key P key /\ (o_signature_required (n_opts n) = true -> signed_by P contents packet key)
  /\ ip_address packet = Some l /\ al_address l = Some w /\ a = sockaddr_of w.

(** Why the node would not take an address for a peer: the peer is itself, the address is its own, or the filter
    given by the user says no. *)
Definition declined (n : node) (local peer : bytes) (a : sockaddr) : Prop :=
  peer = local \/ a = n_addr n \/ exists f, n_filter n = Some f /\ f CtxAdnlPacket a peer = false.
