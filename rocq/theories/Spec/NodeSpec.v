(** Vocabulary for properties of the ADNL node. *)
From stdpp Require Import gmap.
From Coq Require Import NArith.
From Verif.Base Require Import Bytes Res.
From Verif.Model Require Import Crypto Tl Scheme ProtoAdnl Channel Peer Transfer AdnlNode.
From Verif.Spec Require Import TransferSpec.
Open Scope N_scope.

(** What the layers above see of a payload message sent to [local_id] by [peer_id]. *)
Definition delivered_as (local_id peer_id : bytes) (m : message) : option delivery :=
  match m with
  | MAnswer q a => Some (DAnswer q a)
  | MCustom d => Some (DCustom local_id peer_id d)
  | MQuery q d => Some (DQuery local_id peer_id q d)
  | _ => None
  end.

(** Messages processed one after the other, whoever they are from. *)
Record heard := mk_heard { hd_local : bytes; hd_peer : bytes; hd_message : message }.
Fixpoint hear (P : prims) (fuel : nat) (n : node) (l : list heard)
  : list (res node_error (list delivery)) * node :=
  match l with
  | [] => ([], n)
  | x :: r =>
    let '(o, n') := process_message P fuel n (hd_local x) (hd_peer x) (hd_message x) in
    let '(os, n'') := hear P fuel n' r in
    (o :: os, n'')
  end.
Definition parts_among (l : list heard) : list part :=
  flat_map (fun x => match hd_message x with MPart h t o d => [mk_part h t o d] | _ => [] end) l.

(** The operations of a node, in any order; the clock and all random choices are arbitrary. *)
Inductive op :=
| OAddPeer (ctx : peer_context) (local_id peer_id : bytes) (addr : sockaddr) (key fresh : bytes)
| ORemovePeer (local_id peer_id : bytes)
| OSend (now : N) (local_id peer_id : bytes) (m : message) (priority : bool) (rs : nat -> rnd)
| OReceive (now : N) (data fresh : bytes) (rs : nat -> rnd)
| OTimeout (now : N) (local_id peer_id : bytes) (sent_over : option nat) (fresh : bytes)
| OExpire (hash : bytes).

Definition step (P : prims) (fuel : nat) (n : node) (o : op) : node :=
  match o with
  | OAddPeer ctx l p a k f => snd (add_peer n ctx l p a k f)
  | ORemovePeer l p => snd (remove_peer n l p)
  | OSend now l p m priority rs => snd (send_message P n now l p m priority rs)
  | OReceive now data fresh rs => snd (handle_received_data P fuel n now data fresh rs)
  | OTimeout now l p h f => snd (query_timed_out n now l p h f)
  | OExpire hash => set_transfers n (expire_transfer (n_transfers n) hash)
  end.
Definition run (P : prims) (fuel : nat) (n : node) (l : list op) : node := fold_left (step P fuel) l n.

(** What never changes. *)
Definition same_setup (a b : node) : Prop :=
  n_addr a = n_addr b /\ n_start a = n_start b /\ n_opts a = n_opts b /\ n_filter a = n_filter b
  /\ n_keys a = n_keys b.
Definition same_channels (a b : node) : Prop :=
  n_heap a = n_heap b /\ n_by_id a = n_by_id b /\ n_by_peer a = n_by_peer b.

(** C08: the packet carries a valid signature of [key] over itself. *)
Definition signed_by (P : prims) (contents : bytes) (packet : in_packet) (key : bytes) : Prop :=
  exists place text signature, ip_signature packet = Some place
  /\ extract place contents = Some (text, signature) /\ verify P key text signature = true.

(** The id of a node: the hash of its public key. *)
Definition id_of_key (P : prims) (key : bytes) : bytes := sha256 P (put_public_key (PkEd25519 key)).

(** A packet received over a channel of the node, and one sent to one of its keys directly. *)
Definition came_by_channel (P : prims) (n : node) (data local peer contents : bytes) : Prop :=
  exists priority h c version, n_by_id n !! firstn 32 data = Some (priority, h) /\ n_heap n !! h = Some c
  /\ channel_decrypt P c data priority = Ok (version, contents) /\ ch_local c = local /\ ch_peer c = peer.
Definition came_directly (P : prims) (n : node) (data local contents : bytes) : Prop :=
  exists version, Handshake.parse_handshake P (fun i => n_keys n !! i) data = Ok (Some (local, version, contents)).

(** C09: the reinit date known for a peer, and a history that remembers nothing. *)
Definition known_date (p : peer) : N := ss_reinit (p_send p).
Definition forgotten (h : History.history) : Prop :=
  History.h_seqno h = 0 /\ forall checks s, 0 < s -> s + 256 < 2 ^ 64 -> fst (History.deliver checks h s) = History.Accepted.

(** C18: the channel in use with a peer. *)
Definition current (n : node) (peer : bytes) (h : nat) (c : channel) : Prop :=
  n_by_peer n !! peer = Some h /\ n_heap n !! h = Some c.
Definition tables_consistent (n : node) : Prop :=
  (forall id priority h, n_by_id n !! id = Some (priority, h) ->
     exists peer c, current n peer h c /\ channel_in_id c priority = id)
  /\ (forall peer h, n_by_peer n !! peer = Some h -> exists c, n_heap n !! h = Some c /\ ch_peer c = peer
     /\ forall priority, n_by_id n !! channel_in_id c priority = Some (priority, h)).
(** Channel ids are hashes of secrets: those of different peers, or of the two directions of
    priority, do not coincide among the channels the node ever had. *)
Definition no_id_collision (n : node) : Prop :=
  forall h1 c1 b1 h2 c2 b2, n_heap n !! h1 = Some c1 -> n_heap n !! h2 = Some c2 ->
  channel_in_id c1 b1 = channel_in_id c2 b2 -> ch_peer c1 = ch_peer c2 /\ b1 = b2.

(** C20 *)
Definition addr_ok (a : sockaddr) : Prop := sa_ip a < 2 ^ 32 /\ sa_port a < 2 ^ 16.
Definition op_addr_ok (o : op) : Prop :=
  match o with OAddPeer _ _ _ a _ _ => addr_ok a | _ => True end.

(** C25: over which channel a datagram was accepted, if any. *)
Definition received_over (P : prims) (n : node) (data : bytes) (h : nat) : Prop :=
  Handshake.parse_handshake P (fun i => n_keys n !! i) data = Ok None
  /\ exists priority c version contents, n_by_id n !! firstn 32 data = Some (priority, h) /\ n_heap n !! h = Some c
     /\ channel_decrypt P c data priority = Ok (version, contents).

(** C23: ids and keys are 32 bytes, the random data of a packet is 10 bytes (sender.rs:229);
    payloads are arbitrary. *)
Definition ids_sized (m : message) : Prop :=
  match m with
  | MAnswer q _ | MQuery q _ => length q = 32%nat
  | MConfirmChannel k p _ => length k = 32%nat /\ length p = 32%nat
  | MCreateChannel k _ => length k = 32%nat
  | MPart h _ _ _ => length h = 32%nat
  | MCustom _ | MNop | MReinit _ => True
  end.
Definition rnd_sized (rs : nat -> rnd) : Prop := forall i, length (r_bytes (rs i)) = 10%nat.
Definition op_sized (o : op) : Prop :=
  match o with
  | OAddPeer _ _ i _ _ _ => length i = 32%nat
  | OSend _ _ _ m _ rs => ids_sized m /\ rnd_sized rs
  | OReceive _ _ _ rs => rnd_sized rs
  | _ => True
  end.

(** Nothing a peer sends, and nothing the user does short of removing the peer, lowers a date (C09). *)
Definition no_reset (o : op) : Prop :=
  match o with ORemovePeer _ _ | OTimeout _ _ _ _ _ => False | _ => True end.

(** C60 and C82: a packet that anybody can make.  It names [peer] as its source by id only (bit 1 of the
    flags), holds one message (bit 2), a reinit date if wanted (bit 10), and no signature; it is sealed
    for the key of [local] with the one-time secret [temp]. *)
Definition forged_packet (peer : bytes) (m : message) (date : option N) : bytes :=
  put_u32 id_packet_contents ++ put_bytes [1; 2; 3] ++ put_u32 (match date with Some _ => 1030 | None => 6 end)
  ++ put_hash peer ++ put_message m
  ++ (match date with Some d => put_u32 d ++ put_u32 0 | None => [] end) ++ put_bytes [4; 5; 6].
Definition forged_datagram (P : prims) (temp local local_key peer : bytes) (m : message) (date : option N) : bytes :=
  Handshake.build_handshake P temp local local_key (forged_packet peer m date) (Some 0).

(** C82: the source a packet received outside a channel names. *)
Definition names (P : prims) (packet : in_packet) (peer : bytes) : Prop :=
  match ip_from packet with
  | Some k => exists key, k = PkEd25519 key /\ peer = id_of_key P key
  | None => ip_from_short packet = Some peer
  end.
