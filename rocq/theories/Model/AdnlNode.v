(** The ADNL node: /repo/src/adnl/node/{mod,sender,receiver}.rs.

    Every operation is a function on the node state, run to completion (interleavings inside an
    operation are modelled separately where a property is about them).  The clock, random bytes
    and fresh keys are arguments.  [Arc<Channel>] is a handle into [n_heap]. *)
From stdpp Require Import gmap.
From Coq Require Import NArith.
From Verif.Base Require Import Bytes Res.
From Verif.Model Require Import Crypto Encryption Tl Scheme ProtoAdnl History Channel Handshake Peer Transfer.
Open Scope N_scope.

(** [NodeOptions] (node/mod.rs:34-92), the fields used here; [o_overflow_checks] is the build
    profile. *)
Record options := mk_options
  { o_clock_tolerance : N;
    o_channel_reset_timeout : N;
    o_address_list_timeout : N;
    o_history_enabled : bool;
    o_signature_required : bool;
    o_loopback : bool;
    o_version : option N;
    o_overflow_checks : bool }.

(** [NewPeerContext] (peer.rs:169-173). *)
Inductive peer_context := CtxAdnlPacket | CtxDht | CtxPublicOverlay.

(** [Node] (node/mod.rs:113-149) without queries, subscribers and tasks; [n_out] is the queue of
    outgoing datagrams. *)
Record node := mk_node
  { n_addr : sockaddr;
    n_start : N;
    n_opts : options;
    n_filter : option (peer_context -> sockaddr -> bytes -> bool);
    n_keys : gmap bytes bytes;
    n_peers : gmap bytes (gmap bytes peer);
    n_heap : gmap nat channel;
    n_by_id : gmap bytes (bool * nat);
    n_by_peer : gmap bytes nat;
    n_transfers : transfers;
    n_out : list (sockaddr * bytes) }.

Definition set_peers (n : node) (x : gmap bytes (gmap bytes peer)) : node :=
  mk_node (n_addr n) (n_start n) (n_opts n) (n_filter n) (n_keys n) x (n_heap n) (n_by_id n)
    (n_by_peer n) (n_transfers n) (n_out n).
Definition set_channels (n : node) (heap : gmap nat channel) (by_id : gmap bytes (bool * nat))
    (by_peer : gmap bytes nat) : node :=
  mk_node (n_addr n) (n_start n) (n_opts n) (n_filter n) (n_keys n) (n_peers n) heap by_id by_peer
    (n_transfers n) (n_out n).
Definition set_transfers (n : node) (x : transfers) : node :=
  mk_node (n_addr n) (n_start n) (n_opts n) (n_filter n) (n_keys n) (n_peers n) (n_heap n) (n_by_id n)
    (n_by_peer n) x (n_out n).
Definition push_out (n : node) (d : sockaddr * bytes) : node :=
  mk_node (n_addr n) (n_start n) (n_opts n) (n_filter n) (n_keys n) (n_peers n) (n_heap n) (n_by_id n)
    (n_by_peer n) (n_transfers n) (n_out n ++ [d]).

(** [Node::new] (node/mod.rs:153-197): an empty peer table for every local key. *)
Definition node_new (addr : sockaddr) (start : N) (o : options)
    (f : option (peer_context -> sockaddr -> bytes -> bool)) (keys : gmap bytes bytes) : node :=
  mk_node addr start o f keys ((fun _ => ∅) <$> keys) ∅ ∅ ∅ ∅ [].

Inductive node_error :=
| PeersNotFound | UnknownPeer | KeyIdNotFound | UnexpectedMessageToSend | SplitNotFinished
| ExplicitSourceForChannel | InvalidPeerId | NoKeyDataInPacket | UnknownChannel
| DstReinitDateTooNew | DstReinitDateTooOld | SrcReinitDateTooNew | SrcReinitDateTooOld
| ConfirmationSeqnoTooNew | SignatureNotFound | InvalidSignature
| UnsupportedPublicKey | InvalidPublicKeyBytes
| AddressList (e : address_list_error)
| HandshakeFailed (e : handshake_error) | ChannelFailed (e : channel_error)
| UnsupportedVersion | InvalidPacket | UnknownMessage | UnknownPeerInChannel
| TransferFailed (e : transfer_error) | TransferSpinning | BadAltMessage
| Panic.

(** [get_peers] (node/mod.rs:514-520). *)
Definition get_peers (n : node) (local_id : bytes) : option (gmap bytes peer) := n_peers n !! local_id.
Definition get_peer (n : node) (local_id peer_id : bytes) : option peer :=
  match n_peers n !! local_id with Some ps => ps !! peer_id | None => None end.
Definition put_peer (n : node) (local_id peer_id : bytes) (p : peer) : node :=
  match n_peers n !! local_id with
  | Some ps => set_peers n (<[local_id := <[peer_id := p]> ps]> (n_peers n))
  | None => n
  end.

(** [add_peer] (node/mod.rs:315-349); [fresh] is the channel secret generated for a new peer. *)
Definition add_peer (n : node) (ctx : peer_context) (local_id peer_id : bytes) (addr : sockaddr)
    (key fresh : bytes) : res node_error bool * node :=
  if bytes_eqb peer_id local_id || sockaddr_eqb addr (n_addr n) then (Ok false, n) else
  if match n_filter n with Some f => negb (f ctx addr peer_id) | None => false end then (Ok false, n) else
  match n_peers n !! local_id with
  | None => (Err PeersNotFound, n)
  | Some ps =>
    match ps !! peer_id with
    | Some p => (Ok true, put_peer n local_id peer_id (set_addr p addr))
    | None => (Ok true, put_peer n local_id peer_id (peer_new (n_start n) addr key fresh))
    end
  end.

(** Removing the channel of a peer from both tables (node/mod.rs:360-365, 528-533). *)
Definition drop_channel (n : node) (peer_id : bytes) : node :=
  match n_by_peer n !! peer_id with
  | None => n
  | Some h =>
    match n_heap n !! h with
    | None => n
    | Some c =>
      set_channels n (n_heap n)
        (delete (channel_in_id c true) (delete (channel_in_id c false) (n_by_id n)))
        (delete peer_id (n_by_peer n))
    end
  end.

(** [remove_peer] (node/mod.rs:357-368). *)
Definition remove_peer (n : node) (local_id peer_id : bytes) : res node_error bool * node :=
  match n_peers n !! local_id with
  | None => (Err PeersNotFound, n)
  | Some ps =>
    (Ok (match ps !! peer_id with Some _ => true | None => false end),
     set_peers (drop_channel n peer_id) (<[local_id := delete peer_id ps]> (n_peers n)))
  end.

(** [get_peer_address] (node/mod.rs:371-379). *)
Definition get_peer_address (n : node) (local_id peer_id : bytes) : option sockaddr :=
  peer_addr <$> get_peer n local_id peer_id.

(** [reset_peer] (node/mod.rs:522-538). *)
Definition reset_peer (n : node) (local_id peer_id fresh : bytes) : res node_error unit * node :=
  match n_peers n !! local_id with
  | None => (Err PeersNotFound, n)
  | Some ps =>
    match ps !! peer_id with
    | None => (Err UnknownPeer, n)
    | Some p => (Ok tt, put_peer (drop_channel n peer_id) local_id peer_id (peer_reset p fresh))
    end
  end.

(** Random data of one outgoing packet: 10 bytes, and the ephemeral key if it is a handshake. *)
Record rnd := mk_rnd { r_bytes : bytes; r_temp : bytes }.

(** [MessageSigner] (sender.rs:312-319). *)
Inductive signer := SChannel (c : channel) (priority : bool) | SRandom (secret : bytes).

Definition LOCALHOST : N := 0x7f000001.
Definition is_loopback (a : sockaddr) : bool := (sa_ip a / 2 ^ 24) =? 127.

(** [send_packet] (sender.rs:206-310): the new peer state, the destination and the datagram.
    The packet number wraps on u64; [now + timeout] on u32. *)
Definition send_packet (P : prims) (n : node) (now : N) (peer_id : bytes) (p : peer) (s : signer)
    (messages : out_messages) (r : rnd) : peer * (sockaddr * bytes) :=
  let s :=
    match s with
    | SChannel c priority =>
      if (h_seqno (rs_history priority (p_recv p)) =? 0) && (10 <? ss_seqno true (p_send p))
      then SChannel c false else SChannel c priority
    | SRandom k => SRandom k
    end in
  let priority := match s with SChannel _ pr => pr | SRandom _ => false end in
  let '(local_addr, dest) :=
    let dest := peer_addr p in
    if o_loopback (n_opts n) && (sa_ip (n_addr n) =? sa_ip dest) && negb (is_loopback dest)
    then (mk_sockaddr LOCALHOST (sa_port (n_addr n)), mk_sockaddr LOCALHOST (sa_port dest))
    else (n_addr n, dest) in
  let address := mk_address_list (Some (address_of local_addr)) now (n_start n)
    ((now + o_address_list_timeout (n_opts n)) mod 2 ^ 32) in
  let seqno := (ss_seqno priority (p_send p) + 1) mod 2 ^ 64 in
  let packet :=
    mk_out_packet (firstn 3 (r_bytes r))
      (match s with SChannel _ _ => None | SRandom k => Some (PkEd25519 (pub_of P k)) end)
      messages address seqno (h_seqno (rs_history priority (p_recv p)))
      (match s with
       | SChannel _ _ => None
       | SRandom _ => Some (mk_reinit_dates (n_start n) (ss_reinit (p_send p)))
       end)
      None (skipn 3 (r_bytes r)) in
  let packet :=
    match s with
    | SChannel _ _ => packet
    | SRandom k =>
      mk_out_packet (op_rand1 packet) (op_from packet) (op_messages packet) (op_address packet)
        (op_seqno packet) (op_confirm_seqno packet) (op_reinit_dates packet)
        (Some (sign P k (put_out_packet packet))) (op_rand2 packet)
    end in
  let data := put_out_packet packet in
  let datagram :=
    match s with
    | SChannel c pr => channel_encrypt P c data pr (o_version (n_opts n))
    | SRandom _ => build_handshake P (r_temp r) peer_id (p_key p) data (o_version (n_opts n))
    end in
  (mk_peer (p_key p) (p_addr p) (p_channel_secret p) (p_recv p) (set_ss_seqno priority seqno (p_send p)),
   (dest, datagram)).

(** sender.rs:57-65 *)
Definition MAX_ADNL_MESSAGE_SIZE : N := 1024.
Definition MSG_ANSWER_SIZE : N := 44.
Definition MSG_CONFIRM_CHANNEL_SIZE : N := 72.
Definition MSG_CREATE_CHANNEL_SIZE : N := 40.
Definition MSG_CUSTOM_SIZE : N := 12.
Definition MSG_NOP_SIZE : N := 4.
Definition MSG_QUERY_SIZE : N := 44.
Definition MSG_PART_PREFIX_SIZE : N := 40.

(** The size estimate (sender.rs:103-111); other kinds are not sent. *)
Definition message_size (m : message) : option N :=
  match m with
  | MAnswer _ a => Some (len a + MSG_ANSWER_SIZE)
  | MConfirmChannel _ _ _ => Some MSG_CONFIRM_CHANNEL_SIZE
  | MCustom d => Some (len d + MSG_CUSTOM_SIZE)
  | MNop => Some MSG_NOP_SIZE
  | MQuery _ q => Some (len q + MSG_QUERY_SIZE)
  | _ => None
  end.

(** What [send_message] puts into packets, in order (sender.rs:121-202): [extra] is the
    additional message with its size.  [None]: the splitting loop did not finish. *)
Definition plan (P : prims) (extra : option (N * message)) (m : message) (size : N)
  : option (list out_messages) :=
  let extra_size := match extra with Some (s, _) => s | None => 0 end in
  if extra_size + size <=? MAX_ADNL_MESSAGE_SIZE then
    Some [match extra with
          | Some (_, e) => OmPair (put_message e ++ put_message m)
          | None => OmSingle (put_message m)
          end]
  else
    let data := put_message m in
    let hash := sha256 P data in
    let rest offset :=
      rest_parts (S (length data)) data hash MAX_ADNL_MESSAGE_SIZE offset in
    match extra with
    | Some (_, e) =>
      let '(first, offset) :=
        build_part data hash (MAX_ADNL_MESSAGE_SIZE - MSG_PART_PREFIX_SIZE - extra_size) 0 in
      match rest offset with
      | Some l => Some (OmPair (put_message e ++ put_message first) :: map (fun p => OmSingle (put_message p)) l)
      | None => None
      end
    | None =>
      match rest 0 with
      | Some l => Some (map (fun p => OmSingle (put_message p)) l)
      | None => None
      end
    end.

(** Sends the packets one by one. *)
Fixpoint send_packets (P : prims) (n : node) (now : N) (local_id peer_id : bytes) (p : peer) (s : signer)
    (l : list out_messages) (rs : nat -> rnd) (i : nat) : node :=
  match l with
  | [] => n
  | m :: l' =>
    let '(p', d) := send_packet P n now peer_id p s m (rs i) in
    send_packets P (push_out (put_peer n local_id peer_id p') d) now local_id peer_id p' s l' rs (S i)
  end.

(** [send_message] (sender.rs:50-203); [rs i] is the random data of the i-th packet. *)
Definition send_message (P : prims) (n : node) (now : N) (local_id peer_id : bytes) (m : message)
    (priority : bool) (rs : nat -> rnd) : res node_error unit * node :=
  match n_peers n !! local_id with
  | None => (Err PeersNotFound, n)
  | Some ps =>
    match ps !! peer_id with
    | None => (Err UnknownPeer, n)
    | Some p =>
      match n_keys n !! local_id with
      | None => (Err KeyIdNotFound, n)
      | Some secret =>
        let chan := match n_by_peer n !! peer_id with Some h => n_heap n !! h | None => None end in
        let extra :=
          match chan with
          | Some c =>
            if ch_ready c then None
            else Some (MSG_CONFIRM_CHANNEL_SIZE,
                   MConfirmChannel (pub_of P (p_channel_secret p)) (ch_peer_key c) (ch_peer_date c))
          | None => Some (MSG_CREATE_CHANNEL_SIZE, MCreateChannel (pub_of P (p_channel_secret p)) now)
          end in
        match message_size m with
        | None => (Err UnexpectedMessageToSend, n)
        | Some size =>
          let s :=
            match chan with
            | Some c => if ch_ready c then SChannel c priority else SRandom secret
            | None => SRandom secret
            end in
          match plan P extra m size with
          | None => (Err SplitNotFinished, n)
          | Some l => (Ok tt, send_packets P n now local_id peer_id p s l rs 0)
          end
        end
      end
    end
  end.

(** [create_channel] (receiver.rs:505-582).  A new handle stands for the new [Arc]. *)
Definition create_channel (P : prims) (n : node) (local_id peer_id key : bytes) (date : N)
    (ctx : creation_context) : res node_error unit * node :=
  match n_peers n !! local_id with
  | None => (Err PeersNotFound, n)
  | Some ps =>
    match ps !! peer_id with
    | None => (Err UnknownPeerInChannel, n)
    | Some p =>
      let new := channel_new P local_id peer_id (p_channel_secret p) key date ctx in
      let h := fresh (dom (n_heap n)) in
      let add by_id :=
        <[channel_in_id new true := (true, h)]> (<[channel_in_id new false := (false, h)]> by_id) in
      match (match n_by_peer n !! peer_id with
             | Some oh => match n_heap n !! oh with Some c => Some (oh, c) | None => None end
             | None => None end) with
      | Some (oh, c) =>
        if is_still_valid c key date then
          (Ok tt, match ctx with
                  | CtxConfirm => set_channels n (<[oh := set_ready c]> (n_heap n)) (n_by_id n) (n_by_peer n)
                  | CtxCreate => n
                  end)
        else
          (Ok tt, set_channels n (<[h := new]> (n_heap n))
             (add (delete (channel_in_id c true) (delete (channel_in_id c false) (n_by_id n))))
             (<[peer_id := h]> (n_by_peer n)))
      | None =>
        (Ok tt, set_channels n (<[h := new]> (n_heap n)) (add (n_by_id n)) (<[peer_id := h]> (n_by_peer n)))
      end
    end
  end.

(** [verify] (receiver.rs:368-391): [None] when the check passes. *)
Definition verify_packet (P : prims) (raw : bytes) (signature : option packet_signature) (key : bytes)
    (mandatory : bool) : option node_error :=
  match signature with
  | Some s =>
    match extract s raw with
    | None => Some SignatureNotFound
    | Some (message, sg) => if verify P key message sg then None else Some InvalidSignature
    end
  | None => if mandatory then Some SignatureNotFound else None
  end.

(** [NodeIdFull::try_from] (node_id.rs:60-68) and [compute_short_id] (node_id.rs:46-48). *)
Definition full_id (P : prims) (k : public_key) : res node_error bytes :=
  match k with
  | PkEd25519 key => if valid_pub P key then Ok key else Err InvalidPublicKeyBytes
  | _ => Err UnsupportedPublicKey
  end.
Definition short_id (P : prims) (key : bytes) : bytes := sha256 P (put_public_key (PkEd25519 key)).

(** First half of [check_packet] (receiver.rs:393-432): who sent it, whether its signature is
    still to be checked against the known peer, and the state after the peer was added. *)
Definition packet_source (P : prims) (n : node) (now : N) (raw : bytes) (packet : in_packet)
    (local_id : bytes) (channel_peer : option bytes) (fresh : bytes)
  : res node_error (bytes * bool) * node :=
  match channel_peer with
  | Some peer_id =>
    match ip_from packet, ip_from_short packet with
    | None, None => (Ok (peer_id, true), n)
    | _, _ => (Err ExplicitSourceForChannel, n)
    end
  | None =>
    match ip_from packet with
    | Some k =>
      match full_id P k with
      | Err e => (Err e, n)
      | Ok key =>
        let peer_id := short_id P key in
        if match ip_from_short packet with Some i => negb (bytes_eqb peer_id i) | None => false end
        then (Err InvalidPeerId, n) else
        match verify_packet P raw (ip_signature packet) key (o_signature_required (n_opts n)) with
        | Some e => (Err e, n)
        | None =>
          match ip_address packet with
          | None => (Ok (peer_id, false), n)
          | Some l =>
            match parse_address_list l now (o_clock_tolerance (n_opts n)) with
            | Err e => (Err (AddressList e), n)
            | Ok addr =>
              match add_peer n CtxAdnlPacket local_id peer_id addr key fresh with
              | (Err e, n') => (Err e, n')
              | (Ok _, n') => (Ok (peer_id, false), n')
              end
            end
          end
        end
      end
    | None =>
      match ip_from_short packet with
      | Some peer_id => (Ok (peer_id, true), n)
      | None => (Err NoKeyDataInPacket, n)
      end
    end
  end.

(** The reinit dates part (receiver.rs:457-481). *)
Definition check_reinit (P : prims) (n : node) (now : N) (local_id peer_id : bytes) (p : peer)
    (dates : option reinit_dates) (rs : nat -> rnd) : res node_error peer * node :=
  match dates with
  | None => (Ok p, n)
  | Some d =>
    if n_start n <? rd_target d then (Err DstReinitDateTooNew, n)
    else if now + o_clock_tolerance (n_opts n) <? rd_local d then (Err SrcReinitDateTooNew, n)
    else
      match try_reinit_sender p (rd_local d) with
      | (false, _) => (Err SrcReinitDateTooOld, n)
      | (true, p') =>
        let n' := put_peer n local_id peer_id p' in
        if negb (rd_target d =? 0) && (rd_target d <? n_start n) then
          match send_message P n' now local_id peer_id MNop false rs with
          | (Err e, n'') => (Err e, n'')
          | (Ok _, n'') => (Err DstReinitDateTooOld, n'')
          end
        else (Ok p', n')
      end
  end.

(** [check_packet] (receiver.rs:358-503): [Ok None] is a repeated packet. *)
Definition check_packet (P : prims) (n : node) (now : N) (raw : bytes) (packet : in_packet)
    (local_id : bytes) (channel_peer : option bytes) (priority : bool) (fresh : bytes) (rs : nat -> rnd)
  : res node_error (option bytes) * node :=
  match packet_source P n now raw packet local_id channel_peer fresh with
  | (Err e, n1) => (Err e, n1)
  | (Ok (peer_id, check_signature), n1) =>
    match n_peers n1 !! local_id with
    | None => (Err PeersNotFound, n1)
    | Some ps =>
      if match channel_peer with
         | Some _ => match n_by_peer n1 !! peer_id with Some _ => false | None => true end
         | None => false end
      then (Err UnknownChannel, n1) else
      match ps !! peer_id with
      | None => (Err UnknownPeer, n1)
      | Some p =>
        match (if check_signature then verify_packet P raw (ip_signature packet) (p_key p) false else None) with
        | Some e => (Err e, n1)
        | None =>
          match check_reinit P n1 now local_id peer_id p (ip_reinit_dates packet) rs with
          | (Err e, n2) => (Err e, n2)
          | (Ok p2, n2) =>
            let history :=
              if o_history_enabled (n_opts n) then
                match ip_seqno packet with
                | Some s => deliver (o_overflow_checks (n_opts n)) (rs_history priority (p_recv p2)) s
                | None => (Accepted, rs_history priority (p_recv p2))
                end
              else (Accepted, rs_history priority (p_recv p2)) in
            let p3 := mk_peer (p_key p2) (p_addr p2) (p_channel_secret p2)
                        (set_rs_history priority (snd history) (p_recv p2)) (p_send p2) in
            let n3 := put_peer n2 local_id peer_id p3 in
            match fst history with
            | Panicked => (Err Panic, n2)
            | Rejected => (Ok None, n3)
            | Accepted =>
              match ip_confirm_seqno packet with
              | Some c =>
                if ss_seqno priority (p_send p3) <? c then (Err ConfirmationSeqnoTooNew, n3)
                else (Ok (Some peer_id), n3)
              | None => (Ok (Some peer_id), n3)
              end
            end
          end
        end
      end
    end
  end.

(** What reaches the layers above: answers to the query cache, custom messages and queries to the
    subscribers. *)
Inductive delivery :=
| DAnswer (query_id answer : bytes)
| DCustom (local_id peer_id data : bytes)
| DQuery (local_id peer_id query_id query : bytes).

(** Second half of [process_message] (receiver.rs:263-318).  Subscribers run later: their errors
    end the processing of the packet but are not modelled here. *)
Definition process_whole (P : prims) (n : node) (local_id peer_id : bytes) (m : message)
  : res node_error (list delivery) * node :=
  match m with
  | MAnswer q a => (Ok [DAnswer q a], n)
  | MConfirmChannel k _ d =>
    if valid_pub P k then
      match create_channel P n local_id peer_id k d CtxConfirm with
      | (Err e, n') => (Err e, n') | (Ok _, n') => (Ok [], n') end
    else (Err InvalidPacket, n)
  | MCreateChannel k d =>
    if valid_pub P k then
      match create_channel P n local_id peer_id k d CtxCreate with
      | (Err e, n') => (Err e, n') | (Ok _, n') => (Ok [], n') end
    else (Err InvalidPacket, n)
  | MCustom d => (Ok [DCustom local_id peer_id d], n)
  | MNop => (Ok [], n)
  | MQuery q d => (Ok [DQuery local_id peer_id q d], n)
  | MPart _ _ _ _ | MReinit _ => (Err UnknownMessage, n)
  end.

(** [process_message] (receiver.rs:177-319). *)
Definition process_message (P : prims) (fuel : nat) (n : node) (local_id peer_id : bytes) (m : message)
  : res node_error (list delivery) * node :=
  match m with
  | MPart hash total offset data =>
    let '(o, ts) := process_part P fuel (n_transfers n) hash total offset data in
    let n' := set_transfers n ts in
    match o with
    | Pending => (Ok [], n')
    | Failed e => (Err (TransferFailed e), n')
    | Spinning => (Err TransferSpinning, n')
    | Whole raw =>
      match deserialize get_message raw with
      | None => (Err BadAltMessage, n')
      | Some m' => process_whole P n' local_id peer_id m'
      end
    end
  | _ => process_whole P n local_id peer_id m
  end.

(** The loop over the messages of a packet (receiver.rs:161-171). *)
Fixpoint process_messages (P : prims) (fuel : nat) (n : node) (local_id peer_id : bytes) (l : list message)
  : res node_error unit * list delivery * node :=
  match l with
  | [] => (Ok tt, [], n)
  | m :: r =>
    match process_message P fuel n local_id peer_id m with
    | (Err e, n') => (Err e, [], n')
    | (Ok ds, n') =>
      let '(o, ds', n'') := process_messages P fuel n' local_id peer_id r in
      (o, ds ++ ds', n'')
    end
  end.

Definition ADNL_INITIAL_VERSION : N := 0.

(** What a datagram turns out to be. *)
Record opened := mk_opened
  { od_priority : bool; od_local : bytes; od_channel_peer : option bytes; od_version : option N;
    od_contents : bytes }.

(** The first part of [handle_received_data] (receiver.rs:115-142): a handshake for a local key, a
    packet of a channel, or something for an unknown destination. *)
Definition open_datagram (P : prims) (n : node) (data : bytes) : res node_error (option opened) * node :=
  match parse_handshake P (fun i => n_keys n !! i) data with
  | Err e => (Err (HandshakeFailed e), n)
  | Ok (Some (local_id, version, contents)) => (Ok (Some (mk_opened false local_id None version contents)), n)
  | Ok None =>
    match n_by_id n !! firstn 32 data with
    | None => (Ok None, n)
    | Some (priority, h) =>
      match n_heap n !! h with
      | None => (Ok None, n)
      | Some c =>
        match channel_decrypt P c data priority with
        | Err e => (Err (ChannelFailed e), n)
        | Ok (version, contents) =>
          let c' := mk_channel true (ch_out c) (ch_in c) (ch_local c) (ch_peer c) (ch_peer_key c)
                      (ch_peer_date c) (reset_drop_timeout (ch_drop c)) in
          (Ok (Some (mk_opened priority (ch_local c) (Some (ch_peer c)) version contents)),
           set_channels n (<[h := c']> (n_heap n)) (n_by_id n) (n_by_peer n))
        end
      end
    end
  end.

(** [handle_received_data] (receiver.rs:108-175).  Unknown destinations are ignored. *)
Definition handle_received_data (P : prims) (fuel : nat) (n : node) (now : N) (data fresh : bytes)
    (rs : nat -> rnd) : res node_error unit * list delivery * node :=
  match open_datagram P n data with
  | (Err e, n1) => (Err e, [], n1)
  | (Ok None, n1) => (Ok tt, [], n1)
  | (Ok (Some o), n1) =>
    if match od_version o with Some v => negb (v =? ADNL_INITIAL_VERSION) | None => false end
    then (Err UnsupportedVersion, [], n1) else
    match parse_packet (od_contents o) with
    | None => (Err InvalidPacket, [], n1)
    | Some packet =>
      match check_packet P n1 now (od_contents o) packet (od_local o) (od_channel_peer o) (od_priority o)
              fresh rs with
      | (Err e, n2) => (Err e, [], n2)
      | (Ok None, n2) => (Ok tt, [], n2)
      | (Ok (Some peer_id), n2) => process_messages P fuel n2 (od_local o) peer_id (ip_messages packet)
      end
    end
  end.

(** The end of a query without an answer (node/mod.rs:488-494): [h] is the channel seen right
    after sending. *)
Definition query_timed_out (n : node) (now : N) (local_id peer_id : bytes) (h : option nat) (fresh : bytes)
  : res node_error unit * node :=
  match h with
  | None => (Ok tt, n)
  | Some h =>
    match n_heap n !! h with
    | None => (Ok tt, n)
    | Some c =>
      let '(drop_it, t) := update_drop_timeout (ch_drop c) now (o_channel_reset_timeout (n_opts n)) in
      let c' := mk_channel (ch_ready c) (ch_out c) (ch_in c) (ch_local c) (ch_peer c) (ch_peer_key c)
                  (ch_peer_date c) t in
      let n' := set_channels n (<[h := c']> (n_heap n)) (n_by_id n) (n_by_peer n) in
      if drop_it then reset_peer n' local_id peer_id fresh else (Ok tt, n')
    end
  end.
