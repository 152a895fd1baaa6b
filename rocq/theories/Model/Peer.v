(** Remote peers and addresses: /repo/src/adnl/peer.rs, /repo/src/util/address_list.rs and the
    address conversions of /repo/src/proto/adnl.rs. *)
From Coq Require Import List NArith Bool.
From Verif.Base Require Import Bytes Res.
From Verif.Model Require Import History ProtoAdnl.
Import ListNotations.
Open Scope N_scope.

(** [SocketAddrV4]: the address as a big-endian number, and the port. *)
Record sockaddr := mk_sockaddr { sa_ip : N; sa_port : N }.
Definition sockaddr_eqb (a b : sockaddr) : bool := (sa_ip a =? sa_ip b) && (sa_port a =? sa_port b).

(** [pack_socket_addr] (peer.rs:108-113). *)
Definition pack_addr (a : sockaddr) : N :=
  of_le (be_bytes 4 (sa_ip a) ++ le_bytes 2 (sa_port a) ++ [0; 0]).
(** [unpack_socket_addr] (peer.rs:116-123). *)
Definition unpack_addr (v : N) : sockaddr :=
  let b := le_bytes 8 v in
  mk_sockaddr (of_be (slice 0 4 b)) (of_le (slice 4 6 b)).

(** [From<&SocketAddrV4> for Address] and back (proto/adnl.rs:409-422). *)
Definition address_of (a : sockaddr) : address := mk_address (sa_ip a) (sa_port a).
Definition sockaddr_of (a : address) : sockaddr := mk_sockaddr (ad_ip a mod 2 ^ 32) (ad_port a mod 2 ^ 16).

Inductive address_list_error := ListIsEmpty | TooNewVersion | Expired.

(** [parse_address_list] (util/address_list.rs:7-26); [now + clock_tolerance] is taken without
    wrapping. *)
Definition parse_address_list (l : address_list) (now clock_tolerance : N)
  : res address_list_error sockaddr :=
  match al_address l with
  | None => Err ListIsEmpty
  | Some a =>
    if now + clock_tolerance <? al_reinit_date l then Err TooNewVersion
    else if negb (al_expire_at l =? 0) && (al_expire_at l <? now) then Err Expired
    else Ok (sockaddr_of a)
  end.

(** [PeerState] for receiving and for sending (peer.rs:126-165).  The histories of the sending
    side have no mask, only the last number. *)
Record recv_state := mk_recv_state { rs_ordinary : history; rs_priority : history; rs_reinit : N }.
Record send_state := mk_send_state { ss_ordinary : N; ss_priority : N; ss_reinit : N }.
Definition recv_new (reinit_date : N) : recv_state := mk_recv_state history_new history_new reinit_date.
Definition send_new : send_state := mk_send_state 0 0 0.
Definition rs_history (priority : bool) (s : recv_state) : history :=
  if priority then rs_priority s else rs_ordinary s.
Definition ss_seqno (priority : bool) (s : send_state) : N :=
  if priority then ss_priority s else ss_ordinary s.
Definition set_rs_history (priority : bool) (h : history) (s : recv_state) : recv_state :=
  if priority then mk_recv_state (rs_ordinary s) h (rs_reinit s)
  else mk_recv_state h (rs_priority s) (rs_reinit s).
Definition set_ss_seqno (priority : bool) (v : N) (s : send_state) : send_state :=
  if priority then mk_send_state (ss_ordinary s) v (ss_reinit s)
  else mk_send_state v (ss_priority s) (ss_reinit s).

(** [Peer] (peer.rs:12-23); the channel key pair is given by its secret. *)
Record peer := mk_peer
  { p_key : bytes; p_addr : N; p_channel_secret : bytes; p_recv : recv_state; p_send : send_state }.

(** [Peer::new] (peer.rs:27-35). *)
Definition peer_new (local_reinit_date : N) (addr : sockaddr) (key fresh : bytes) : peer :=
  mk_peer key (pack_addr addr) fresh (recv_new local_reinit_date) send_new.

(** [addr], [set_addr] (peer.rs:66-73). *)
Definition peer_addr (p : peer) : sockaddr := unpack_addr (p_addr p).
Definition set_addr (p : peer) (a : sockaddr) : peer :=
  mk_peer (p_key p) (pack_addr a) (p_channel_secret p) (p_recv p) (p_send p).

(** [try_reinit_sender] (peer.rs:41-57). *)
Definition try_reinit_sender (p : peer) (reinit_date : N) : bool * peer :=
  let known := ss_reinit (p_send p) in
  match reinit_date ?= known with
  | Eq => (true, p)
  | Gt =>
    let s := p_send p in
    if negb (known =? 0) then
      (true, mk_peer (p_key p) (p_addr p) (p_channel_secret p)
        (mk_recv_state (history_reset (rs_ordinary (p_recv p))) (history_reset (rs_priority (p_recv p)))
           (rs_reinit (p_recv p)))
        (mk_send_state 0 0 reinit_date))
    else
      (true, mk_peer (p_key p) (p_addr p) (p_channel_secret p) (p_recv p)
        (mk_send_state (ss_ordinary s) (ss_priority s) reinit_date))
  | Lt => (false, p)
  end.

(** [reset] (peer.rs:99-105); [reinit_date + 1] on u32. *)
Definition peer_reset (p : peer) (fresh : bytes) : peer :=
  mk_peer (p_key p) (p_addr p) fresh (recv_new ((rs_reinit (p_recv p) + 1) mod 2 ^ 32)) send_new.
