(** Decoding in the buffer agrees with decoding a value. *)
From Coq Require Import List NArith Bool.
From Verif.Base Require Import Bytes Res.
From Verif.Model Require Import Crypto ProtoAdnl Channel Handshake InPlace.
Import ListNotations.

(** The packet as it would be without a signature. *)
Definition without_signature (q : in_packet) : in_packet :=
  mk_in_packet (ip_from q) (ip_from_short q) (ip_messages q) (ip_address q) (ip_seqno q) (ip_confirm_seqno q) (ip_reinit_dates q) None.

(** What a datagram is, by the value-level functions of Model/Handshake.v and Model/Channel.v. *)
Inductive datagram :=
| ByHandshake (local : bytes) (version : option N) (data : bytes)
| ByChannel (id : bytes) (version : option N) (data : bytes)
| ByNobody
| Unreadable.
Definition datagram_of (P : prims) (keys channels : bytes -> option bytes) (buffer : bytes) : datagram :=
  match parse_handshake P keys buffer with
  | Err _ => Unreadable
  | Ok (Some (id, version, data)) => ByHandshake id version data
  | Ok None =>
    match channels (firstn 32 buffer) with
    | None => ByNobody
    | Some secret =>
      match decrypt_with P secret buffer with
      | Ok (version, data) => ByChannel (firstn 32 buffer) version data
      | Err _ => Unreadable
      end
    end
  end.
(** The same of what was decoded in the buffer; [None] if memory outside it was touched. *)
Definition datagram_seen (o : outcome open_error opened) : option datagram :=
  match o with
  | Fault => None
  | Refuse _ => Some Unreadable
  | Fine (OpenedHandshake id version v) => Some (ByHandshake id version (view_bytes v))
  | Fine (OpenedChannel id version v) => Some (ByChannel id version (view_bytes v))
  | Fine OpenedUnknown => Some ByNobody
  end.
