(** /repo/src/adnl/channel.rs *)
From Coq Require Import List NArith Bool.
From Verif.Base Require Import Bytes Res.
From Verif.Model Require Import Crypto Encryption Tl Scheme ProtoAdnl.
Import ListNotations.
Open Scope N_scope.

(** [build_priority_secret] (channel.rs:299-334): swaps adjacent bytes. *)
Fixpoint swap_pairs (l : bytes) : bytes :=
  match l with
  | a :: b :: r => b :: a :: swap_pairs r
  | _ => l
  end.
Definition build_priority_secret (secret : bytes) : bytes := swap_pairs secret.

(** [compute_channel_id] (channel.rs:338-341): hash of the boxed TL key. *)
Definition compute_channel_id (P : prims) (secret : bytes) : bytes :=
  sha256 P (put_public_key (PkAes secret)).

(** [SubChannelSide], [ChannelSide::from_secret] (channel.rs:274-297). *)
Record subchannel := mk_subchannel { sc_id : bytes; sc_secret : bytes }.
Record side := mk_side { sd_ordinary : subchannel; sd_priority : subchannel }.
Definition side_from_secret (P : prims) (secret : bytes) : side :=
  let p := build_priority_secret secret in
  mk_side (mk_subchannel (compute_channel_id P secret) secret)
          (mk_subchannel (compute_channel_id P p) p).
Definition pick (priority : bool) (s : side) : subchannel :=
  if priority then sd_priority s else sd_ordinary s.

(** [ChannelCreationContext] (channel.rs:258-262). *)
Inductive creation_context := CtxCreate | CtxConfirm.

(** [Channel] (channel.rs:12-29). *)
Record channel := mk_channel
  { ch_ready : bool;
    ch_out : side;
    ch_in : side;
    ch_local : bytes;
    ch_peer : bytes;
    ch_peer_key : bytes;
    ch_peer_date : N;
    ch_drop : N }.

(** [Channel::new] (channel.rs:33-62); [channel_key] is given by its secret. *)
Definition channel_new (P : prims) (local_id peer_id channel_key peer_key : bytes) (date : N)
    (ctx : creation_context) : channel :=
  let shared := dh P channel_key peer_key in
  let reversed := rev shared in
  let '(in_secret, out_secret) :=
    match bytes_cmp local_id peer_id with
    | Lt => (shared, reversed)
    | Eq => (shared, shared)
    | Gt => (reversed, shared)
    end in
  mk_channel (match ctx with CtxConfirm => true | CtxCreate => false end)
    (side_from_secret P out_secret) (side_from_secret P in_secret)
    local_id peer_id peer_key date 0.

(** [is_still_valid] (channel.rs:65-72). *)
Definition is_still_valid (c : channel) (key : bytes) (date : N) : bool :=
  bytes_eqb (ch_peer_key c) key || (date <=? ch_peer_date c).

(** [set_ready] (channel.rs:82-84). *)
Definition set_ready (c : channel) : channel :=
  mk_channel true (ch_out c) (ch_in c) (ch_local c) (ch_peer c) (ch_peer_key c) (ch_peer_date c)
    (ch_drop c).

Inductive channel_error := MessageIsTooShort | InvalidChecksum.

(** [decrypt] (channel.rs:140-207) with the chosen receiving secret; returns the version and
    the remaining buffer.  Decrypting in place and restoring is modelled by using the untouched
    buffer again. *)
Definition decrypt_with (P : prims) (secret buffer : bytes) : res channel_error (option N * bytes) :=
  if Nat.ltb (length buffer) 64 then Err MessageIsTooShort else
  let plain :=
    let checksum := slice 32 64 buffer in
    let data := apply_cipher P secret checksum (skipn 64 buffer) in
    if bytes_eqb (packet_data_hash P None data) checksum
    then Ok (None, data) else Err InvalidChecksum in
  if Nat.ltb 68 (length buffer) then
    match decode_version 68 buffer with
    | Some v =>
      let checksum := slice 36 68 buffer in
      let data := apply_cipher P secret checksum (skipn 68 buffer) in
      if bytes_eqb (packet_data_hash P (Some v) data) checksum
      then Ok (Some v, data) else plain
    | None => plain
    end
  else plain.
Definition channel_decrypt (P : prims) (c : channel) (buffer : bytes) (priority : bool) :=
  decrypt_with P (sc_secret (pick priority (ch_in c))) buffer.

(** [encrypt] (channel.rs:210-250). *)
Definition encrypt_with (P : prims) (id secret data : bytes) (version : option N) : bytes :=
  let checksum := packet_data_hash P version data in
  match version with
  | Some v =>
    id ++ encode_version v id checksum ++ checksum ++ apply_cipher P secret checksum data
  | None => id ++ checksum ++ apply_cipher P secret checksum data
  end.
Definition channel_encrypt (P : prims) (c : channel) (data : bytes) (priority : bool)
    (version : option N) : bytes :=
  let s := pick priority (ch_out c) in
  encrypt_with P (sc_id s) (sc_secret s) data version.

(** Ids under which the receiving side registers the channel (channel.rs:99-108). *)
Definition channel_in_id (c : channel) (priority : bool) : bytes := sc_id (pick priority (ch_in c)).

(** [update_drop_timeout] (channel.rs:124-131): returns whether the channel must be dropped and
    the new drop timestamp; the addition is on u32. *)
Definition update_drop_timeout (drop now timeout : N) : bool * N :=
  ((0 <? drop) && (drop <? now), if drop =? 0 then (now + timeout) mod 2 ^ 32 else drop).
(** [reset_drop_timeout] (channel.rs:134-137). *)
Definition reset_drop_timeout (drop : N) : N := 0.
