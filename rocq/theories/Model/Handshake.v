(** /repo/src/adnl/handshake.rs *)
From Coq Require Import List NArith Bool.
From Verif.Base Require Import Bytes Res.
From Verif.Model Require Import Crypto Encryption.
Import ListNotations.
Open Scope N_scope.

(** [build_handshake_packet] (handshake.rs:19-66); [temp] is the freshly generated secret. *)
Definition build_handshake (P : prims) (temp peer_id peer_key data : bytes) (version : option N) : bytes :=
  let temp_public := pub_of P temp in
  let secret := dh P temp peer_key in
  let checksum := packet_data_hash P version data in
  match version with
  | Some v =>
    peer_id ++ temp_public ++ encode_version v (peer_id ++ temp_public) checksum ++ checksum
    ++ apply_cipher P secret checksum data
  | None => peer_id ++ temp_public ++ checksum ++ apply_cipher P secret checksum data
  end.

Inductive handshake_error := BadPacketLength | BadPacketChecksum | InvalidPublicKey.

(** [parse_handshake_packet] (handshake.rs:85-166); [keys] maps short ids to local secrets. *)
Definition parse_handshake (P : prims) (keys : bytes -> option bytes) (buffer : bytes)
  : res handshake_error (option (bytes * option N * bytes)) :=
  if Nat.ltb (length buffer) 96 then Err BadPacketLength else
  let local_id := firstn 32 buffer in
  match keys local_id with
  | None => Ok None
  | Some local_secret =>
    let other := slice 32 64 buffer in
    if negb (valid_pub P other) then Err InvalidPublicKey else
    let secret := dh P local_secret other in
    let plain :=
      let checksum := slice 64 96 buffer in
      let data := apply_cipher P secret checksum (skipn 96 buffer) in
      if bytes_eqb (packet_data_hash P None data) checksum
      then Ok (Some (local_id, None, data)) else Err BadPacketChecksum in
    if Nat.ltb 100 (length buffer) then
      match decode_version 100 buffer with
      | Some v =>
        let checksum := slice 68 100 buffer in
        let data := apply_cipher P secret checksum (skipn 100 buffer) in
        if bytes_eqb (packet_data_hash P (Some v) data) checksum
        then Ok (Some (local_id, Some v, data)) else plain
      | None => plain
      end
    else plain
  end.
