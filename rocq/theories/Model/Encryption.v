(** /repo/src/adnl/encryption.rs *)
From Coq Require Import List NArith Bool.
From Verif.Base Require Import Bytes.
From Verif.Model Require Import Crypto.
Import ListNotations.
Open Scope N_scope.

(** [build_packet_cipher(..).apply_keystream(data)] (encryption.rs:3-15): key is the first half
    of the secret and the second half of the checksum, counter block the first 4 bytes of the
    checksum and the last 12 of the secret; the cipher xors the data with the key stream. *)
Definition apply_cipher (P : prims) (secret checksum data : bytes) : bytes :=
  let key := firstn 16 secret ++ slice 16 32 checksum in
  let ctr := firstn 4 checksum ++ slice 20 32 secret in
  xor_bytes data (aes_ctr P key ctr (length data)).

(** [compute_packet_data_hash] (encryption.rs:17-28). *)
Definition packet_data_hash (P : prims) (version : option N) (data : bytes) : bytes :=
  match version with
  | Some v => sha256 P (be_bytes 2 v ++ data)
  | None => sha256 P data
  end.

(** [for (i, byte) in l.iter().enumerate() { xor[i % 4] ^= *byte }]
    (encryption.rs:35-40, channel.rs:229-234, handshake.rs:53-58). *)
Fixpoint xor_into_from (i : nat) (acc l : bytes) : bytes :=
  match l with
  | [] => acc
  | b :: r =>
    let k := Nat.modulo i 4 in
    xor_into_from (S i) (set_nth k (N.lxor (nth k acc 0) b) acc) r
  end.
Definition xor_into (acc l : bytes) : bytes := xor_into_from 0 acc l.

(** [decode_version::<LEN>] (encryption.rs:30-46) on the first [len] bytes of a packet. *)
Definition decode_version (len : nat) (packet : bytes) : option N :=
  let prefix := firstn len packet in
  let e := (len - 32)%nat in
  let s := (e - 4)%nat in
  let x := xor_into (xor_into (slice s e prefix) (firstn s prefix)) (skipn e prefix) in
  if (nth 0 x 0 =? nth 2 x 0) && (nth 1 x 0 =? nth 3 x 0)
  then Some (of_be (firstn 2 x)) else None.

(** The 4 version bytes (channel.rs:222-234, handshake.rs:45-58). *)
Definition encode_version (v : N) (prefix checksum : bytes) : bytes :=
  let h := (v / 256) mod 256 in
  let l := v mod 256 in
  xor_into (xor_into [h; l; h; l] prefix) checksum.
