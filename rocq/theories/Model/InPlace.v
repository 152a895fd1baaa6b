(** Decoding a datagram in its buffer, with every index and pointer checked: an access outside the
    buffer is a [Fault] (a panic for slice indexing, undefined behaviour for raw pointers).
    /repo/src/adnl/packet_view.rs, channel.rs, handshake.rs, node/receiver.rs, proto/adnl.rs. *)
From Coq Require Import List Arith NArith Bool.
From Verif.Base Require Import Bytes.
From Verif.Model Require Import Crypto Encryption Channel Handshake ProtoAdnl.
Import ListNotations.
Open Scope N_scope.

Inductive outcome (E A : Type) := Fine (a : A) | Refuse (e : E) | Fault.
Arguments Fine {E A} a.
Arguments Refuse {E A} e.
Arguments Fault {E A}.
Definition and_then {E A B} (o : outcome E A) (f : A -> outcome E B) : outcome E B :=
  match o with Fine a => f a | Refuse e => Refuse e | Fault => Fault end.
Notation "'do' x := p 'in' q" := (and_then p (fun x => q)) (at level 200, x name, p at level 100, q at level 200).

(** [PacketView] (packet_view.rs:3-5): a pointer into the buffer and a length. *)
Record view := mk_view { v_memory : bytes; v_start : nat; v_len : nat }.
Definition view_of (buffer : bytes) : view := mk_view buffer 0 (length buffer).
(** What the view shows. *)
Definition view_bytes (v : view) : bytes := firstn (v_len v) (skipn (v_start v) (v_memory v)).

(** [Index<Range>] (packet_view.rs:43-46): checked against the length of the view, which must itself
    lie in the buffer. *)
Definition index {E} (a b : nat) (v : view) : outcome E bytes :=
  if (a <=? b)%nat && (b <=? v_len v)%nat && (v_start v + v_len v <=? length (v_memory v))%nat
  then Fine (slice (v_start v + a) (v_start v + b) (v_memory v)) else Fault.
(** [[..]].try_into().unwrap()] into an array of [n] bytes. *)
Definition array {E} (n : nat) (l : bytes) : outcome E bytes := if (length l =? n)%nat then Fine l else Fault.

(** [remove_prefix] (packet_view.rs:23-29): [ptr.add(n)] and [len - n]. *)
Definition remove_prefix {E} (n : nat) (v : view) : outcome E view :=
  if (n <=? v_len v)%nat then Fine (mk_view (v_memory v) (v_start v + n) (v_len v - n)) else Fault.

(** [Aes256Ctr] with its position (encryption.rs:3-15; [seek] of the external crate). *)
Record cipher := mk_cipher { ci_key : bytes; ci_counter : bytes; ci_pos : nat }.
Definition build_cipher (secret checksum : bytes) : cipher :=
  mk_cipher (firstn 16 secret ++ slice 16 32 checksum) (firstn 4 checksum ++ slice 20 32 secret) 0.
Definition seek (c : cipher) (pos : nat) : cipher := mk_cipher (ci_key c) (ci_counter c) pos.
(** [apply_keystream(&mut buffer[from..])]. *)
Definition apply_keystream {E} (P : prims) (c : cipher) (from : nat) (v : view) : outcome E (cipher * view) :=
  if (from <=? v_len v)%nat && (v_start v + v_len v <=? length (v_memory v))%nat then
    let i := (v_start v + from)%nat in
    let n := (v_len v - from)%nat in
    let data := firstn n (skipn i (v_memory v)) in
    let stream := skipn (ci_pos c) (aes_ctr P (ci_key c) (ci_counter c) (ci_pos c + n)) in
    Fine (seek c (ci_pos c + n),
          mk_view (firstn i (v_memory v) ++ xor_bytes data stream ++ skipn (i + n) (v_memory v)) (v_start v) (v_len v))
  else Fault.

(** The part shared by [Channel::decrypt] (channel.rs:166-206) and [parse_handshake_packet]
    (handshake.rs:127-165): first with a version, then, after restoring the data, without. *)
Definition open_plain {E} (P : prims) (secret : bytes) (data_start : nat) (bad : E) (v : view)
  : outcome E (option N * view) :=
  do c0 := index (data_start - 32) data_start v in
  do c := array 32 c0 in
  do x := apply_keystream P (build_cipher secret c) data_start v in
  let w := snd x in
  do data := index data_start (v_len w) w in
  do sum := index (data_start - 32) data_start w in
  if bytes_eqb (packet_data_hash P None data) sum
  then do u := remove_prefix data_start w in Fine (None, u)
  else Refuse bad.
Definition open_packet {E} (P : prims) (secret : bytes) (data_start : nat) (bad : E) (v : view)
  : outcome E (option N * view) :=
  let ext := (data_start + 4)%nat in
  if (ext <? v_len v)%nat then
    do p0 := index 0 ext v in
    do prefix := array ext p0 in
    match decode_version ext prefix with
    | Some version =>
      do c0 := index (ext - 32) ext v in
      do c := array 32 c0 in
      do x := apply_keystream P (build_cipher secret c) ext v in
      let '(ci, w) := x in
      do data := index ext (v_len w) w in
      do sum := index (ext - 32) ext w in
      if bytes_eqb (packet_data_hash P (Some version) data) sum
      then do u := remove_prefix ext w in Fine (Some version, u)
      else
        do y := apply_keystream P (seek ci 0) ext w in
        open_plain P secret data_start bad (snd y)
    | None => open_plain P secret data_start bad v
    end
  else open_plain P secret data_start bad v.

(** [Channel::decrypt] (channel.rs:140-207). *)
Definition decrypt_in_place (P : prims) (secret : bytes) (v : view) : outcome channel_error (option N * view) :=
  if (v_len v <? 64)%nat then Refuse MessageIsTooShort else open_packet P secret 64 InvalidChecksum v.

(** [parse_handshake_packet] (handshake.rs:85-166).  The id is read through a raw pointer to 32
    bytes. *)
Definition parse_in_place (P : prims) (keys : bytes -> option bytes) (v : view)
  : outcome handshake_error (option (bytes * option N * view)) :=
  if (v_len v <? 96)%nat then Refuse BadPacketLength else
  do local_id := index 0 32 v in
  match keys local_id with
  | None => Fine None
  | Some local_secret =>
    do other0 := index 32 64 v in
    do other := array 32 other0 in
    if negb (valid_pub P other) then Refuse InvalidPublicKey else
    do x := open_packet P (dh P local_secret other) 96 BadPacketChecksum v in
    Fine (Some (local_id, fst x, snd x))
  end.

(** The beginning of [handle_received_data] (receiver.rs:110-147) up to the decrypted packet;
    [channels] finds the receiving secret of a channel by its id. *)
Inductive open_error := OpenHandshake (e : handshake_error) | OpenChannel (e : channel_error).
Inductive opened := OpenedHandshake (local : bytes) (version : option N) (v : view)
| OpenedChannel (id : bytes) (version : option N) (v : view)
| OpenedUnknown.
Definition open_datagram (P : prims) (keys : bytes -> option bytes) (channels : bytes -> option bytes) (buffer : bytes)
  : outcome open_error opened :=
  match parse_in_place P keys (view_of buffer) with
  | Fault => Fault
  | Refuse e => Refuse (OpenHandshake e)
  | Fine (Some (local_id, version, v)) => Fine (OpenedHandshake local_id version v)
  | Fine None =>
    do id := index 0 32 (view_of buffer) in
    match channels id with
    | Some secret =>
      match decrypt_in_place P secret (view_of buffer) with
      | Fault => Fault
      | Refuse e => Refuse (OpenChannel e)
      | Fine (version, v) => Fine (OpenedChannel id version v)
      end
    | None => Fine OpenedUnknown
    end
  end.

(** [PacketContentsSignature::extract] (proto/adnl.rs:243-280) on the buffer.  [flags_offset + 1] is
    computed on u16; [packet[i]] is checked; [ptr::copy] and [from_raw_parts] are not, so they must
    stay inside.  Returns the buffer afterwards, the length of the signed part and the
    signature. *)
Definition extract_in_place (s : packet_signature) (packet : bytes) : outcome unit (bytes * nat * bytes) :=
  let packet_len := N.of_nat (length packet) mod 2 ^ 16 in
  if ps_flags_offset s + 1 =? 2 ^ 16 then Fault else
  let fo := ps_flags_offset s + 1 in
  if (fo <? packet_len) && (ps_start s <? ps_end s) && (ps_end s <? packet_len) then
    let i := N.to_nat fo in
    if (length packet <=? i)%nat then Fault else
    let p1 := set_nth i (N.land (nth i packet 0) 0xf7) packet in
    let signature_len := N.to_nat (ps_end s - ps_start s) in
    let remaining := N.to_nat (packet_len - ps_end s) in
    let src := N.to_nat (ps_end s) in
    let dst := N.to_nat (ps_start s) in
    if (length packet <? src + remaining)%nat || (length packet <? dst + remaining)%nat then Fault else
    let p2 := firstn dst p1 ++ firstn remaining (skipn src p1) ++ skipn (dst + remaining) p1 in
    if (length packet <? signature_len)%nat then Fault else
    Fine (p2, (length packet - signature_len)%nat, ps_signature s)
  else Refuse tt.
