(** C07, C70: decoding datagrams and signatures in the receive buffer. *)
From Coq Require Import List NArith Bool.
From Verif.Base Require Import Bytes Res.
From Verif.Model Require Import Tl Scheme ProtoAdnl Crypto Encryption Channel Handshake InPlace.
From Verif.Spec Require Import CryptoSpec Codec InPlaceSpec.
From Verif.Proof Require Import LocalFacts InPlaceFacts.
Import ListNotations.
Open Scope N_scope.

(** C07 for packets of any origin: if a packet that decodes carries a signature, the bytes the
    signature is checked against decode to the very same packet without the signature. *)
Theorem c07_signature_covers_packet : forall packet q sg,
  bytes_ok packet = true -> N.of_nat (length packet) < 2 ^ 16 ->
  parse_packet packet = Some q -> ip_signature q = Some sg ->
  exists signed, extract sg packet = Some (signed, ps_signature sg)
    /\ parse_packet signed = Some (without_signature q).
Proof. exact signed_part. Qed.
Print Assumptions c07_signature_covers_packet.

(** C70: decoding any datagram in its buffer never reads or writes outside it and sees what the
    value-level decoding sees: also after a failed attempt with a version, which must restore the
    data. *)
Theorem c70_inside_buffer : forall P keys channels buffer,
  datagram_seen (open_datagram P keys channels buffer) = Some (datagram_of P keys channels buffer).
Proof. exact opens_inside. Qed.
Print Assumptions c70_inside_buffer.

(** C70: cutting the signature out of the buffer stays inside it and leaves everything in front of
    the signature as it was, except for one bit of the flags. *)
Theorem c70_signature_inside : forall packet q sg,
  bytes_ok packet = true -> N.of_nat (length packet) < 2 ^ 16 ->
  parse_packet packet = Some q -> ip_signature q = Some sg ->
  exists memory n, extract_in_place sg packet = Fine (memory, n, ps_signature sg)
    /\ length memory = length packet /\ (n <= length memory)%nat
    /\ parse_packet (firstn n memory) = Some (without_signature q)
    /\ forall i, (i < N.to_nat (ps_start sg))%nat -> i <> N.to_nat (ps_flags_offset sg + 1) ->
         nth i memory 0 = nth i packet 0.
Proof. exact signature_in_place. Qed.
Print Assumptions c70_signature_inside.

(** A packet nobody here wrote (short sender id, a message and a list of messages, long form of the
    signature's length). *)
Example c70_signature_example :
  let packet := put_u32 id_packet_contents ++ put_bytes [1] ++ put_u32 0x84e ++ repeat 7 32
    ++ put_message MNop ++ put_vector put_message [MCustom [5; 6]; MNop] ++ put_u64 9
    ++ [254; 64; 0; 0] ++ repeat 3 64 ++ put_bytes [2] in
  bytes_ok packet = true /\ N.of_nat (length packet) < 2 ^ 16
  /\ exists q sg, parse_packet packet = Some q /\ ip_signature q = Some sg
     /\ ip_messages q = [MNop; MCustom [5; 6]; MNop] /\ ps_signature sg = repeat 3 64.
Proof.
  split; [vm_compute; reflexivity|]. split; [vm_compute; reflexivity|].
  eexists _, _. split; [vm_compute; reflexivity|]. split; [reflexivity|]. split; reflexivity.
Qed.

(** Datagrams of all kinds: for us with and without a version, altered, on a channel, for nobody,
    too short. *)
Example c70_example :
  let id := repeat 7 32 in
  let keys i := if bytes_eqb i (repeat 7 32) then Some [42] else None in
  let channels i := if bytes_eqb i (repeat 8 32) then Some (repeat 9 32) else None in
  let h v := build_handshake toy [6] id (pub_of toy [42]) [1; 2; 3] v in
  let c v := encrypt_with toy (repeat 8 32) (repeat 9 32) [4; 5; 6; 7; 8; 9] v in
  datagram_seen (open_datagram toy keys channels (h (Some 0))) = Some (ByHandshake id (Some 0) [1; 2; 3])
  /\ datagram_seen (open_datagram toy keys channels (h None)) = Some (ByHandshake id None [1; 2; 3])
  /\ datagram_seen (open_datagram toy keys channels (c (Some 0) ++ repeat 0 60)) = Some Unreadable
  /\ datagram_seen (open_datagram toy keys channels (encrypt_with toy (repeat 8 32) (repeat 9 32) (repeat 5 40) (Some 3)))
     = Some (ByChannel (repeat 8 32) (Some 3) (repeat 5 40))
  /\ datagram_seen (open_datagram toy keys channels (repeat 1 96)) = Some ByNobody
  /\ datagram_seen (open_datagram toy keys channels (repeat 7 95)) = Some Unreadable.
Proof. vm_compute. repeat split. Qed.
