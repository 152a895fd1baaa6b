(** C03-C05: channel and handshake encryption. *)
From Coq Require Import List NArith Bool.
From Verif.Base Require Import Bytes Res.
From Verif.Model Require Import Crypto Encryption Channel Handshake.
From Verif.Spec Require Import CryptoSpec ChannelSpec.
From Verif.Proof Require Import CipherFacts.
Import ListNotations.
Open Scope N_scope.

(** C03: what one end of a channel encrypts carries the id under which the other end registered
    the channel, and the other end decrypts it to the same bytes and version. *)
Theorem c03_channel_round_trip : forall P, prims_ok P ->
  forall a b ka kb da db ca cb data priority version,
  let alice := channel_new P a b ka (pub_of P kb) da ca in
  let bob := channel_new P b a kb (pub_of P ka) db cb in
  let packet := channel_encrypt P alice data priority version in
  sendable P 32 version data packet ->
  firstn 32 packet = channel_in_id bob priority
  /\ channel_decrypt P bob packet priority = Ok (version, data).
Proof. exact channel_round_trip. Qed.
Print Assumptions c03_channel_round_trip.
Example c03_example :
  let a := repeat 1 32 in let b := repeat 2 32 in let ka := [3; 3] in let kb := [5] in
  let alice := channel_new toy a b ka (pub_of toy kb) 10 CtxCreate in
  prims_ok toy
  /\ sendable toy 32 (Some 0x1234) (repeat 9 50) (channel_encrypt toy alice (repeat 9 50) true (Some 0x1234))
  /\ sendable toy 32 None (repeat 9 50) (channel_encrypt toy alice (repeat 9 50) false None).
Proof.
  split; [exact toy_ok|]. split; [split; [reflexivity|discriminate]|].
  apply toy_not_accidental. vm_compute. discriminate.
Qed.

(** Without the condition on the payload the claim is false: an empty payload sent with a version
    is never recovered. *)
Theorem c03_empty_versioned_refuted : forall P, prims_ok P ->
  forall a b ka kb da db ca cb priority v w,
  channel_decrypt P (channel_new P b a kb (pub_of P ka) db cb)
    (channel_encrypt P (channel_new P a b ka (pub_of P kb) da ca) [] priority (Some v)) priority
  <> Ok (Some w, []).
Proof. exact empty_versioned_lost. Qed.
Print Assumptions c03_empty_versioned_refuted.

(** C04: a datagram that arrives under the id of the channel and is accepted is exactly the one
    the other end produces for the returned payload and version. *)
Theorem c04_accepted_is_honest : forall P, prims_ok P ->
  forall a b ka kb da db ca cb buffer priority version data,
  let alice := channel_new P a b ka (pub_of P kb) da ca in
  let bob := channel_new P b a kb (pub_of P ka) db cb in
  bytes_ok buffer = true ->
  channel_decrypt P bob buffer priority = Ok (version, data) ->
  firstn 32 buffer = channel_in_id bob priority ->
  buffer = channel_encrypt P alice data priority version.
Proof. exact channel_faithful. Qed.
Print Assumptions c04_accepted_is_honest.
Example c04_example :
  let a := repeat 1 32 in let b := repeat 2 32 in let ka := [3; 3] in let kb := [5] in
  let alice := channel_new toy a b ka (pub_of toy kb) 10 CtxCreate in
  let bob := channel_new toy b a kb (pub_of toy ka) 11 CtxConfirm in
  let good := channel_encrypt toy alice [1; 2; 3; 4; 5; 6; 7] false (Some 0xABCD) in
  bytes_ok good = true
  /\ channel_decrypt toy bob good false = Ok (Some 0xABCD, [1; 2; 3; 4; 5; 6; 7])
  /\ firstn 32 good = channel_in_id bob false
  /\ channel_decrypt toy bob (set_nth 33 0 good) false = Err InvalidChecksum
  /\ channel_decrypt toy bob (set_nth 70 0 good) false = Err InvalidChecksum.
Proof. vm_compute. repeat split. Qed.

(** The same for any channel state and whatever the first 32 bytes are. *)
Theorem c04_accepted_is_encryption : forall P, prims_ok P -> forall c buffer priority version data,
  bytes_ok buffer = true ->
  channel_decrypt P c buffer priority = Ok (version, data) ->
  exists id, length id = 32%nat
    /\ buffer = encrypt_with P id (sc_secret (pick priority (ch_in c))) data version.
Proof. exact decrypt_faithful. Qed.
Print Assumptions c04_accepted_is_encryption.

Theorem c04_short_rejected : forall P c buffer priority, (length buffer < 64)%nat ->
  channel_decrypt P c buffer priority = Err MessageIsTooShort.
Proof. exact decrypt_short. Qed.
Print Assumptions c04_short_rejected.

(** C05: every node that holds the key recovers the bytes and the version of a handshake packet. *)
Theorem c05_handshake_round_trip : forall P, prims_ok P -> forall keys temp id secret data version,
  let packet := build_handshake P temp id (pub_of P secret) data version in
  length id = 32%nat -> keys id = Some secret -> sendable P 64 version data packet ->
  parse_handshake P keys packet = Ok (Some (id, version, data)).
Proof. exact handshake_round_trip. Qed.
Print Assumptions c05_handshake_round_trip.
Example c05_example :
  let id := repeat 7 32 in let keys i := if bytes_eqb i (repeat 7 32) then Some [42] else None in
  keys id = Some [42]
  /\ sendable toy 64 (Some 0) [1; 2] (build_handshake toy [6] id (pub_of toy [42]) [1; 2] (Some 0))
  /\ sendable toy 64 None (repeat 9 50) (build_handshake toy [6] id (pub_of toy [42]) (repeat 9 50) None).
Proof.
  split; [reflexivity|]. split; [split; [reflexivity|discriminate]|].
  apply toy_not_accidental. vm_compute. discriminate.
Qed.

(** A node without the key leaves the packet alone; short packets are rejected. *)
Theorem c05_other_nodes_ignore : forall P keys buffer, (96 <= length buffer)%nat ->
  keys (firstn 32 buffer) = None -> parse_handshake P keys buffer = Ok None.
Proof. exact handshake_unknown_key. Qed.
Print Assumptions c05_other_nodes_ignore.

Theorem c05_short_rejected : forall P keys buffer, (length buffer < 96)%nat ->
  parse_handshake P keys buffer = Err BadPacketLength.
Proof. exact handshake_short. Qed.
Print Assumptions c05_short_rejected.

(** An accepted handshake packet is exactly the one built for the returned payload and version
    with the ephemeral key it names. *)
Theorem c05_accepted_is_honest : forall P, prims_ok P -> forall keys buffer id version data,
  bytes_ok buffer = true ->
  parse_handshake P keys buffer = Ok (Some (id, version, data)) ->
  id = firstn 32 buffer /\ exists secret, keys id = Some secret
  /\ valid_pub P (slice 32 64 buffer) = true
  /\ forall temp, pub_of P temp = slice 32 64 buffer ->
     buffer = build_handshake P temp id (pub_of P secret) data version.
Proof. exact handshake_faithful. Qed.
Print Assumptions c05_accepted_is_honest.
Example c05_accepted_example :
  let id := repeat 7 32 in let keys i := if bytes_eqb i (repeat 7 32) then Some [42] else None in
  let packet := build_handshake toy [6] id (pub_of toy [42]) [1; 2; 3] None in
  bytes_ok packet = true /\ parse_handshake toy keys packet = Ok (Some (id, None, [1; 2; 3])).
Proof. vm_compute. split; reflexivity. Qed.
