(** Vocabulary for the packet encryption properties (C03-C05). *)
From Coq Require Import List NArith.
From Verif.Base Require Import Bytes.
From Verif.Model Require Import Crypto.
Import ListNotations.
Open Scope N_scope.

(** Packets do not say whether they carry a version.  A packet sent without one is misread only
    if, at the place where a versioned packet has its checksum, there happens to be the hash of
    some versioned text: a 256-bit coincidence, not excluded by any law of a hash function.
    [n] is the length of the part before the version (32 for channels, 64 for handshakes). *)
Definition accidentally_versioned (P : prims) (n : nat) (packet : bytes) : Prop :=
  exists v text, v < 2 ^ 16 /\ length packet = (n + 36 + length text)%nat
    /\ sha256 P (be_bytes 2 v ++ text) = slice (n + 4) (n + 36) packet.

(** What may be sent: a 16-bit version goes with a non-empty payload, and an unversioned packet
    must not be accidentally versioned. *)
Definition sendable (P : prims) (n : nat) (version : option N) (data packet : bytes) : Prop :=
  match version with
  | Some v => v < 2 ^ 16 /\ data <> []
  | None => ~ accidentally_versioned P n packet
  end.

(** C78: how a channel between two peers is keyed.  The priority secret has the two bytes of every
    pair exchanged; a secret is known to the network by the hash of the TL form of an AES key
    (constructor 0x2dbcadd4). *)
Definition pairs_exchanged (s t : bytes) : Prop :=
  length t = length s /\ forall i, (2 * i + 1 < length s)%nat ->
    nth_error t (2 * i) = nth_error s (2 * i + 1) /\ nth_error t (2 * i + 1) = nth_error s (2 * i).
Definition known_as (P : prims) (secret : bytes) : bytes := sha256 P ([0xd4; 0xad; 0xbc; 0x2d] ++ secret).
(** Of two ids of the same length, which one is smaller. *)
Definition smaller (a b : bytes) : Prop :=
  exists same x y ra rb, a = same ++ x :: ra /\ b = same ++ y :: rb /\ x < y.
