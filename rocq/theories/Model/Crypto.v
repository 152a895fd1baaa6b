(** External cryptographic primitives, passed to the model as parameters.  Nothing is assumed
    here; the laws used by theorems are in Spec/CryptoSpec.v. *)
From Coq Require Import List NArith Bool.
From Verif.Base Require Import Bytes.
Import ListNotations.

Record prims := mk_prims
  { sha256 : bytes -> bytes;                       (* sha2::Sha256::digest *)
    aes_ctr : bytes -> bytes -> nat -> bytes;      (* aes/ctr: first n key stream bytes of (key, counter block) *)
    pub_of : bytes -> bytes;                       (* ed25519::PublicKey::from(&secret) *)
    valid_pub : bytes -> bool;                     (* ed25519::PublicKey::from_bytes(..).is_some() *)
    dh : bytes -> bytes -> bytes;                  (* secret.compute_shared_secret(&public) *)
    sign : bytes -> bytes -> bytes;                (* secret.sign_raw(message, ..) *)
    verify : bytes -> bytes -> bytes -> bool }.    (* public.verify(message, signature) *)
