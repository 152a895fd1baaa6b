(** Histories of a keystore. *)
From Coq Require Import List NArith.
From Verif.Base Require Import Bytes Res.
From Verif.Model Require Import Crypto Keystore.

(** A keystore after a list of [add_key] calls, failing ones included. *)
Definition after_adds (P : prims) (l : list (bytes * N)) : keystore :=
  fold_left (fun s x => snd (add_key P s (fst x) (snd x))) l keystore_new.
