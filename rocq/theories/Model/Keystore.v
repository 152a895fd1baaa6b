(** The keystore: /repo/src/adnl/keystore.rs. *)
From stdpp Require Import gmap.
From Coq Require Import NArith.
From Verif.Base Require Import Bytes Res.
From Verif.Model Require Import Crypto Tl Scheme ProtoAdnl AdnlNode.
Open Scope N_scope.

(** [Keystore] (keystore.rs:12-15).  A stored [Key] (106-110) is its secret: its ids are computed
    from it (143-152). *)
Record keystore := mk_keystore { ks_keys : gmap bytes bytes; ks_tags : gmap N bytes }.
Definition keystore_new : keystore := mk_keystore ∅ ∅.

Inductive keystore_error := DuplicatedKeyTag (t : N) | DuplicatedKey (t : N) | NoKeyId (i : bytes) | NoKeyTag (t : N).

(** [compute_node_ids] of a secret key (node_id.rs:183-190) and [Key::id] (120-122). *)
Definition id_of_secret (P : prims) (secret : bytes) : bytes := short_id P (pub_of P secret).

(** [key_by_id] (23-29) and [key_by_tag] (32-38). *)
Definition key_by_id (s : keystore) (i : bytes) : res keystore_error bytes :=
  match ks_keys s !! i with Some k => Ok k | None => Err (NoKeyId i) end.
Definition key_by_tag (s : keystore) (t : N) : res keystore_error bytes :=
  match ks_tags s !! t with Some i => key_by_id s i | None => Err (NoKeyTag t) end.

(** [add_key] (49-72). *)
Definition add_key (P : prims) (s : keystore) (secret : bytes) (t : N) : res keystore_error bytes * keystore :=
  let i := id_of_secret P secret in
  match ks_tags s !! t with
  | None =>
    let tags := <[t := i]> (ks_tags s) in
    match ks_keys s !! i with
    | None => (Ok i, mk_keystore (<[i := secret]> (ks_keys s)) tags)
    | Some _ => (Err (DuplicatedKey t), mk_keystore (ks_keys s) tags)
    end
  | Some j => if bytes_eqb j i then (Ok i, s) else (Err (DuplicatedKeyTag t), s)
  end.

(** [with_tagged_keys] (94-102): stops at the first error. *)
Fixpoint with_tagged_keys (P : prims) (s : keystore) (l : list (bytes * N)) : res keystore_error keystore :=
  match l with
  | [] => Ok s
  | (k, t) :: r =>
    match add_key P s k t with
    | (Ok _, s') => with_tagged_keys P s' r
    | (Err e, _) => Err e
    end
  end.
