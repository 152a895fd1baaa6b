(** Byte strings and machine integers as used by the model.

    A byte is an [N] below 256; a byte string is a [list N].  Nothing here models a
    particular source file: these are the primitive operations of Rust's standard library
    (slices, [to_le_bytes], [to_be_bytes], [from_le_bytes], ...). *)
From Coq Require Import List NArith Lia Bool.
Import ListNotations.
Open Scope N_scope.

Definition bytes := list N.

(** All elements are below 256. *)
Definition is_byte (b : N) : bool := b <? 256.
Definition bytes_ok (l : bytes) : bool := forallb is_byte l.

(** [n] little-endian bytes of [v] ([u32::to_le_bytes], ...): truncates modulo 256^n. *)
Fixpoint le_bytes (n : nat) (v : N) : bytes :=
  match n with
  | O => []
  | S k => (v mod 256) :: le_bytes k (v / 256)
  end.

(** Value of a little-endian byte string ([from_le_bytes]). *)
Fixpoint of_le (l : bytes) : N :=
  match l with
  | [] => 0
  | b :: r => b + 256 * of_le r
  end.

(** Big-endian variants. *)
Definition be_bytes (n : nat) (v : N) : bytes := rev (le_bytes n v).
Definition of_be (l : bytes) : N := of_le (rev l).

(** Byte-wise equality of slices. *)
Fixpoint bytes_eqb (a b : bytes) : bool :=
  match a, b with
  | [], [] => true
  | x :: a', y :: b' => (x =? y) && bytes_eqb a' b'
  | _, _ => false
  end.

(** Lexicographic comparison of slices ([Ord] of [[u8; 32]]). *)
Fixpoint bytes_cmp (a b : bytes) : comparison :=
  match a, b with
  | [], [] => Eq
  | [], _ => Lt
  | _, [] => Gt
  | x :: a', y :: b' => match x ?= y with Eq => bytes_cmp a' b' | c => c end
  end.

(** Sub-slice [l[from..to]]; callers guard the bounds as the Rust code does. *)
Definition slice (from to : nat) (l : bytes) : bytes := firstn (to - from) (skipn from l).

(** Byte-wise exclusive or; the result has the length of the first argument. *)
Fixpoint xor_bytes (a k : bytes) : bytes :=
  match a, k with
  | [], _ => []
  | x :: a', [] => x :: xor_bytes a' []
  | x :: a', y :: k' => N.lxor x y :: xor_bytes a' k'
  end.

(** Overwrite element [i] of a list (no effect out of bounds). *)
Fixpoint set_nth {A} (i : nat) (v : A) (l : list A) : list A :=
  match l, i with
  | [], _ => []
  | _ :: r, O => v :: r
  | x :: r, S j => x :: set_nth j v r
  end.

(** Bounds of machine integers. *)
Definition u8_max  : N := 2 ^ 8.
Definition u16_max : N := 2 ^ 16.
Definition u32_max : N := 2 ^ 32.
Definition u64_max : N := 2 ^ 64.
