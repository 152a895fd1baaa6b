(** TL serialization primitives.

    Models the part of the external crate tl-proto 0.4 that the [derive]d and hand-written
    codecs of /repo/src/proto rely on (the crate is not in /repo; this is its documented
    format, see DESIGN.md "Trusted base"): little-endian integers, raw 32-byte hashes,
    byte strings with a 1- or 4-byte length prefix padded to 4 bytes, vectors with a 32-bit
    element count, 32-bit constructor ids in front of boxed values.
    [read_from(packet, &mut offset)] becomes a function from the remaining bytes to the value
    and the new remaining bytes; any [TlError] is [None]. *)
From Coq Require Import List NArith Bool.
From Verif.Base Require Import Bytes.
Import ListNotations.
Open Scope N_scope.

Definition parser (A : Type) := bytes -> option (A * bytes).

Definition bind {A B} (p : parser A) (f : A -> parser B) : parser B :=
  fun l => match p l with Some (a, r) => f a r | None => None end.
Definition ret {A} (a : A) : parser A := fun l => Some (a, l).
Definition fail {A} : parser A := fun _ => None.
Notation "'let*' x := p 'in' q" := (bind p (fun x => q))
  (at level 200, x name, p at level 100, q at level 200).

(** [n] raw bytes. *)
Definition take (n : nat) : parser bytes :=
  fun l => if Nat.leb n (length l) then Some (firstn n l, skipn n l) else None.

(** u32 / u64, little endian. *)
Definition put_u32 (v : N) : bytes := le_bytes 4 v.
Definition put_u64 (v : N) : bytes := le_bytes 8 v.
Definition get_u32 : parser N := let* b := take 4 in ret (of_le b).
Definition get_u64 : parser N := let* b := take 8 in ret (of_le b).

(** [&[u8; 32]] ([HashRef], /repo/src/proto/mod.rs:11): raw. *)
Definition put_hash (h : bytes) : bytes := h.
Definition get_hash : parser bytes := take 32.

(** Byte strings: length prefix of 1 byte (len < 254) or 0xfe followed by 3 bytes, data,
    zero padding up to a multiple of 4. *)
Definition pad_len (n : N) : N := (4 - n mod 4) mod 4.
Definition put_bytes (d : bytes) : bytes :=
  let n := N.of_nat (length d) in
  if n <? 254
  then n :: d ++ repeat 0 (N.to_nat (pad_len (1 + n)))
  else 254 :: le_bytes 3 n ++ d ++ repeat 0 (N.to_nat (pad_len n)).

Definition get_body (prefix_len n : N) : parser bytes :=
  fun r =>
    let total := n + pad_len (prefix_len + n) in
    if N.of_nat (length r) <? total then None
    else Some (firstn (N.to_nat n) r, skipn (N.to_nat total) r).

Definition get_bytes : parser bytes :=
  fun l =>
    match l with
    | [] => None
    | b :: r =>
      if b =? 254
      then (let* nb := take 3 in get_body 4 (of_le nb)) r
      else get_body 1 b r
    end.

(** Optional field without presence marker ([Option<T>] in writers driven by flags). *)
Definition put_opt {A} (put : A -> bytes) (o : option A) : bytes :=
  match o with Some a => put a | None => [] end.

(** [n] consecutive values.  The fuel argument is the number of remaining bytes plus one;
    every element type used consumes at least one byte, so running out of fuel means running
    out of input. *)
Fixpoint get_many {A} (fuel : nat) (p : parser A) (n : N) : parser (list A) :=
  fun l =>
    if n =? 0 then Some ([], l)
    else match fuel with
         | O => None
         | S k =>
           match p l with
           | None => None
           | Some (a, r) =>
             match get_many k p (n - 1) r with
             | None => None
             | Some (rest, r') => Some (a :: rest, r')
             end
           end
         end.

(** [Vec<T>] / [SmallVec<[T; n]>]: 32-bit count, then the elements. *)
Definition put_vector {A} (put : A -> bytes) (l : list A) : bytes :=
  put_u32 (N.of_nat (length l)) ++ flat_map put l.
Definition get_vector {A} (p : parser A) : parser (list A) :=
  let* n := get_u32 in fun l => get_many (S (length l)) p n l.

(** [tl_proto::deserialize]: reads a value from the start of the slice; trailing bytes are
    not inspected. *)
Definition deserialize {A} (p : parser A) (l : bytes) : option A :=
  match p l with Some (a, _) => Some a | None => None end.
