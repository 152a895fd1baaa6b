(** What is assumed of zstd, and a lawful stand-in. *)
From Coq Require Import List NArith Arith Bool.
From Verif.Base Require Import Bytes.
From Verif.Model Require Import Compression.
Import ListNotations.
Open Scope N_scope.

(** Decoding two consecutive frames of less than 4 GiB gives the two contents one after the other
    ([zstd::stream::decode_all] decodes all concatenated frames). *)
Record zstd_ok (z : zstd) : Prop := {
  zstd_frames : forall a b, bytes_ok a = true -> bytes_ok b = true ->
    N.of_nat (length a) < u32_max -> N.of_nat (length b) < u32_max ->
    z_decode z (z_encode z a ++ z_encode z b) = Some (a ++ b)
}.

(** What a sender puts on the wire ([force_compression] on or off) for a payload. *)
Definition sent_payload (z : zstd) (force : bool) (p : bytes) : bytes :=
  if force then compress z p else p.

(** A stand-in: frames with an 8-byte length, and a run-length form for 64 or more zero bytes so that
    some data gets shorter. *)
Definition toy_frame (tag : N) (n : nat) (body : bytes) : bytes := tag :: le_bytes 8 (N.of_nat n) ++ body.
Definition all_zero (a : bytes) : bool := forallb (N.eqb 0) a.
Definition toy_encode (a : bytes) : bytes :=
  if all_zero a && (64 <=? length a)%nat then toy_frame 1 (length a) [] else toy_frame 0 (length a) a.
Fixpoint toy_frames (fuel : nat) (l : bytes) : option bytes :=
  match fuel, l with
  | _, [] => Some []
  | O, _ => None
  | S k, tag :: r =>
      let n := N.to_nat (of_le (firstn 8 r)) in
      if (length r <? 8)%nat then None
      else if tag =? 1 then option_map (app (repeat 0 n)) (toy_frames k (skipn 8 r))
      else if (length r <? 8 + n)%nat then None
      else option_map (app (firstn n (skipn 8 r))) (toy_frames k (skipn (8 + n) r))
  end.
Definition toy_zstd : zstd := mk_zstd toy_encode (fun l => toy_frames (S (length l)) l).
