(** Payload compression: /repo/src/rldp/compression.rs. *)
From Coq Require Import List NArith Bool.
From Verif.Base Require Import Bytes.
Import ListNotations.
Open Scope N_scope.

(** The external zstd library: [copy_encode] of a byte string at level 3 as one frame, and
    [decode_all] ([None]: any error).  Its laws are in Spec/CompressionSpec.v. *)
Record zstd := mk_zstd { z_encode : bytes -> bytes; z_decode : bytes -> option bytes }.

(** Constants (compression.rs:50-53): [COMPRESSION_THRESHOLD], [TAG_COMPRESSED]. *)
Definition compression_threshold : N := 256.
Definition tag_compressed : N := 128.

(** [compress] (1-22): short data is left alone; otherwise the frame of the data, the frame of
    its big-endian 32-bit length and the tag.  I/O errors cannot happen when writing to a
    vector and are not modelled. *)
Definition compress (z : zstd) (data : bytes) : bytes :=
  let len := N.of_nat (length data) in
  if len <=? compression_threshold then data
  else z_encode z data ++ z_encode z (be_bytes 4 len) ++ [tag_compressed].

(** [decompress] (24-48): [None] unless the last byte is the tag, the rest decodes, and the last
    four decoded bytes are the length of what precedes them. *)
Definition decompress (z : zstd) (data : bytes) : option bytes :=
  match rev data with
  | tag :: rest =>
      if tag =? tag_compressed then
        match z_decode z (rev rest) with
        | Some result =>
            let len := N.of_nat (length result) in
            if len <? 4 then None
            else
              let src := firstn (length result - 4) result in
              let tail := skipn (length result - 4) result in
              if of_be tail =? len - 4 then Some src else None
        | None => None
        end
      else None
  | [] => None
  end.

(** What a receiver hands on (node.rs:155, transfers_cache.rs:567-573): the decompressed data
    if it decompresses, the data itself otherwise. *)
Definition received_payload (z : zstd) (data : bytes) : bytes :=
  match decompress z data with Some d => d | None => data end.
