(** The forward error correction code behind RLDP transfers and FEC broadcasts:
    /repo/src/rldp/encoder.rs and /repo/src/rldp/decoder.rs on top of the external crate
    everscale-raptorq. *)
From Coq Require Import List NArith Bool.
From Verif.Base Require Import Bytes.
From Verif.Model Require Import ProtoRldp.
Import ListNotations.
Open Scope N_scope.

(** What is used of the external RaptorQ code (laws in Spec/FecSpec.v): the number of source
    symbols of a byte string, its symbol with a given encoding symbol id (source symbols first,
    then repair symbols), and the decoder: what feeding it the given packets one after another
    returns at the last of them.  One source block is assumed, as the decoder does
    ([PayloadId::new(0, seqno)], decoder.rs:24). *)
Record fec := mk_fec {
  fe_count : bytes -> N;
  fe_symbol : bytes -> N -> bytes;
  fe_decode : fec_type -> list (N * bytes) -> option bytes
}.

(** [MAX_TRANSMISSION_UNIT] (encoder.rs:65). *)
Definition symbol_size : N := 768.

(** Announced parameters of an encoder (encoder.rs:24-28); casts to [u32] truncate. *)
Definition fec_params (F : fec) (data : bytes) : fec_type :=
  mk_fec_type (N.of_nat (length data) mod u32_max) symbol_size (fe_count F data mod u32_max).

(** [RaptorQEncoder] (encoder.rs:6-11): the data and the number of source symbols already
    popped from [source_packets]. *)
Record encoder := mk_encoder { en_data : bytes; en_sent : N }.

(** [with_data] (encoder.rs:14-32): [source_packets] is reversed, so that popping yields the
    source symbols in order. *)
Definition encoder_new (data : bytes) : encoder := mk_encoder data 0.

(** [encode] (encoder.rs:34-51): the next source symbol, or the repair symbol number [seqno],
    whose encoding symbol id is [seqno] plus the number of source symbols
    ([SourceBlockEncoder::repair_packets] of the raptorq crate).  Result: symbol id, symbol,
    encoder. *)
Definition encode (F : fec) (e : encoder) (seqno : N) : N * bytes * encoder :=
  if en_sent e <? fe_count F (en_data e)
  then (en_sent e, fe_symbol F (en_data e) (en_sent e), mk_encoder (en_data e) (en_sent e + 1))
  else let esi := fe_count F (en_data e) + seqno in
       (esi, fe_symbol F (en_data e) esi, e).

(** [RaptorQDecoder] (decoder.rs:5-9): parameters, the packets fed so far (oldest first) and the
    last sequence number. *)
Record decoder := mk_decoder { de_params : fec_type; de_packets : list (N * bytes); de_seqno : N }.

(** [with_params] (decoder.rs:12-21). *)
Definition decoder_new (params : fec_type) : decoder := mk_decoder params [] 0.

(** [decode] (decoder.rs:23-27). *)
Definition decode (F : fec) (d : decoder) (seqno : N) (data : bytes) : option bytes * decoder :=
  let packets := de_packets d ++ [(seqno, data)] in
  (fe_decode F (de_params d) packets, mk_decoder (de_params d) packets seqno).
