(** What is assumed of the RaptorQ code, and a lawful stand-in. *)
From Coq Require Import List NArith Arith Bool.
From Verif.Base Require Import Bytes.
From Verif.Model Require Import ProtoRldp Fec.
Import ListNotations.
Open Scope N_scope.

(** Every packet is a symbol of [d], under its own number. *)
Definition symbols_of (F : fec) (d : bytes) (packets : list (N * bytes)) : Prop :=
  Forall (fun p => snd p = fe_symbol F d (fst p)) packets.

(** The code is correct on data shorter than 4 GiB: symbols have the announced size, a decoder fed
    symbols of [d] returns nothing or [d], and it returns [d] as soon as it has all source symbols. *)
Record fec_ok (F : fec) : Prop := {
  fec_count : forall d, fe_count F d = (N.of_nat (length d) + symbol_size - 1) / symbol_size;
  fec_symbol_size : forall d i, length (fe_symbol F d i) = N.to_nat symbol_size;
  fec_sound : forall d packets,
    N.of_nat (length d) < u32_max -> symbols_of F d packets ->
    fe_decode F (fec_params F d) packets = None \/ fe_decode F (fec_params F d) packets = Some d;
  fec_complete : forall d packets,
    N.of_nat (length d) < u32_max -> symbols_of F d packets ->
    packets <> [] -> (forall i, i < fe_count F d -> exists s, In (i, s) packets) ->
    fe_decode F (fec_params F d) packets = Some d
}.

(** A stand-in: source symbols are the pieces of the data (the last one zero-padded), repair symbols
    repeat them, decoding waits for all source symbols. *)
Definition toy_count (d : bytes) : N := (N.of_nat (length d) + symbol_size - 1) / symbol_size.
Definition piece (d : bytes) (i : nat) : bytes :=
  let s := firstn 768 (skipn (768 * i) d) in s ++ repeat 0 (768 - length s).
Definition toy_symbol (d : bytes) (i : N) : bytes := piece d (N.to_nat i).
Definition find_packet (i : N) (packets : list (N * bytes)) : option bytes :=
  option_map snd (find (fun p => fst p =? i) packets).
Fixpoint gather (packets : list (N * bytes)) (from count : nat) : option bytes :=
  match count with
  | O => Some []
  | S k =>
      match find_packet (N.of_nat from) packets, gather packets (S from) k with
      | Some s, Some r => Some (s ++ r)
      | _, _ => None
      end
  end.
Definition toy_decode (t : fec_type) (packets : list (N * bytes)) : option bytes :=
  option_map (firstn (N.to_nat (ft_total_len t))) (gather packets 0 (N.to_nat (ft_packet_count t))).
Definition toy_fec : fec := mk_fec toy_count toy_symbol toy_decode.
