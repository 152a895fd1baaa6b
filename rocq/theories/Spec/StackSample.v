(** A sample: Alice's RLDP query to Bob, with both layers. *)
From stdpp Require Import gmap.
From Coq Require Import NArith.
From Verif.Base Require Import Bytes Res.
From Verif.Model Require Import Crypto ProtoAdnl ProtoRldp AdnlNode Fec Compression Subscribers RldpTransfer RldpQuery RldpNode.
From Verif.Spec Require Import CryptoSpec CompressionSpec FecSpec RldpSpec RldpPairSample RldpPairSpec PairSpec StackSpec.
Open Scope N_scope.

Definition k_world : rldp_world :=
  mk_rldp_world toy_fec 60 false toy_zstd t_options t_options (party_id light sample_alice) (party_id light sample_bob).
Definition k_query : rldp_event unit := NQuery (rw_bob_id k_world) t_transfer t_query_id 100 t_short.
