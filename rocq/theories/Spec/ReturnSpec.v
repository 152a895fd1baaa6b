(** The results of the queries of one RLDP node. *)
From Coq Require Import List NArith Bool.
From stdpp Require Import gmap.
From Verif.Base Require Import Bytes.
From Verif.Model Require Import Compression Fec Subscribers RldpTransfer RldpNode.
Import ListNotations.

(** The node after some events. *)
Definition rldp_after {E} (F : fec) (slice : N) (checked : bool) (z : zstd) (o : rldp_options)
  (n : rldp_node) (evs : list (rldp_event E)) : rldp_node :=
  fold_left (fun n ev => fst (rldp_step F slice checked z o n ev)) evs n.

(** The result of query number [k], once there is one. *)
Definition result_of (z : zstd) (n : rldp_node) (k : nat) : option rldp_result :=
  match nth_error (rn_queries n) k with Some q => query_returns z q | None => None end.

(** An event of query number [k] alone: its sending loop goes on or times out, or the query itself goes on. *)
Definition of_query {E} (n : rldp_node) (k : nat) (ev : rldp_event E) : bool :=
  match ev with
  | NSender s LoopRefused => false
  | NSender s _ => match nth_error (rn_queries n) k with Some q => Nat.eqb s (qr_sender q) | None => false end
  | NQueryTurn k' _ => Nat.eqb k' k
  | _ => false
  end.
