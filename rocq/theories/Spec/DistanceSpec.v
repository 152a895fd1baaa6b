(** Distances between DHT keys, independently of the model. *)
From Coq Require Import List NArith.
From Verif.Base Require Import Bytes.
From Verif.Model Require Import ProtoDht DhtBuckets.
Import ListNotations.
Open Scope N_scope.

(** A key is a number of 256 bits, most significant byte first; bit 0 is the first one. *)
Definition key_ok (k : bytes) : Prop := length k = 32%nat /\ bytes_ok k = true.
Definition key_bit (k : bytes) (i : N) : bool := N.testbit (of_be k) (255 - i).
Definition xor_distance (a b : bytes) : N := N.lxor (of_be a) (of_be b).

(** The first [n] bits agree and the next one does not. *)
Definition common_prefix (a b : bytes) (n : N) : Prop :=
  n < 256 /\ (forall i, i < n -> key_bit a i = key_bit b i) /\ key_bit a n <> key_bit b n.

(** The tables built by insertions of nodes, whose ids are given by [peer_id]. *)
Definition table (peer_id : dht_node -> bytes) (local : bytes) (nodes : list dht_node) : buckets :=
  fold_left (fun b n => buckets_insert b (peer_id n) n) nodes (new_buckets local).

(** Nodes in a table. *)
Definition known_nodes (b : buckets) : list dht_node := map snd (concat (bk_buckets b)).
