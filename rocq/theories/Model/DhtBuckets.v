(** DHT nodes by distance: /repo/src/dht/buckets.rs. *)
From Coq Require Import List NArith Bool Arith.
From Verif.Base Require Import Bytes.
From Verif.Model Require Import ProtoDht.
Import ListNotations.
Open Scope N_scope.

(** [u8::leading_zeros] of the standard library. *)
Definition leading_zeros (d : N) : N :=
  if 128 <=? d then 0 else if 64 <=? d then 1 else if 32 <=? d then 2 else if 16 <=? d then 3
  else if 8 <=? d then 4 else if 4 <=? d then 5 else if 2 <=? d then 6 else if 1 <=? d then 7 else 8.

(** [get_affinity] (buckets.rs:101-109); keys have 32 bytes. *)
Fixpoint affinity_from (i : N) (a b : bytes) : N :=
  match a, b with
  | x :: a', y :: b' =>
    let diff := N.lxor x y in
    if diff =? 0 then affinity_from (i + 1) a' b' else (i * 8 + leading_zeros diff) mod 256
  | _, _ => 255
  end.
Definition get_affinity (a b : bytes) : N := affinity_from 0 a b.

(** [Buckets] (8-11): 256 maps from peer ids to nodes, each as a list of entries. *)
Definition bucket := list (bytes * dht_node).
Record buckets := mk_buckets { bk_local : bytes; bk_buckets : list bucket }.
Definition new_buckets (local : bytes) : buckets := mk_buckets local (repeat [] 256).

(** [insert] (27-41). *)
Fixpoint bucket_insert (b : bucket) (id : bytes) (n : dht_node) : bucket :=
  match b with
  | [] => [(id, n)]
  | (i, m) :: r =>
    if bytes_eqb i id then (i, if dn_version m <? dn_version n then n else m) :: r
    else (i, m) :: bucket_insert r id n
  end.
Definition buckets_insert (b : buckets) (id : bytes) (n : dht_node) : buckets :=
  let a := N.to_nat (get_affinity (bk_local b) id) in
  mk_buckets (bk_local b) (set_nth a (bucket_insert (nth a (bk_buckets b) []) id n) (bk_buckets b)).

(** The buckets visited by [find] (56-83): the inner loop on one byte, then the loop over bytes.
    The loop on a byte is run with fuel 9, more than its number of iterations;
    [u8] additions are written modulo 256. *)
Fixpoint visit_byte (fuel : nat) (distance diff : N) : list N :=
  match fuel with
  | O => []
  | S f =>
    if diff =? 0 then [] else
    let equal_bits := leading_zeros diff in
    let distance := (distance + equal_bits) mod 256 in
    distance ::
      (if equal_bits <? 7
       then visit_byte f (N.min 255 (distance + 1)) ((diff * 2 ^ (equal_bits + 1)) mod 256)
       else [])
  end.
Fixpoint visits (i : N) (a b : bytes) : list N :=
  match a, b with
  | x :: a', y :: b' => visit_byte 9 ((i * 8) mod 256) (N.lxor x y) ++ visits (i + 1) a' b'
  | _, _ => []
  end.

(** Taking nodes until [nodes.len() >= k] after a push (66-71): at least one is taken. *)
Definition take_k (k : N) (l : list dht_node) : list dht_node := firstn (N.to_nat (N.max 1 k)) l.

(** [find] (44-88); [order] is the iteration order of a bucket. *)
Definition find_nodes (order : bucket -> bucket) (b : buckets) (key : bytes) (k : N) : list dht_node :=
  take_k k (flat_map (fun d => map snd (order (nth (N.to_nat d) (bk_buckets b) [])))
              (visits 0 (bk_local b) key)).

(** The walk of [process_find_value] over all buckets (node.rs:652-661). *)
Definition first_nodes (order : bucket -> bucket) (b : buckets) (k : N) : list dht_node :=
  take_k k (flat_map (fun b => map snd (order b)) (bk_buckets b)).
