(** Small DHT nodes used to show that the hypotheses of theorems are met. *)
From stdpp Require Import gmap.
From Coq Require Import NArith Permutation Sorted.
From Verif.Base Require Import Bytes Res.
From Verif.Model Require Import Crypto Tl Scheme ProtoAdnl ProtoDht ProtoOverlay Peer AdnlNode DhtStorage DhtBuckets DhtNode.
From Verif.Spec Require Import CryptoSpec Sample.
Open Scope N_scope.

Definition t_key (x : N) : bytes := pub_of brief (secret_of x).
Definition t_id (x : N) : bytes := short_id brief (t_key x).
Definition t_adnl (x : N) : node := node_new (addr_of x) 100 sample_options None {[t_id x := secret_of x]}.
Definition t_opts : dht_options := mk_dht_options 3600 5 5 20 (mk_storage_options 127 15).
Definition t_dht (x : N) : dht := dht_new brief (t_adnl x) (secret_of x) t_opts.
Definition t_env (now : N) : query_env := mk_query_env now now (fun b => b) (fun l => l) (secret_of 90).

(** Node 2 announces itself, node 4 too; node 2 publishes a value. *)
Definition t_announcement (x : N) : dht_node := sign_local_node brief (t_dht x) 1000.
Definition t_value (ttl : N) : dht_value := sign_entry brief (secret_of 2) (t_id 2) [97; 98] 3 [1; 2; 3] ttl.
Definition t_value_key : bytes := storage_key brief (mk_dht_key (t_id 2) [97; 98] 3).
Definition t_ops : list dht_op :=
  [DReceive (t_env 1000) (put_dht_query (DqQuery (t_announcement 2)) ++ put_dht_query (DqStore (t_value 2000)));
   DAddPeer 1001 (secret_of 91) (t_announcement 4);
   DReceive (t_env 1500) (put_dht_query (DqStore (t_value 2500)));
   DQueryEnds (t_id 4) Failed;
   DGc 1600].
Definition t_server : dht := dht_run brief (t_dht 3) t_ops.

(** An overlay and its members 2 and 4. *)
Definition t_overlay_name : bytes := repeat 77 32.
Definition t_overlay : bytes := sha256 brief (put_public_key (PkOverlay t_overlay_name)).
Definition t_member (x version : N) : ov_node :=
  mk_ov_node (PkEd25519 (t_key x)) t_overlay version
    (sign brief (secret_of x) (put_node_to_sign (t_id x) t_overlay version)).
Definition t_list (l : list ov_node) (ttl : N) : dht_value :=
  mk_dht_value (dv_key (overlay_entry brief t_overlay_name (t_member 2 5) ttl)) (put_ov_nodes_boxed l) ttl [].

(** Insertion sort by descending affinity. *)
Fixpoint insert_sorted (x : N * bytes) (l : list (N * bytes)) : list (N * bytes) :=
  match l with
  | [] => [x]
  | y :: r => if fst y <=? fst x then x :: l else y :: insert_sorted x r
  end.
Definition insertion_sort (l : list (N * bytes)) : list (N * bytes) := fold_right insert_sorted [] l.
