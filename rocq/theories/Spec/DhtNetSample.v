(** A small network of DHT nodes, used to show that the hypotheses of theorems are met. *)
From stdpp Require Import gmap.
From Coq Require Import NArith.
From Verif.Base Require Import Bytes Res.
From Verif.Model Require Import Crypto Tl Scheme ProtoAdnl ProtoDht ProtoOverlay Peer AdnlNode PeersSet DhtStorage DhtBuckets
  DhtNode DhtStream DhtTasks.
From Verif.Spec Require Import CryptoSpec Sample DhtSample DhtNetSpec.
Open Scope N_scope.

(** Node 2 knows node 6, node 4 knows node 2; node 6 knows nobody and has got the value that node 2
    publishes.  Node 5 is the reader; it knows the given nodes. *)
Definition w_store : bytes := put_dht_query (DqStore (t_value 3000)).
Definition w_holder : dht := dht_run brief (snd (dht_receive brief (t_env 1500) (t_dht 6) w_store)) [DGc 1600].
Definition w_knows (x : N) (l : list N) : dht :=
  dht_run brief (t_dht x) (map (fun y => DAddPeer 1001 (secret_of 91) (t_announcement y)) l).
Definition w_nodes : gmap bytes dht := <[t_id 2 := w_knows 2 [6]]> (<[t_id 4 := w_knows 4 [2]]> (<[t_id 6 := w_holder]> ∅)).
Definition w_net (l : list N) (new_peers : bool) : dht_net bytes :=
  mk_dht_net w_nodes (w_knows 5 l) (lookup_new insertion_sort (w_knows 5 l) t_value_key None new_peers).
Definition w_reply (i : nat) : net_event := NetReply i (t_env 1700) insertion_sort 1700 (secret_of 92).
Definition w_lost (i : nat) : net_event := NetLost i false insertion_sort 1700 (secret_of 92).

(** The reader knows node 6; the query to node 4 is lost, other things happen meanwhile. *)
Definition w_events : list net_event :=
  [NetNode (t_id 6) (DReceive (t_env 1650) w_store); w_lost 1; NetReader (DGc 1650); w_reply 0; w_reply 0; w_reply 0].
