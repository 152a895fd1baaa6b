(** A value stored and found over the network, used to show that the hypotheses of theorems are met. *)
From stdpp Require Import gmap.
From Coq Require Import NArith.
From Verif.Base Require Import Bytes Res.
From Verif.Model Require Import Crypto Tl ProtoAdnl ProtoDht Peer AdnlNode DhtStorage DhtNode DhtTasks Queries NodeQueries.
From Verif.Spec Require Import CryptoSpec Sample DhtSample DhtNetSpec PairSpec TalkSpec TripSpec.
Open Scope N_scope.

(** Alice publishes a value at Bob's node and looks it up later, after a collection of expired values. *)
Definition r_id : bytes := short_id light (pub_of light (sample_bytes 1)).
Definition r_value : dht_value := sign_entry light (sample_bytes 1) r_id [97; 98] 3 [1; 2; 3] 3000.
Definition r_key : bytes := sha256 light (put_dht_key_boxed (mk_dht_key r_id [97; 98] 3)).
Definition r_server : dht := dht_new light (t_adnl 3) (sample_bytes 2) t_opts.
Definition r_store : bytes := put_dht_query (DqStore r_value).
Definition r_lookup : bytes := lookup_query r_key.
Definition r_reply : bytes := put_value_result (VrFound r_value).
Definition r_start : talk := talk_start light sample_alice sample_bob.
Definition r_trip (id t : N) : trip :=
  mk_trip (sample_bytes id) (sample_sending t) (sample_receiving (t + 1)) (sample_sending (t + 2)) (sample_receiving (t + 3)).
Definition r_talk : talk := after_trip light 0 sample_alice sample_bob r_start Alice (r_trip 3 1500) r_store put_dht_stored.
