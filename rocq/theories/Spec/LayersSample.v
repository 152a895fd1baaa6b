(** A node with several layers, used to show that the hypotheses of theorems are met. *)
From stdpp Require Import gmap.
From Coq Require Import NArith.
From Verif.Base Require Import Bytes Res.
From Verif.Model Require Import Crypto Tl Scheme ProtoAdnl DhtNode OverlayPeers OverlayNode OverlayExchange Queries NodeQueries Layers.
From Verif.Model Require Subscribers.
From Verif.Spec Require Import CryptoSpec Sample DhtSample PairSpec TalkSpec TripSpec DhtTripSample.
Open Scope N_scope.

(** An application of the overlay with number 7, and one that has its own queries. *)
Definition l_overlay : overlay := overlay_new (sample_bytes 1) (sample_bytes 5) [] 2 [].
Definition l_group : group := snd (add_overlay_subscriber (group_new (sample_bytes 2)) (sample_bytes 5) 7).
Definition l_body : bytes := [1; 2; 3; 4; 5].
Definition l_answer : bytes := [9; 8; 7].
Definition l_react : consumers := fun c inner q => if inner =? 67305985 then Some (Some (Some l_answer)) else Some None.
Definition l_app : Subscribers.subscriber layer_error :=
  fun c q => if c =? 42 then Subscribers.Consumed None else Subscribers.Refused q.
Definition l_before : list (Subscribers.subscriber layer_error) := [l_app; dht_layer light (t_env 1500) r_server].
Definition l_query : bytes := overlay_query_sent l_overlay l_body.
