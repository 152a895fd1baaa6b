(** Two nodes with the same overlay, used to show that the hypotheses of theorems are met. *)
From stdpp Require Import gmap.
From Coq Require Import NArith.
From Verif.Base Require Import Bytes Res.
From Verif.Model Require Import Crypto Tl Scheme ProtoAdnl Peer AdnlNode Compression OverlayPeers Broadcast OverlayNode OverlayExchange Layers.
From Verif.Model Require Subscribers.
From Verif.Spec Require Import CryptoSpec CompressionSpec PairSpec GossipSpec LayersSample.
Open Scope N_scope.

(** They have a public overlay since second 1000 and 1005. *)
Definition v_overlay : bytes := sample_bytes 5.
Definition v_options : bc_options := mk_bc_options 10 5 5 3 5 false.
Definition v_alice : group := snd (add_public_overlay (group_new (sample_bytes 1)) v_overlay 2 v_options 1000000).
Definition v_bob : group := snd (add_public_overlay (group_new (sample_bytes 2)) v_overlay 2 v_options 1005000).
Definition v_data : bytes := [1; 2; 3].
Definition v_message : bytes := the_message light toy_zstd v_overlay false (sample_bytes 1) v_data 1000.
Definition v_turn : turn := sample_turn Alice 1000 (MCustom v_message) false.

(** Bob's RLDP and an application are asked before the overlays. *)
Definition v_app : Subscribers.message_subscriber layer_error := fun c d => Ok (c =? 42).
Definition v_before : list (Subscribers.message_subscriber layer_error) := [rldp_layer (fun _ => true); v_app].
