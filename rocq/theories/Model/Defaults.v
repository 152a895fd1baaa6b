(** The default options (the fields the model has). *)
From stdpp Require Import gmap.
From Coq Require Import NArith.
From Verif.Base Require Import Bytes.
From Verif.Model Require Import Peer AdnlNode DhtStorage DhtNode Broadcast RldpNode.
Open Scope N_scope.

(** [adnl::NodeOptions] (src/adnl/node/mod.rs:95-111); [checks]: whether the build checks overflows. *)
Definition default_adnl (checks : bool) : options := mk_options 60 30 1000 false true false None checks.

(** [dht::NodeOptions] (src/dht/node.rs:76-89). *)
Definition default_dht : dht_options := mk_dht_options 3600 5 5 20 (mk_storage_options 127 15).

(** [OverlayOptions] (src/overlay/overlay.rs:88-105); the length is a separate option here. *)
Definition default_overlay : bc_options := mk_bc_options 60 1000 5 3 3 false.
Definition default_ordinary_len : N := 768.
Definition default_neighbours : N := 200.

(** [rldp::NodeOptions] (src/rldp/node.rs:55-67). *)
Definition default_rldp : rldp_options := mk_rldp_options false (10 * 1024 * 1024) 10000.
