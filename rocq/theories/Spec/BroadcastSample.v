(** Small histories of broadcasts used to show that the hypotheses of theorems are met. *)
From stdpp Require Import gmap.
From Coq Require Import NArith.
From Verif.Base Require Import Bytes.
From Verif.Model Require Import Crypto Tl Scheme ProtoAdnl ProtoRldp ProtoOverlay PeersSet Compression Fec Broadcast.
From Verif.Spec Require Import CryptoSpec CompressionSpec FecSpec Sample DhtSample BroadcastSpec.
Open Scope N_scope.

(** A member of the overlay with neighbours 2, 4 and 5; the timeout is [timeout] seconds and [log]
    finished broadcasts are remembered. *)
Definition t_bc (timeout log : N) : bc_setup :=
  mk_bc_setup brief toy_zstd toy_fec true (mk_bc_options timeout log 5 2 2 false) t_overlay.
Definition t_neighbours : peers_set := ps_extend (peers_set_new 5) [t_id 2; t_id 4; t_id 5].
Definition t_benv : bc_env := mk_bc_env t_neighbours [2; 0; 1]%nat.

(** Node 7 broadcasts [1; 2; 3] at second [date]; it arrives through node 2. *)
Definition t_ordinary (date : N) : ov_broadcast :=
  own_broadcast brief toy_zstd (bs_options (t_bc 10 0)) (secret_of 7) [1; 2; 3] date.
Definition t_ordinary_id (date : N) : bytes := sha256 brief (broadcast_claim brief 1 [] [1; 2; 3] date).
Definition t_get (date : N) : bc_event := EvBroadcast t_benv (t_id 2) [9; 9] (t_ordinary date).

(** Node 7 broadcasts 770 bytes in two symbols at second 100. *)
Definition t_long : bytes := repeat 5 768 ++ [6; 7].
Definition t_long_id : bytes := sha256 brief t_long.
Definition t_part (esi : N) : ov_broadcast_fec := own_fec_packet brief toy_fec (secret_of 7) t_long_id t_long 100 esi.
Definition t_get_part (esi : N) : bc_event := EvFec t_benv (t_id 2) [8; esi] (t_part esi).
(** A packet in the name of node 7 with a bad signature. *)
Definition t_bad_part : ov_broadcast_fec :=
  mk_ov_broadcast_fec (PkEd25519 (t_key 7)) EmptyCert t_long_id 770 1 [1] 9 (fec_params toy_fec t_long) 100 (repeat 0 64).
Definition t_get_bad : bc_event := EvFec t_benv (t_id 4) [7] t_bad_part.
(** A packet of node 9 with the hash of the broadcast, and one with a signature that is too short. *)
Definition t_foreign_part : ov_broadcast_fec := own_fec_packet brief toy_fec (secret_of 9) t_long_id t_long 100 0.
Definition t_get_foreign : bc_event := EvFec t_benv (t_id 4) [9] t_foreign_part.
Definition t_short_part : ov_broadcast_fec :=
  mk_ov_broadcast_fec (PkEd25519 (t_key 7)) EmptyCert t_long_id 770 1 [1] 9 (fec_params toy_fec t_long) 100 (repeat 0 63).
Definition t_get_short : bc_event := EvFec t_benv (t_id 4) [6] t_short_part.
