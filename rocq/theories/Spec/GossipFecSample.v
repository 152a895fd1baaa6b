(** A sample for [GossipFecSpec]: node 1 broadcasts 770 bytes in two symbols to node 2; nodes 2, 3 and 4 are in
    a line. *)
From stdpp Require Import gmap.
From Coq Require Import NArith.
From Verif.Base Require Import Bytes.
From Verif.Model Require Import Crypto Scheme Compression Fec OverlayPeers Broadcast OverlayNode.
From Verif.Spec Require Import CryptoSpec CompressionSpec FecSpec Sample DhtSample BroadcastSpec GossipSpec GossipSample GossipFecSpec.
Open Scope N_scope.

Definition gf_data : bytes := repeat 5 768 ++ [6; 7].
Definition gf_part (esi : N) : bytes := part_message brief toy_zstd toy_fec t_overlay false (secret_of 1) gf_data 100 esi.
Definition gf_get (esi : N) : gossip_event := Local (t_id 2) (GoMessage (t_id 1) id_overlay_message (gf_part esi) [1; 0]%nat).
(** The packets change their order on the way; one arrives twice. *)
Definition gf_line : list gossip_event :=
  [g_join 5 2 [1; 3]; g_join 5 3 [2; 4]; g_join 5 4 [3]; gf_get 0; gf_get 1;
   Arrives (t_id 2) 1 (t_id 3) [0; 1]%nat; Arrives (t_id 2) 0 (t_id 3) [1; 0]%nat; Arrives (t_id 2) 0 (t_id 3) [1; 0]%nat;
   Arrives (t_id 3) 0 (t_id 4) [0]%nat; Arrives (t_id 3) 1 (t_id 4) [0]%nat;
   Local (t_id 4) (GoBroadcasts t_overlay (EvTask 0)); Local (t_id 4) (GoBroadcasts t_overlay (EvTask 0))].
