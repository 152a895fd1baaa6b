(** Sample overlays for [GossipSpec]. *)
From stdpp Require Import gmap.
From Coq Require Import NArith.
From Verif.Base Require Import Bytes.
From Verif.Model Require Import Crypto Compression Fec OverlayPeers Broadcast OverlayNode.
From Verif.Spec Require Import CryptoSpec CompressionSpec FecSpec Sample DhtSample BroadcastSpec GossipSpec.
Open Scope N_scope.

Definition g_keys (n : bytes) : bytes := secret_of 1.
Definition g_react : consumers := fun _ _ _ => None.
Definition g_options (secondary : N) : bc_options := mk_bc_options 10 0 5 secondary 5 false.
Definition g_run (evs : list gossip_event) : nodes :=
  gossip_run brief toy_zstd true toy_fec g_react t_overlay (gossip_start g_keys) evs.
Definition g_join (secondary x : N) (peers : list N) : gossip_event :=
  Local (t_id x) (GoPrivate t_overlay (secret_of x) (map t_id peers) 5 (g_options secondary) 100000 (seq 0 (length peers))).
Definition g_message : bytes := the_message brief toy_zstd t_overlay false (secret_of 1) [1; 2; 3] 100.
Definition g_id : bytes := the_id brief [1; 2; 3] 100.

(** Nodes 1, 2, 3, 4 in a line; node 1 broadcasts, and a copy arrives twice. *)
Definition g_line : list gossip_event :=
  [g_join 5 1 [2]; g_join 5 2 [1; 3]; g_join 5 3 [2; 4]; g_join 5 4 [3];
   Local (t_id 1) (GoBroadcasts t_overlay (EvSend (secret_of 1) [1; 2; 3] [t_id 2]));
   Arrives (t_id 1) 0 (t_id 2) [1; 0]%nat; Arrives (t_id 2) 0 (t_id 3) [0; 1]%nat; Arrives (t_id 2) 0 (t_id 3) [0; 1]%nat;
   Arrives (t_id 3) 0 (t_id 4) [0]%nat].
Definition g_neighbours (n : bytes) : list bytes :=
  if bytes_eqb n (t_id 2) then [t_id 1; t_id 3] else if bytes_eqb n (t_id 3) then [t_id 2; t_id 4]
  else if bytes_eqb n (t_id 4) then [t_id 3] else [].

(** Nodes 1, 3 and 4 are neighbours of node 2, which passes on to one node. *)
Definition g_star : list gossip_event :=
  [g_join 1 1 [2]; g_join 1 2 [1; 3; 4]; g_join 1 3 [2]; g_join 1 4 [2];
   Local (t_id 1) (GoBroadcasts t_overlay (EvSend (secret_of 1) [1; 2; 3] [t_id 2]));
   Arrives (t_id 1) 0 (t_id 2) [0; 2]%nat; Arrives (t_id 2) 0 (t_id 4) [0]%nat].
Definition g_around (n : bytes) : list bytes :=
  if bytes_eqb n (t_id 2) then [t_id 1; t_id 3; t_id 4] else if bytes_eqb n (t_id 1) then [] else
  if bytes_eqb n (t_id 3) || bytes_eqb n (t_id 4) then [t_id 2] else [].
