(** C94: a broadcast sent in several packets spreads through the whole overlay. *)
From stdpp Require Import gmap.
From Coq Require Import NArith.
From Verif.Base Require Import Bytes.
From Verif.Model Require Import Crypto Tl Scheme ProtoAdnl ProtoOverlay Compression Fec OverlayPeers Broadcast OverlayNode.
From Verif.Spec Require Import Codec CryptoSpec CompressionSpec FecSpec OverlaySpec Sample DhtSample BroadcastSpec OverlayNodeSpec
  GossipSpec GossipSample GossipFecSpec GossipFecSample.
From Verif.Proof Require CompressionFacts FecFacts GossipFecFacts GossipFecSampleFacts.
Open Scope N_scope.

(** C94: a packet of the broadcast that reaches any node but the origin reaches every node that is connected
    with it by a way that does not lead through the origin, in whatever order and number packets arrive. *)
Theorem c94_symbols : forall P z checks F react overlay keys packed secret data origin neighbours,
  prims_ok P -> fec_ok F -> hash_ok overlay -> forall evs a n esi,
  parts_punctual P z checks F react overlay packed secret data keys evs ->
  parts_undisturbed P z checks F react overlay packed secret data keys evs origin ->
  parts_flood P z checks F react overlay packed secret data keys evs neighbours ->
  proper_sends z overlay evs ->
  no_part_lost P z checks F react overlay packed secret data keys evs ->
  a <> origin -> gets_part P z checks F react overlay packed secret data keys evs a esi ->
  path (beyond origin neighbours) a n ->
  n = origin \/ gets_part P z checks F react overlay packed secret data keys evs n esi.
Proof. exact GossipFecFacts.symbols_spread. Qed.
Print Assumptions c94_symbols.

(** C94: so if as many packets as the code needs got from the origin to some nodes, to different ones perhaps,
    every node connected with them delivers exactly what was sent, with the right sender. *)
Theorem c94_delivers : forall P z checks F react overlay keys packed secret data origin neighbours,
  prims_ok P -> fec_ok F -> zstd_ok z -> hash_ok overlay -> divisible P z packed data -> forall evs n,
  parts_punctual P z checks F react overlay packed secret data keys evs ->
  parts_undisturbed P z checks F react overlay packed secret data keys evs origin ->
  parts_flood P z checks F react overlay packed secret data keys evs neighbours ->
  proper_sends z overlay evs ->
  no_part_lost P z checks F react overlay packed secret data keys evs ->
  n <> origin -> within_timeout P z checks F react overlay packed secret data keys evs n ->
  worked_off P z checks F react overlay data keys evs n ->
  (forall i, i < fe_count F (parts_of z packed data) ->
   exists a, a <> origin /\ gets_part P z checks F react overlay packed secret data keys evs a i
   /\ path (beyond origin neighbours) a n) ->
  exists d, In d (delivered_by overlay (gossip_run P z checks F react overlay (gossip_start keys) evs) n)
  /\ dl_id d = parts_id P data /\ dl_data d = data /\ dl_from d = node_id P (pub_of P secret).
Proof. exact GossipFecFacts.data_delivered. Qed.
Print Assumptions c94_delivers.

(** Four nodes in a line meet the conditions; the packets change their order, one arrives twice, and the last
    node delivers the 770 bytes. *)
Example c94_example :
  prims_ok brief /\ fec_ok toy_fec /\ zstd_ok toy_zstd /\ hash_ok t_overlay /\ divisible brief toy_zstd false gf_data
  /\ parts_punctual brief toy_zstd true toy_fec g_react t_overlay false (secret_of 1) gf_data g_keys gf_line
  /\ parts_undisturbed brief toy_zstd true toy_fec g_react t_overlay false (secret_of 1) gf_data g_keys gf_line (t_id 1)
  /\ parts_flood brief toy_zstd true toy_fec g_react t_overlay false (secret_of 1) gf_data g_keys gf_line g_neighbours
  /\ proper_sends toy_zstd t_overlay gf_line
  /\ no_part_lost brief toy_zstd true toy_fec g_react t_overlay false (secret_of 1) gf_data g_keys gf_line
  /\ t_id 4 <> t_id 1
  /\ within_timeout brief toy_zstd true toy_fec g_react t_overlay false (secret_of 1) gf_data g_keys gf_line (t_id 4)
  /\ worked_off brief toy_zstd true toy_fec g_react t_overlay gf_data g_keys gf_line (t_id 4)
  /\ (forall i, i < fe_count toy_fec (parts_of toy_zstd false gf_data) ->
      exists a, a <> t_id 1 /\ gets_part brief toy_zstd true toy_fec g_react t_overlay false (secret_of 1) gf_data g_keys gf_line a i
      /\ path (beyond (t_id 1) g_neighbours) a (t_id 4)).
Proof.
  split; [exact brief_ok|]. split; [exact FecFacts.toy_fec_ok|]. split; [exact CompressionFacts.toy_zstd_ok|]. split; [reflexivity|].
  split; [exact GossipFecSampleFacts.divisible_is|]. exact GossipFecSampleFacts.gf_floods.
Qed.
