(** C84: a broadcast spreads through the whole overlay. *)
From stdpp Require Import gmap.
From Coq Require Import NArith.
From Verif.Base Require Import Bytes.
From Verif.Model Require Import Crypto Tl Scheme ProtoAdnl ProtoOverlay Compression Fec OverlayPeers Broadcast OverlayNode.
From Verif.Spec Require Import Codec CryptoSpec CompressionSpec FecSpec OverlaySpec Sample DhtSample BroadcastSpec OverlayNodeSpec GossipSpec GossipSample.
From Verif.Proof Require CompressionFacts GossipFacts GossipSampleFacts.
Open Scope N_scope.

(** C84: however many nodes there are and whatever the members and the network do, every node that receives
    the message of a broadcast has the broadcast; so if every copy sent arrives, every node it was passed on
    to, over any number of nodes, has it. *)
Theorem c84_spreads : forall P z checks F react overlay keys packed secret data date evs,
  prims_ok P -> zstd_ok z -> hash_ok overlay -> date < 2 ^ 32 -> sendable z packed data ->
  unambiguous P z packed secret data date ->
  let m := the_message P z overlay packed secret data date in
  let id := the_id P data date in
  let at_time := at_time P z checks F react overlay keys evs in
  let has n := has P z checks F react overlay keys evs n id in
  let final := gossip_run P z checks F react overlay (gossip_start keys) evs in
  punctual P z checks F react overlay keys evs m date -> no_fec P z checks F react overlay keys evs id ->
  proper_sends z overlay evs ->
  (forall w e n peer picks, at_time w e -> receives overlay w e n peer m picks -> has n)
  /\ (forall n targets, In (targets, m) (sent_by overlay final n) -> has n)
  /\ (nothing_lost P z checks F react overlay keys evs m ->
      forall origin n, has origin -> path (passed overlay final m) origin n -> has n).
Proof. exact GossipFacts.spreading. Qed.
Print Assumptions c84_spreads.

(** C84: if nobody meddles and every node passes on to all its neighbours, then every node that is connected
    with the origin delivers exactly what was sent, with the right sender, whatever the order and
    the number of copies in which messages arrive. *)
Theorem c84_floods : forall P z checks F react overlay keys packed secret data date neighbours evs origin n,
  prims_ok P -> zstd_ok z -> hash_ok overlay -> date < 2 ^ 32 -> sendable z packed data ->
  unambiguous P z packed secret data date ->
  let m := the_message P z overlay packed secret data date in
  let id := the_id P data date in
  let final := gossip_run P z checks F react overlay (gossip_start keys) evs in
  punctual P z checks F react overlay keys evs m date -> no_fec P z checks F react overlay keys evs id ->
  proper_sends z overlay evs -> nothing_lost P z checks F react overlay keys evs m ->
  undisturbed P z checks F react overlay keys evs origin m id ->
  floods P z checks F react overlay keys evs m neighbours ->
  path (way overlay final m origin neighbours) origin n ->
  n = origin \/ In (mk_delivery id 1 data (node_id P (pub_of P secret))) (delivered_by overlay final n).
Proof. exact GossipFacts.flooding. Qed.
Print Assumptions c84_floods.

(** C84: when nodes pass on to a limited number of random neighbours, as the options tell them to, a
    neighbour can be left out by everybody although no message is lost. *)
Theorem c84_limited_refuted : ~ forall P z checks F react overlay keys packed secret data date neighbours evs origin n,
  prims_ok P -> zstd_ok z -> hash_ok overlay -> date < 2 ^ 32 -> sendable z packed data ->
  unambiguous P z packed secret data date ->
  let m := the_message P z overlay packed secret data date in
  let id := the_id P data date in
  let final := gossip_run P z checks F react overlay (gossip_start keys) evs in
  punctual P z checks F react overlay keys evs m date -> no_fec P z checks F react overlay keys evs id ->
  proper_sends z overlay evs -> nothing_lost P z checks F react overlay keys evs m ->
  undisturbed P z checks F react overlay keys evs origin m id ->
  chooses P z checks F react overlay keys evs m neighbours ->
  path (way overlay final m origin neighbours) origin n ->
  n = origin \/ In (mk_delivery id 1 data (node_id P (pub_of P secret))) (delivered_by overlay final n).
Proof. exact GossipSampleFacts.limited. Qed.
Print Assumptions c84_limited_refuted.

(** Four nodes in a line meet the conditions of [c84_floods], and the last of them delivers. *)
Example c84_example :
  prims_ok brief /\ zstd_ok toy_zstd /\ hash_ok t_overlay /\ sendable toy_zstd false [1; 2; 3]
  /\ unambiguous brief toy_zstd false (secret_of 1) [1; 2; 3] 100
  /\ punctual brief toy_zstd true toy_fec g_react t_overlay g_keys g_line g_message 100
  /\ no_fec brief toy_zstd true toy_fec g_react t_overlay g_keys g_line g_id
  /\ proper_sends toy_zstd t_overlay g_line
  /\ nothing_lost brief toy_zstd true toy_fec g_react t_overlay g_keys g_line g_message
  /\ undisturbed brief toy_zstd true toy_fec g_react t_overlay g_keys g_line (t_id 1) g_message g_id
  /\ floods brief toy_zstd true toy_fec g_react t_overlay g_keys g_line g_message g_neighbours
  /\ path (way t_overlay (g_run g_line) g_message (t_id 1) g_neighbours) (t_id 1) (t_id 4)
  /\ delivered_by t_overlay (g_run g_line) (t_id 4) = [mk_delivery g_id 1 [1; 2; 3] (t_id 1)].
Proof.
  split; [exact brief_ok|]. split; [exact CompressionFacts.toy_zstd_ok|]. split; [reflexivity|]. split; [exact (GossipSampleFacts.sendable_is false)|].
  split; [exact GossipSampleFacts.unambiguous_is|]. destruct GossipSampleFacts.line_floods as (H1 & H2 & H3 & H4 & H5 & H6 & H7).
  repeat (split; [assumption|]). vm_compute. reflexivity.
Qed.
