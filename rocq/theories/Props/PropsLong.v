(** C102: messages that need several datagrams arrive whole between two nodes. *)
From stdpp Require Import gmap.
From Coq Require Import NArith Permutation.
From Verif.Base Require Import Bytes Res.
From Verif.Model Require Import Crypto ProtoAdnl Scheme ProtoOverlay Compression Fec Peer AdnlNode OverlayPeers Broadcast OverlayNode Layers.
From Verif.Model Require Subscribers.
From Verif.Spec Require Import Codec CryptoSpec FecSpec NodeSpec PairSpec GossipSpec LayersSpec LongSpec LongSample.
From Verif.Spec Require GossipFecSpec.
From Verif.Proof Require LongFacts LongSamples.
Open Scope N_scope.

(** C102: whatever happened between two nodes that know each other, a message that one of them sends is put into
    datagrams for the address of the other one, and if these arrive in time, in any order, all of them are accepted
    and the message is handed over once, unchanged and with the right names; nothing of it is left behind. *)
Theorem c102_arrives : forall P, prims_ok P -> forall fuel a b, parties_ok P a b -> forall s w now m priority rs d,
  exchange P fuel a b s -> long_payload m -> u32_ok now -> (forall i, length (r_bytes (rs i)) = 10%nat) ->
  N.of_nat (length (pr_letters s)) < 2 ^ 62 ->
  now + o_address_list_timeout (pa_opts (pick_who w a b)) < 2 ^ 32 -> 1936 <= N.of_nat fuel ->
  let me := id_of_who P a b w in let you := id_of_who P a b (other w) in
  delivered_as you me m = Some d ->
  n_transfers (node_of s (other w)) !! sha256 P (put_message m) = None ->
  exists n' datagrams, send_message P (node_of s w) now me you m priority rs = (Ok tt, n')
    /\ n_out n' = n_out (node_of s w) ++ map (fun x => (pa_addr (pick_who (other w) a b), x)) datagrams
    /\ forall l, Permutation (map ar_data l) datagrams ->
       Forall (in_time P (pick_who w a b) (pick_who (other w) a b) now) l ->
       exists n2, all_arrive P fuel (node_of s (other w)) l = (map (fun _ => Ok tt) l, [d], n2)
         /\ n_transfers n2 !! sha256 P (put_message m) = None.
Proof. exact LongFacts.long_arrives. Qed.
Print Assumptions c102_arrives.

(** C102: queries and answers of up to 1892 bytes and messages of applications of up to 1924 bytes are short enough. *)
Theorem c102_sizes :
  (forall id q, hash_ok id -> N.of_nat (length q) <= 1892 -> long_payload (MQuery id q) /\ long_payload (MAnswer id q))
  /\ forall d, N.of_nat (length d) <= 1924 -> long_payload (MCustom d).
Proof. exact LongSamples.long_sizes. Qed.
Print Assumptions c102_sizes.

(** C102: so is every packet of a broadcast in several packets, however long the broadcast. *)
Theorem c102_fec : forall P z F overlay (packed : bool) secret data date esi, prims_ok P -> fec_ok F -> hash_ok overlay ->
  long_payload (MCustom (GossipFecSpec.part_message P z F overlay packed secret data date esi)).
Proof. exact LongSamples.parts_fit. Qed.
Print Assumptions c102_fec.

(** C102: so every arrival of such a packet in the network of C94 is what the datagrams between the two nodes bring about. *)
Theorem c102_network : forall P z checks F react overlay, prims_ok P -> fec_ok F -> hash_ok overlay ->
  forall fuel a b, parties_ok P a b -> forall s from now priority rs (w : nodes) k targets (packed : bool) secret data date esi picks,
  let me := id_of_who P a b from in let you := id_of_who P a b (other from) in
  let m := GossipFecSpec.part_message P z F overlay packed secret data date esi in
  exchange P fuel a b s -> u32_ok now -> (forall i, length (r_bytes (rs i)) = 10%nat) ->
  N.of_nat (length (pr_letters s)) < 2 ^ 62 -> now + o_address_list_timeout (pa_opts (pick_who from a b)) < 2 ^ 32 ->
  1936 <= N.of_nat fuel -> n_transfers (node_of s (other from)) !! sha256 P (put_message (MCustom m)) = None ->
  nth_error (GossipSpec.sent_by overlay w me) k = Some (targets, m) -> In you targets ->
  exists n' datagrams, send_message P (node_of s from) now me you (MCustom m) priority rs = (Ok tt, n')
    /\ n_out n' = n_out (node_of s from) ++ map (fun x => (pa_addr (pick_who (other from) a b), x)) datagrams
    /\ (forall l, Permutation (map ar_data l) datagrams ->
        Forall (in_time P (pick_who from a b) (pick_who (other from) a b) now) l ->
        exists n2, all_arrive P fuel (node_of s (other from)) l = (map (fun _ => Ok tt) l, [DCustom you me m], n2))
    /\ gossip_step P z checks F react overlay w (Arrives me k you picks)
       = place w you (snd (on_message P z checks (w you) me id_overlay_message m picks))
    /\ forall before after, other_hearers P z checks id_overlay_message before ->
       fst (Subscribers.process_message_custom (before ++ overlay_message_layer P z checks (w you) me picks :: after) m)
       = match fst (on_message P z checks (w you) me id_overlay_message m picks) with
         | Ok x => Ok x
         | Err e => Err (Subscribers.SubscriberError (OverlayFailed e))
         end.
Proof. exact LongSamples.parts_network. Qed.
Print Assumptions c102_network.

(** C102: 1100 bytes as the first message between two nodes need two datagrams, which arrive in the opposite order. *)
Example c102_example : fst l_sent = Ok tt /\ length (n_out (snd l_sent)) = 2%nat
  /\ fst (all_arrive light (N.to_nat 2000) (node_of l_start Bob) l_arriving)
     = ([Ok tt; Ok tt], [DCustom (party_id light sample_bob) (party_id light sample_alice) (repeat 5 (N.to_nat 1100))]).
Proof. exact LongSamples.long_sample. Qed.
