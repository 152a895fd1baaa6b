(** C101: broadcasts and queries of overlays travel between nodes. *)
From stdpp Require Import gmap.
From Coq Require Import NArith.
From Verif.Base Require Import Bytes Res.
From Verif.Model Require Import Crypto Tl Scheme ProtoAdnl Peer AdnlNode PeersSet Compression Fec OverlayPeers Broadcast OverlayNode OverlayExchange RldpNode Layers.
From Verif.Model Require Subscribers.
From Verif.Spec Require Import Codec CryptoSpec CompressionSpec FecSpec NodeSpec OverlaySpec BroadcastSpec PairSpec GossipSpec LayersSpec LayersSample
  OverlayTripSpec OverlayTripSample RldpSpec RldpPairSample RldpPairSpec StackSpec StackPlay StackSample.
From Verif.Proof Require OverlayTripFacts OverlayTripSamples.
Open Scope N_scope.

(** C101: a message whose letter arrives in time is handed over unchanged and with the right names, in every state of
    the connection, and the connection goes on. *)
Theorem c101_carried : forall P, prims_ok P -> forall fuel a b, parties_ok P a b -> forall s t m,
  exchange P fuel a b s -> may_turn P a b s t -> tn_message t = MCustom m ->
  exchange P fuel a b (take_turn P fuel a b s t)
  /\ handed_over P fuel a b s t = [DCustom (id_of_who P a b (other (tn_who t))) (id_of_who P a b (tn_who t)) m].
Proof. exact OverlayTripFacts.message_carried. Qed.
Print Assumptions c101_carried.

(** C101: what the user of one node broadcasts in an overlay is sent to the targets; its message is handed over by
    the node that receives it; whatever subscribers come first, the overlays of that node take it, give the data to
    their user with the name of the sender, pass the same message on, and leave other overlays alone. *)
Theorem c101_broadcast : forall P z checks F react ga gb id ia ib secret data targets,
  prims_ok P -> zstd_ok z -> hash_ok id -> bytes_ok data = true -> N.of_nat (length data) < 2 ^ 32 ->
  gr_overlays ga !! id = Some ia -> gr_overlays gb !! id = Some ib ->
  let date := now_sec (in_broadcasts ia) in
  let packed := bo_compress (in_options ia) in
  let bid := the_id P data date in
  let m := the_message P z id packed secret data date in
  N.of_nat (length (if packed then compress z data else data)) < 2 ^ 24 -> unambiguous P z packed secret data date ->
  br_owned (in_broadcasts ia) !! bid = None -> br_owned (in_broadcasts ib) !! bid = None ->
  BroadcastSpec.timely (setup_of P z checks F id ib) (in_broadcasts ib) date ->
  sent_out (group_step P z checks F react ga (GoBroadcasts id (EvSend secret data targets))) id = sent_out ga id ++ [(targets, m)]
  /\ (forall fuel a b s t, parties_ok P a b -> exchange P fuel a b s -> may_turn P a b s t -> tn_message t = MCustom m ->
      handed_over P fuel a b s t = [DCustom (id_of_who P a b (other (tn_who t))) (id_of_who P a b (tn_who t)) m])
  /\ forall before after peer picks, other_hearers P z checks id_overlay_message before ->
     let gb' := group_step P z checks F react gb (GoMessage peer id_overlay_message m picks) in
     fst (Subscribers.process_message_custom (before ++ overlay_message_layer P z checks gb peer picks :: after) m) = Ok true
     /\ user_got gb' id = user_got gb id ++ [mk_delivery bid 1 data (node_id P (pub_of P secret))]
     /\ sent_out gb' id = sent_out gb id ++ [(get_random_peers (ov_neighbours (in_peers ib)) (bo_secondary (in_options ib)) (Some peer) picks, m)]
     /\ (forall other, other <> id -> gr_overlays gb' !! other = gr_overlays gb !! other).
Proof. exact OverlayTripFacts.broadcast_travels. Qed.
Print Assumptions c101_broadcast.

(** C101: broadcasts of up to 768 bytes, which is the limit of the library for those sent in one piece, always need
    one datagram only. *)
Theorem c101_fits : forall P z id (packed : bool) secret data date, prims_ok P -> hash_ok id ->
  N.of_nat (length (if packed then compress z data else data)) <= 768 ->
  small_payload (MCustom (the_message P z id packed secret data date)).
Proof. exact OverlayTripFacts.broadcast_fits. Qed.
Print Assumptions c101_fits.

(** C101: every arrival in the network of C84 is what one letter between the two nodes brings about. *)
Theorem c101_network : forall P z checks F react overlay, prims_ok P -> forall fuel a b, parties_ok P a b ->
  forall s t (w : nodes) k targets m r picks,
  let from := id_of_who P a b (tn_who t) in let to := id_of_who P a b (other (tn_who t)) in
  exchange P fuel a b s -> may_turn P a b s t -> tn_message t = MCustom m ->
  nth_error (GossipSpec.sent_by overlay w from) k = Some (targets, m) -> In to targets -> get_u32 m = Some (id_overlay_message, r) ->
  handed_over P fuel a b s t = [DCustom to from m]
  /\ gossip_step P z checks F react overlay w (Arrives from k to picks)
     = place w to (snd (on_message P z checks (w to) from id_overlay_message m picks))
  /\ forall before after, other_hearers P z checks id_overlay_message before ->
     fst (Subscribers.process_message_custom (before ++ overlay_message_layer P z checks (w to) from picks :: after) m)
     = match fst (on_message P z checks (w to) from id_overlay_message m picks) with
       | Ok x => Ok x
       | Err e => Err (Subscribers.SubscriberError (OverlayFailed e))
       end.
Proof. exact OverlayTripFacts.network_real. Qed.
Print Assumptions c101_network.

(** Alice's broadcast to Bob, whose RLDP and an application are asked before his overlays. *)
Example c101_example :
  prims_ok light /\ zstd_ok toy_zstd /\ parties_ok light sample_alice sample_bob /\ hash_ok v_overlay
  /\ (exists ia ib, gr_overlays v_alice !! v_overlay = Some ia /\ gr_overlays v_bob !! v_overlay = Some ib
      /\ now_sec (in_broadcasts ia) = 1000 /\ bo_compress (in_options ia) = false
      /\ br_owned (in_broadcasts ia) !! the_id light v_data 1000 = None /\ br_owned (in_broadcasts ib) !! the_id light v_data 1000 = None
      /\ BroadcastSpec.timely (setup_of light toy_zstd true toy_fec v_overlay ib) (in_broadcasts ib) 1000)
  /\ unambiguous light toy_zstd false (sample_bytes 1) v_data 1000
  /\ exchange light 0 sample_alice sample_bob (pair_start light sample_alice sample_bob)
  /\ may_turn light sample_alice sample_bob (pair_start light sample_alice sample_bob) v_turn /\ tn_message v_turn = MCustom v_message
  /\ other_hearers light toy_zstd true id_overlay_message v_before.
Proof. exact OverlayTripSamples.sample_broadcast. Qed.

(** C101: a query in an overlay can also be made over RLDP: after every history of both layers it can be asked and
    returns, whatever its size within the limits, what the application answers that is registered for the overlay;
    this application gets the very bytes given.  ([as_asked] and [as_answered] are what compression makes of them: C27.) *)
Theorem c101_rldp : forall P fuel a b w T r0 (acts0 : list (act (E:=layer_error))) i qid now o body inner rest react g time picks c answer
    (before after : list (Subscribers.subscriber layer_error)),
  prims_ok P -> parties_ok P a b -> same_names P a b w ->
  o_version (pa_opts a) = Some 0 -> o_version (pa_opts b) = Some 0 -> clocks_agree a b T -> length (r_bytes r0) = 10%nat ->
  world_ok w -> hash_ok i -> hash_ok qid -> u64_ok (ro_max_answer (rw_alice w)) ->
  let p := overlay_query_sent o body in
  hash_ok (ov_id o) -> get_u32 body = Some (inner, rest) -> inner <> id_overlay_get_random_peers ->
  gr_subscribers g !! ov_id o = Some c -> react c inner body = Some (Some (Some answer)) -> others P id_overlay_query before ->
  as_asked w p = p -> as_answered w p answer = answer ->
  blob_ok (sent_payload (rw_zstd w) (ro_force (rw_alice w)) p) -> blob_ok (on_the_wire w p answer) ->
  N.of_nat (length (sent_payload (rw_zstd w) (ro_force (rw_alice w)) p)) + 55 <= ro_max_answer (rw_bob w) ->
  N.of_nat (length (on_the_wire w p answer)) + 43 <= ro_max_answer (rw_alice w) ->
  may_run P fuel a b w (stack_start P a b) acts0 ->
  let s := stack_run P fuel a b w (stack_start P a b) acts0 in
  let subs := before ++ overlay_layer P react g time picks :: after in
  Forall (only_theirs w i) (sk_events s) -> N.of_nat (length (pr_letters (sk_net s))) < 2 ^ 61 ->
  let ask := ATask PairSpec.Alice (NQuery (rw_bob_id w) i qid now p) (fun _ => (T, r0)) in
  snd (fst (on_query P react g id_overlay_query p time picks)) = [(c, inner, body)]
  /\ exists acts, may_run P fuel a b w s (ask :: acts)
     /\ let s' := stack_run P fuel a b w s (ask :: acts) in
        alice_result w (sk_rldp s') (length (rn_queries (rp_alice (sk_rldp s)))) = Some (RAnswered answer)
        /\ exists evs, sk_events s' = sk_events s ++ AtAlice (NQuery (rw_bob_id w) i qid now p) :: evs
           /\ Forall (only_theirs w i) evs /\ forall k subs', In (AtBob (NAnswerTurn k subs')) evs -> subs' = subs.
Proof. exact OverlayTripFacts.overlay_rldp. Qed.
Print Assumptions c101_rldp.
Example c101_rldp_example :
  prims_ok light /\ parties_ok light sample_alice sample_bob /\ same_names light sample_alice sample_bob k_world /\ world_ok k_world
  /\ clocks_agree sample_alice sample_bob 1000 /\ hash_ok t_transfer /\ hash_ok t_query_id
  /\ hash_ok (ov_id l_overlay) /\ get_u32 l_body = Some (67305985, [5]) /\ gr_subscribers l_group !! ov_id l_overlay = Some 7%nat
  /\ l_react 7%nat 67305985 l_body = Some (Some (Some l_answer)) /\ others light id_overlay_query l_before
  /\ as_asked k_world l_query = l_query /\ as_answered k_world l_query l_answer = l_answer
  /\ blob_ok (sent_payload (rw_zstd k_world) (ro_force (rw_alice k_world)) l_query) /\ blob_ok (on_the_wire k_world l_query l_answer)
  /\ N.of_nat (length (sent_payload (rw_zstd k_world) (ro_force (rw_alice k_world)) l_query)) + 55 <= ro_max_answer (rw_bob k_world)
  /\ N.of_nat (length (on_the_wire k_world l_query l_answer)) + 43 <= ro_max_answer (rw_alice k_world).
Proof. exact OverlayTripSamples.sample_rldp. Qed.
