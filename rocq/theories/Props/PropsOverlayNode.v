(** C69: the overlays of one node do not disturb each other. *)
From stdpp Require Import gmap.
From Coq Require Import NArith.
From Verif.Base Require Import Bytes Res.
From Verif.Model Require Import Crypto Tl Scheme ProtoAdnl ProtoOverlay PeersSet Compression Fec OverlayPeers Broadcast OverlayNode OverlayExchange.
From Verif.Model Require Subscribers.
From Verif.Spec Require Import Codec CryptoSpec CompressionSpec FecSpec DhtSpec OverlaySpec Sample DhtSample BroadcastSpec BroadcastSample
  OverlayNodeSpec.
From Verif.Proof Require OverlayNodeFacts.
Open Scope N_scope.

(** C69: whatever happens, the state of an overlay and the answers given in its name are those of a
    node that saw only what concerns that overlay. *)
Theorem c69_isolated : forall P z checks F react g id ops,
  let run := group_run P z checks F react in
  let own := List.filter (concerns id) ops in
  gr_overlays (run g ops) !! id = gr_overlays (run g own) !! id
  /\ gr_subscribers (run g ops) !! id = gr_subscribers (run g own) !! id
  /\ (forall peer con data picks, named data = id ->
      fst (on_message P z checks (run g ops) peer con data picks) = fst (on_message P z checks (run g own) peer con data picks))
  /\ (forall con query now picks, named query = id ->
      fst (on_query P react (run g ops) con query now picks) = fst (on_query P react (run g own) con query now picks)).
Proof. exact OverlayNodeFacts.isolated. Qed.
Print Assumptions c69_isolated.

(** C69: an overlay keeps the key, limit and options of its first creation, public or private, and
    the first consumer registered for it: later ones are refused, and the caller is told. *)
Theorem c69_first_wins : forall P z checks F react key id ops,
  let g := group_run P z checks F react (group_new key) ops in
  option_map terms_of (gr_overlays g !! id) = created key id ops
  /\ (forall i, gr_overlays g !! id = Some i -> ov_id (in_peers i) = id)
  /\ gr_subscribers g !! id = registered id ops
  /\ (forall m o clock, fst (add_public_overlay g id m o clock) = true <-> created key id ops = None)
  /\ (forall k peers m o clock picks, fst (add_private_overlay g id k peers m o clock picks) = true <-> created key id ops = None)
  /\ (forall c, fst (add_overlay_subscriber g id c) = true <-> registered id ops = None).
Proof. exact OverlayNodeFacts.first_wins. Qed.
Print Assumptions c69_first_wins.

(** C69: so each overlay is in a state a lone overlay could be in, and everything proved of lone
    overlays holds of it; what it received came in messages named for it. *)
Theorem c69_lives_alone : forall P z checks F react ops key id i,
  gr_overlays (group_run P z checks F react (group_new key) ops) !! id = Some i -> lives P z checks F id ops i.
Proof. exact OverlayNodeFacts.lives_run. Qed.
Print Assumptions c69_lives_alone.

(** C69: queries go to the overlay or to the consumer registered for it, with the very bytes that
    follow the overlay's id; nothing else is asked. *)
Theorem c69_queries : forall P react g id q inner rest now picks, hash_ok id -> get_u32 q = Some (inner, rest) ->
  let r := on_query P react g id_overlay_query (put_overlay_query id ++ q) now picks in
  (inner <> id_overlay_get_random_peers ->
     snd r = g
     /\ match gr_subscribers g !! id with
        | None => fst r = (Subscribers.Failed NoConsumerFound, [])
        | Some c => fst r = (match react c inner q with
                             | Some (Some a) => Subscribers.Consumed a
                             | Some None => Subscribers.Failed UnsupportedQuery
                             | None => Subscribers.Failed ConsumerError
                             end, [(c, inner, q)])
        end)
  /\ (forall nodes, vec_ok ov_node_ok nodes -> q = put_get_random_peers nodes ->
     match gr_overlays g !! id with
     | None => r = (Subscribers.Failed UnknownOverlay, [], g)
     | Some i => fst r = (Subscribers.Consumed (Some (put_ov_nodes_boxed (fst (process_get_random_peers P (in_peers i) nodes now picks)))), [])
         /\ gr_overlays (snd r) !! id
            = Some (mk_instance (overlay_step P (in_peers i) (OvGetRandomPeers nodes now picks)) (in_options i) (in_broadcasts i))
     end).
Proof. exact OverlayNodeFacts.queries. Qed.
Print Assumptions c69_queries.

(** C69: everything else is left for other subscribers. *)
Theorem c69_others_refused : forall P z checks react g peer con data now picks picks',
  (con <> id_overlay_message -> on_message P z checks g peer con data picks = (Ok false, g))
  /\ (con <> id_overlay_query -> on_query P react g con data now picks' = (Subscribers.Refused data, [], g)).
Proof. exact OverlayNodeFacts.others_refused. Qed.
Print Assumptions c69_others_refused.

(** C69: a message for an overlay this node does not have is reported, as is one of a kind it does not
    support, and changes nothing. *)
Theorem c69_not_handled : forall P z checks g peer id b rest picks, hash_ok id -> broadcast_ok b ->
  (gr_overlays g !! id = None ->
     on_message P z checks g peer id_overlay_message (overlay_message id b ++ rest) picks = (Err UnknownOverlay, g))
  /\ (forall i, gr_overlays g !! id = Some i ->
     match b with BBroadcast _ | BBroadcastFec _ => False | _ => True end ->
     on_message P z checks g peer id_overlay_message (overlay_message id b ++ rest) picks
     = (Err UnsupportedOverlayBroadcastMessage, g)).
Proof. exact OverlayNodeFacts.not_handled. Qed.
Print Assumptions c69_not_handled.
Example c69_not_handled_example : hash_ok t_overlay /\ broadcast_ok (BBroadcast (t_ordinary 95))
  /\ gr_overlays (group_new (secret_of 1)) !! t_overlay = None /\ broadcast_ok BBroadcastNotFound.
Proof. split; [reflexivity|]. split; [|split; [reflexivity|exact I]]. repeat split; vm_compute; reflexivity. Qed.

(** C69: data sent directly to a peer in an overlay.  As a query it reaches, unchanged, the consumer the peer has
    registered for the overlay.  As a message it is only of use if it is a broadcast, which the overlay of that id takes;
    anything else is reported as unreadable, and no consumer is told about it. *)
Theorem c69_direct : forall P z checks react g peer o data now picks, hash_ok (ov_id o) ->
  let m := overlay_message_bytes o data in let q := overlay_query_bytes o data in
  (exists rest, get_u32 m = Some (id_overlay_message, rest)) /\ (exists rest, get_u32 q = Some (id_overlay_query, rest))
  /\ on_message P z checks g peer id_overlay_message m picks
     = match get_broadcast data, gr_overlays g !! ov_id o with
       | None, _ => (Err BadEncoding, g)
       | Some _, None => (Err UnknownOverlay, g)
       | Some (BBroadcast b, _), Some i =>
         let '(x, s) := receive_broadcast P z checks (in_options i) (mk_bc_env (ov_neighbours (in_peers i)) picks) (in_broadcasts i) peer m b in
         (received x, set_instance g (ov_id o) (mk_instance (in_peers i) (in_options i) s))
       | Some (BBroadcastFec b, _), Some i =>
         let '(x, s) := receive_fec P checks (in_options i) (mk_bc_env (ov_neighbours (in_peers i)) picks) (in_broadcasts i) peer m b in
         (received x, set_instance g (ov_id o) (mk_instance (in_peers i) (in_options i) s))
       | Some _, Some _ => (Err UnsupportedOverlayBroadcastMessage, g)
       end
  /\ forall inner rest c, get_u32 data = Some (inner, rest) -> inner <> id_overlay_get_random_peers ->
     gr_subscribers g !! ov_id o = Some c ->
     snd (fst (on_query P react g id_overlay_query q now picks)) = [(c, inner, data)].
Proof. exact OverlayNodeFacts.sent_directly. Qed.
Print Assumptions c69_direct.
Example c69_direct_example :
  let o := overlay_new (secret_of 1) t_overlay [] 5 [] in
  hash_ok (ov_id o) /\ get_broadcast (put_broadcast (BBroadcast (t_ordinary 95))) = Some (BBroadcast (t_ordinary 95), [])
  /\ get_broadcast [1; 2; 3; 4; 5] = None /\ get_u32 [1; 2; 3; 4; 5] = Some (67305985, [5]).
Proof. vm_compute. auto. Qed.

(** C69: from one node to another: what one node broadcasts in an overlay is delivered by the same
    overlay of the node that receives the message, and by no other overlay. *)
Theorem c69_arrives : forall P z checks F react ga gb id ia ib secret data targets,
  prims_ok P -> zstd_ok z -> hash_ok id -> bytes_ok data = true -> N.of_nat (length data) < 2 ^ 32 ->
  gr_overlays ga !! id = Some ia -> gr_overlays gb !! id = Some ib ->
  let date := now_sec (in_broadcasts ia) in
  let packed := bo_compress (in_options ia) in
  let cb := setup_of P z checks F id ib in
  let bid := sha256 P (broadcast_claim P 1 [] data date) in
  N.of_nat (length (wire cb packed data)) < 2 ^ 24 ->
  (forall u, decompress z (wire cb packed data) = Some u -> u <> data ->
     ~ signed_by P (pub_of P secret) (broadcast_claim P 1 [] u date) (sign P secret (broadcast_claim P 1 [] data date))) ->
  br_owned (in_broadcasts ia) !! bid = None -> br_owned (in_broadcasts ib) !! bid = None ->
  timely cb (in_broadcasts ib) date ->
  exists ia' m,
    gr_overlays (group_step P z checks F react ga (GoBroadcasts id (EvSend secret data targets))) !! id = Some ia'
    /\ br_sent (in_broadcasts ia') = br_sent (in_broadcasts ia) ++ [(targets, m)]
    /\ (exists rest, get_u32 m = Some (id_overlay_message, rest))
    /\ forall peer picks,
       let '(r, gb') := on_message P z checks gb peer id_overlay_message m picks in
       r = Ok true
       /\ (exists ib', gr_overlays gb' !! id = Some ib'
           /\ br_delivered (in_broadcasts ib') = br_delivered (in_broadcasts ib) ++ [mk_delivery bid 1 data (node_id P (pub_of P secret))])
       /\ (forall other, other <> id -> gr_overlays gb' !! other = gr_overlays gb !! other).
Proof. exact OverlayNodeFacts.message_arrives. Qed.
Print Assumptions c69_arrives.

(** A node with a public and a private overlay, each created again with other terms, a consumer for the
    first, and a broadcast sent by another node in the first. *)
Example c69_example :
  let o := bs_options (t_bc 10 0) in
  let other := repeat 6 32 in
  let react (c : nat) (k : N) (q : bytes) := Some (Some (Some (N.of_nat c :: q))) in
  let run := group_run brief toy_zstd true toy_fec react in
  let m := overlay_message t_overlay (BBroadcast (t_ordinary 95)) in
  let ops := [GoPublic t_overlay 5 o 100000; GoPrivate other (secret_of 3) [t_id 4] 5 o 100000 []; GoPrivate t_overlay (secret_of 3) [t_id 4] 5 o 100000 [];
              GoSubscribe t_overlay 8; GoSubscribe t_overlay 9; GoMessage (t_id 2) id_overlay_message m []] in
  let g := run (group_new (secret_of 1)) ops in
  created (secret_of 1) t_overlay ops = Some (mk_terms (secret_of 1) 5 o)
  /\ created (secret_of 1) other ops = Some (mk_terms (secret_of 3) 5 o)
  /\ registered t_overlay ops = Some 8%nat
  /\ map (fun i => option_map (fun x => br_delivered (in_broadcasts x)) (gr_overlays g !! i)) [t_overlay; other]
     = [Some [mk_delivery (t_ordinary_id 95) 1 [1; 2; 3] (t_id 7)]; Some []]
  /\ map (concerns other) ops = [false; true; false; false; false; false]
  /\ fst (on_query brief react g id_overlay_query (put_overlay_query t_overlay ++ [1; 2; 3; 4; 5]) 0 [])
     = (Subscribers.Consumed (Some [8; 1; 2; 3; 4; 5]), [(8%nat, 67305985, [1; 2; 3; 4; 5])])
  /\ fst (on_query brief react g id_overlay_query (put_overlay_query other ++ [1; 2; 3; 4; 5]) 0 [])
     = (Subscribers.Failed NoConsumerFound, []).
Proof. vm_compute. repeat split. Qed.

(** The two nodes of [c69_arrives]. *)
Example c69_arrives_example :
  let o := bs_options (t_bc 10 0) in
  let g k := group_step brief toy_zstd true toy_fec (fun _ _ _ => None) (group_new (secret_of k)) (GoPublic t_overlay 5 o 100000) in
  let i := instance_new (secret_of 1) t_overlay [] 5 o 100000 [] in
  let cb := setup_of brief toy_zstd true toy_fec t_overlay i in
  gr_overlays (g 1) !! t_overlay = Some i
  /\ gr_overlays (g 2) !! t_overlay = Some (instance_new (secret_of 2) t_overlay [] 5 o 100000 [])
  /\ decompress toy_zstd (wire cb false [1; 2; 3]) = None
  /\ br_owned (in_broadcasts i) !! t_ordinary_id 100 = None
  /\ timely cb (in_broadcasts i) 100 /\ hash_ok t_overlay.
Proof.
  cbv zeta. split; [exact (lookup_insert ∅ t_overlay _)|]. split; [exact (lookup_insert ∅ t_overlay _)|].
  split; [vm_compute; reflexivity|]. split; [vm_compute; reflexivity|]. split; [split; vm_compute; [reflexivity|discriminate]|reflexivity].
Qed.
