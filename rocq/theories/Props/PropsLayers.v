(** C100: each layer of a node gets its queries, and applications get their answers. *)
From stdpp Require Import gmap.
From Coq Require Import NArith.
From Verif.Base Require Import Bytes Res.
From Verif.Model Require Import Crypto Tl Scheme ProtoAdnl ProtoRldp Peer AdnlNode Compression OverlayPeers OverlayNode OverlayExchange
  DhtNode Queries NodeQueries Layers.
From Verif.Model Require Subscribers.
From Verif.Spec Require Import Codec CryptoSpec NodeSpec Sample DhtSample PairSpec TalkSpec TripSpec DhtTripSample LayersSpec LayersSample.
From Verif.Proof Require LayersFacts LayersSamples.
Open Scope N_scope.

(** C100: a query is passed on, unchanged, by all subscribers it does not belong to, in whatever order and state
    they are, and the first one that takes it decides. *)
Theorem c100_routed : forall P before (s : Subscribers.subscriber layer_error) (after : list (Subscribers.subscriber layer_error)) q c r,
  get_u32 q = Some (c, r) -> others P c before -> (forall q', s c q <> Subscribers.Refused q') ->
  fst (Subscribers.process_query (before ++ s :: after) q)
  = match s c q with
    | Subscribers.Consumed a => Ok (Subscribers.Processed a)
    | Subscribers.Failed e => Err (Subscribers.SubscriberError e)
    | Subscribers.Refused _ => Ok Subscribers.AllRejected
    end
  /\ snd (Subscribers.process_query (before ++ s :: after) q) = map (fun k => (k, q)) (seq 0 (S (length before))).
Proof. exact LayersFacts.routed. Qed.
Print Assumptions c100_routed.
(** A query that belongs to none of them is refused, and nothing is sent back. *)
Theorem c100_unserved : forall P subs q c r, get_u32 q = Some (c, r) -> others P c subs ->
  fst (Subscribers.process_query subs q) = Ok Subscribers.AllRejected /\ answer_of (fst (Subscribers.process_query subs q)) = None.
Proof. exact LayersFacts.left_alone. Qed.
Print Assumptions c100_unserved.

(** C100: the same for messages. *)
Theorem c100_heard : forall P z checks before (s : Subscribers.message_subscriber layer_error)
  (after : list (Subscribers.message_subscriber layer_error)) data c r,
  get_u32 data = Some (c, r) -> other_hearers P z checks c before -> s c data <> Ok false ->
  fst (Subscribers.process_message_custom (before ++ s :: after) data)
  = match s c data with Ok b => Ok b | Err e => Err (Subscribers.SubscriberError e) end
  /\ snd (Subscribers.process_message_custom (before ++ s :: after) data) = seq 0 (S (length before)).
Proof. exact LayersFacts.heard_by. Qed.
Print Assumptions c100_heard.

(** C100: no query and no message belongs to two layers of the library. *)
Theorem c100_apart :
  List.NoDup (dht_queries ++ [id_overlay_query; id_adnl_ping]) /\ List.NoDup (rldp_messages ++ [id_overlay_message]).
Proof. exact LayersFacts.layers_apart. Qed.
Print Assumptions c100_apart.

(** C100: in every state each layer takes what belongs to it. *)
Theorem c100_own_queries : forall P,
  (forall e d c q q', In c dht_queries -> dht_layer P e d c q <> Subscribers.Refused q')
  /\ (forall react g now picks q q', overlay_layer P react g now picks id_overlay_query q <> Subscribers.Refused q')
  /\ (forall q q', ping_layer id_adnl_ping q <> Subscribers.Refused q').
Proof. exact LayersFacts.own_queries. Qed.
Print Assumptions c100_own_queries.
Theorem c100_own_messages : forall P z checks,
  (forall handle c data, In c rldp_messages -> rldp_layer handle c data
     = match deserialize get_message_part data with Some m => if handle m then Ok true else Err AppFailed | None => Err BadPart end)
  /\ (forall g peer picks data, overlay_message_layer P z checks g peer picks id_overlay_message data <> Ok false).
Proof. exact LayersFacts.own_messages. Qed.
Print Assumptions c100_own_messages.

(** C100: so a query made in an overlay reaches the application registered for that overlay at the other node, with
    the very bytes given, and returns the bytes the application answers. *)
Theorem c100_overlay : forall P, prims_ok P -> forall o body inner rest react g now picks c answer before after,
  hash_ok (ov_id o) -> get_u32 body = Some (inner, rest) -> inner <> id_overlay_get_random_peers ->
  gr_subscribers g !! ov_id o = Some c -> react c inner body = Some (Some (Some answer)) -> others P id_overlay_query before ->
  let query := overlay_query_sent o body in
  answer_of (fst (Subscribers.process_query (before ++ overlay_layer P react g now picks :: after) query)) = Some answer
  /\ snd (fst (on_query P react g id_overlay_query query now picks)) = [(c, inner, body)]
  /\ forall fuel a b, parties_ok P a b -> forall s w t, talking P fuel a b s -> trip_ok P fuel a b s w t query answer ->
     handed P a b (asked_to P fuel a b s w t query) (other w) (length (qn_handed (qnode_of s (other w)))) (tr_id t) query
     /\ option_map overlay_query_result (returned P fuel a b s w t query answer) = Some (Ok (Some answer)).
Proof. exact LayersFacts.overlay_asked. Qed.
Print Assumptions c100_overlay.

(** C100: a query to the DHT of the other node returns what this DHT answers. *)
Theorem c100_dht : forall P, prims_ok P -> forall e d query c r answer before after,
  get_u32 query = Some (c, r) -> others P c before -> fst (dht_receive P e d query) = Ok (Some answer) ->
  answer_of (fst (Subscribers.process_query (before ++ dht_layer P e d :: after) query)) = Some answer
  /\ (forall fuel a b, parties_ok P a b -> carried P fuel a b query answer).
Proof. exact LayersFacts.dht_asked. Qed.
Print Assumptions c100_dht.

(** C100: every node answers pings. *)
Theorem c100_ping : forall P, prims_ok P -> forall before after v, u64_ok v -> others P id_adnl_ping before ->
  answer_of (fst (Subscribers.process_query (before ++ ping_layer :: after) (make_query None (put_adnl_ping v)))) = Some (put_adnl_pong v)
  /\ deserialize get_adnl_pong (put_adnl_pong v) = Some v.
Proof. exact LayersFacts.pinged. Qed.
Print Assumptions c100_ping.

(** C100: a typed query returns the value the answer stands for, and an error if the answer cannot be read; *)
Theorem c100_typed : forall P, prims_ok P -> forall fuel a b, parties_ok P a b -> forall A (get : parser A) prefix body answer,
  forall s w t, talking P fuel a b s -> trip_ok P fuel a b s w t (make_query prefix body) answer ->
  option_map (typed_answer get) (returned P fuel a b s w t (make_query prefix body) answer)
  = Some (match deserialize get answer with Some x => Ok (Some x) | None => Err tt end).
Proof. exact LayersFacts.typed_trip. Qed.
Print Assumptions c100_typed.
(** after a timeout it returns nothing, and this is not an error. *)
Theorem c100_timed_out : forall P, prims_ok P -> forall fuel a b, parties_ok P a b -> forall A (get : parser A) s w q,
  talking P fuel a b s -> (q < length (asked_by s w))%nat -> result s w q = None ->
  option_map (typed_answer get) (result (abandons s w q) w q) = Some (Ok None).
Proof. exact LayersFacts.timed_out. Qed.
Print Assumptions c100_timed_out.

(** C100: the timeout proposed for a query is the least one that is not below the minimum and leaves time for the
    round trip; without a proposal a query waits for the default time. *)
Theorem c100_timeout : forall min_timeout default roundtrip,
  let t := compute_query_timeout min_timeout default roundtrip in
  let estimate := match roundtrip with Some r => r | None => default end in
  min_timeout <= t /\ estimate <= t /\ (forall t', min_timeout <= t' -> estimate <= t' -> t <= t')
  /\ query_waits default (Some t) = t /\ query_waits default None = default.
Proof. exact LayersFacts.timeout_least. Qed.
Print Assumptions c100_timeout.

(** Bob's node has an application of its own, a DHT and overlays, in this order; Alice makes a query in an overlay
    and then pings. *)
Example c100_example :
  prims_ok light /\ parties_ok light sample_alice sample_bob /\ hash_ok (ov_id l_overlay)
  /\ get_u32 l_body = Some (67305985, [5]) /\ gr_subscribers l_group !! ov_id l_overlay = Some 7%nat
  /\ l_react 7%nat 67305985 l_body = Some (Some (Some l_answer))
  /\ others light id_overlay_query l_before /\ others light id_adnl_ping l_before
  /\ talking light 0 sample_alice sample_bob r_start
  /\ trip_ok light 0 sample_alice sample_bob r_start Alice (r_trip 3 1500) l_query l_answer
  /\ trip_ok light 0 sample_alice sample_bob r_start Alice (r_trip 4 1700) (put_adnl_ping 77) (put_adnl_pong 77).
Proof. exact LayersSamples.sample_layers. Qed.
