(** Layers next to each other. *)
From stdpp Require Import gmap.
From Coq Require Import NArith Lia.
From Verif.Base Require Import Bytes BytesFacts Res.
From Verif.Model Require Import Crypto Tl Scheme ProtoAdnl ProtoRldp ProtoDht ProtoOverlay Peer AdnlNode Compression OverlayPeers OverlayNode OverlayExchange
  DhtNode Queries NodeQueries Layers.
From Verif.Model Require Subscribers.
From Verif.Spec Require Import Codec CryptoSpec NodeSpec PairSpec TalkSpec TripSpec LayersSpec.
From Verif.Proof Require Import TlFacts ProtoFacts DhtNodeFacts OverlayNodeFacts DhtTripFacts TalkFacts QueryFacts.
Open Scope N_scope.

Lemma dht_layer_receive : forall P e d c q r, get_u32 q = Some (c, r) ->
  dht_layer P e d c q
  = match fst (dht_receive P e d q) with
    | Ok (Some answer) => Subscribers.Consumed (Some answer)
    | Ok None => Subscribers.Refused q
    | Err x => Subscribers.Failed (DhtFailed x)
    end.
Proof. intros P e d c q r Hq. unfold dht_layer, dht_receive. now rewrite Hq. Qed.

Lemma serves_refuses : forall P s own c q r, serves P s own -> ~ In c own -> get_u32 q = Some (c, r) ->
  s c q = Subscribers.Refused q.
Proof.
  intros P s own c q r Hs Hc Hq. destruct Hs as [e d|react g now picks| |s own Hs].
  - rewrite (dht_layer_receive P e d c q r Hq). now rewrite (receive_other P e d q c r Hq Hc).
  - unfold overlay_layer, on_query. destruct (N.eqb_spec c id_overlay_query) as [->|Hn]; [exfalso; apply Hc; now left|reflexivity].
  - unfold ping_layer, Subscribers.ping_subscriber. destruct (N.eqb_spec c id_adnl_ping) as [->|Hn]; [exfalso; apply Hc; now left|reflexivity].
  - now apply Hs.
Qed.
Lemma hears_refuses : forall P z checks s own c d, hears P z checks s own -> ~ In c own -> s c d = Ok false.
Proof.
  intros P z checks s own c d Hs Hc. destruct Hs as [handle|g peer picks|s own Hs].
  - unfold rldp_layer. unfold rldp_messages in Hc.
    destruct (N.eqb_spec c id_rldp_message_part) as [->|N1]; [exfalso; apply Hc; now left|].
    destruct (N.eqb_spec c id_rldp_confirm) as [->|N2]; [exfalso; apply Hc; right; now left|].
    destruct (N.eqb_spec c id_rldp_complete) as [->|N3]; [exfalso; apply Hc; right; right; now left|]. reflexivity.
  - unfold overlay_message_layer, on_message. destruct (N.eqb_spec c id_overlay_message) as [->|Hn]; [exfalso; apply Hc; now left|reflexivity].
  - now apply Hs.
Qed.

Lemma ask_skips : forall P c q r (s : Subscribers.subscriber layer_error) (after : list (Subscribers.subscriber layer_error)), get_u32 q = Some (c, r) -> forall before i, others P c before ->
  fst (Subscribers.ask i (before ++ s :: after) c q)
  = fst (Subscribers.ask (i + length before) (s :: after) c q)
  /\ snd (Subscribers.ask i (before ++ s :: after) c q)
  = map (fun k => (k, q)) (seq i (length before)) ++ snd (Subscribers.ask (i + length before) (s :: after) c q).
Proof.
  intros P c q r s after Hq. induction before as [|b before IH]; intros i Ho.
  - rewrite Nat.add_0_r. split; reflexivity.
  - apply List.Forall_cons_iff in Ho as [(own & Hs & Hc) Ho]. rewrite <- app_comm_cons.
    assert (E : forall rest, Subscribers.ask i (b :: rest) c q
      = (fst (Subscribers.ask (S i) rest c q), (i, q) :: snd (Subscribers.ask (S i) rest c q))).
    { intros rest. cbn [Subscribers.ask]. rewrite (serves_refuses P b own c q r Hs Hc Hq).
      destruct (Subscribers.ask (S i) rest c q). reflexivity. }
    rewrite E. cbn [fst snd length seq map]. destruct (IH (S i) Ho) as [E1 E2]. rewrite E1, E2.
    replace (i + S (length before))%nat with (S i + length before)%nat by lia. split; reflexivity.
Qed.

Lemma routed : forall P before (s : Subscribers.subscriber layer_error) (after : list (Subscribers.subscriber layer_error)) q c r, get_u32 q = Some (c, r) -> others P c before ->
  (forall q', s c q <> Subscribers.Refused q') ->
  fst (Subscribers.process_query (before ++ s :: after) q)
  = match s c q with
    | Subscribers.Consumed a => Ok (Subscribers.Processed a)
    | Subscribers.Failed e => Err (Subscribers.SubscriberError e)
    | Subscribers.Refused _ => Ok Subscribers.AllRejected
    end
  /\ snd (Subscribers.process_query (before ++ s :: after) q) = map (fun k => (k, q)) (seq 0 (S (length before))).
Proof.
  intros P before s after q c r Hq Ho Hs. unfold Subscribers.process_query. rewrite Hq. cbv beta iota.
  destruct (ask_skips P c q r s after Hq before 0 Ho) as [E1 E2]. rewrite E1, E2. rewrite Nat.add_0_l.
  replace (S (length before)) with (length before + 1)%nat by lia. rewrite seq_app, map_app. rewrite Nat.add_0_l. cbn [seq map].
  cbn [Subscribers.ask]. destruct (s c q) as [a|q'|e] eqn:E; [split; reflexivity| |split; reflexivity]. now destruct (Hs q').
Qed.
Lemma unserved : forall P subs q c r, get_u32 q = Some (c, r) -> others P c subs ->
  fst (Subscribers.process_query subs q) = Ok Subscribers.AllRejected.
Proof.
  intros P subs q c r Hq. unfold Subscribers.process_query. rewrite Hq. cbv beta iota. generalize 0%nat. induction subs as [|b subs IH]; intros i Ho; [reflexivity|].
  apply List.Forall_cons_iff in Ho as [(own & Hs & Hc) Ho]. cbn [Subscribers.ask]. rewrite (serves_refuses P b own c q r Hs Hc Hq).
  pose proof (IH (S i) Ho) as E. destruct (Subscribers.ask (S i) subs c q). exact E.
Qed.
Lemma left_alone : forall P subs q c r, get_u32 q = Some (c, r) -> others P c subs ->
  fst (Subscribers.process_query subs q) = Ok Subscribers.AllRejected /\ answer_of (fst (Subscribers.process_query subs q)) = None.
Proof. intros P subs q c r Hq Ho. rewrite (unserved P subs q c r Hq Ho). split; reflexivity. Qed.

Lemma offer_skips : forall P z checks c data (s : Subscribers.message_subscriber layer_error) (after : list (Subscribers.message_subscriber layer_error)) before i, other_hearers P z checks c before ->
  fst (Subscribers.offer i (before ++ s :: after) c data) = fst (Subscribers.offer (i + length before) (s :: after) c data)
  /\ snd (Subscribers.offer i (before ++ s :: after) c data)
  = seq i (length before) ++ snd (Subscribers.offer (i + length before) (s :: after) c data).
Proof.
  intros P z checks c data s after. induction before as [|b before IH]; intros i Ho.
  - rewrite Nat.add_0_r. split; reflexivity.
  - apply List.Forall_cons_iff in Ho as [(own & Hs & Hc) Ho]. rewrite <- app_comm_cons.
    assert (E : forall rest, Subscribers.offer i (b :: rest) c data
      = (fst (Subscribers.offer (S i) rest c data), i :: snd (Subscribers.offer (S i) rest c data))).
    { intros rest. cbn [Subscribers.offer]. rewrite (hears_refuses P z checks b own c data Hs Hc).
      destruct (Subscribers.offer (S i) rest c data). reflexivity. }
    rewrite E. cbn [fst snd length seq]. destruct (IH (S i) Ho) as [E1 E2]. rewrite E1, E2.
    replace (i + S (length before))%nat with (S i + length before)%nat by lia. split; reflexivity.
Qed.
Lemma heard_by : forall P z checks before (s : Subscribers.message_subscriber layer_error) (after : list (Subscribers.message_subscriber layer_error)) data c r, get_u32 data = Some (c, r) -> other_hearers P z checks c before ->
  s c data <> Ok false ->
  fst (Subscribers.process_message_custom (before ++ s :: after) data)
  = match s c data with Ok b => Ok b | Err e => Err (Subscribers.SubscriberError e) end
  /\ snd (Subscribers.process_message_custom (before ++ s :: after) data) = seq 0 (S (length before)).
Proof.
  intros P z checks before s after data c r Hq Ho Hs. unfold Subscribers.process_message_custom. rewrite Hq. cbv beta iota.
  destruct (offer_skips P z checks c data s after before 0 Ho) as [E1 E2]. rewrite E1, E2. rewrite Nat.add_0_l.
  replace (S (length before)) with (length before + 1)%nat by lia. rewrite seq_app. rewrite Nat.add_0_l. cbn [seq].
  cbn [Subscribers.offer]. destruct (s c data) as [[|]|e] eqn:E; [split; reflexivity| |split; reflexivity]. now destruct Hs.
Qed.

(** ** Applications *)

Lemma typed_trip : forall P, prims_ok P -> forall fuel a b, parties_ok P a b -> forall A (get : parser A) prefix body answer,
  forall s w t, talking P fuel a b s -> trip_ok P fuel a b s w t (make_query prefix body) answer ->
  option_map (typed_answer get) (returned P fuel a b s w t (make_query prefix body) answer)
  = Some (match deserialize get answer with Some x => Ok (Some x) | None => Err tt end).
Proof.
  intros P HP fuel a b Hab A get prefix body answer s w t Hs Ht.
  rewrite (proj2 (proj2 (trip_returns P HP fuel a b Hab s w t _ _ Hs Ht))). reflexivity.
Qed.

Lemma pinged : forall P, prims_ok P -> forall before after v, u64_ok v -> others P id_adnl_ping before ->
  answer_of (fst (Subscribers.process_query (before ++ ping_layer :: after) (make_query None (put_adnl_ping v)))) = Some (put_adnl_pong v)
  /\ deserialize get_adnl_pong (put_adnl_pong v) = Some v.
Proof.
  intros P HP before after v Hv Ho. cbn [make_query].
  assert (Hq : exists r, get_u32 (put_adnl_ping v) = Some (id_adnl_ping, r)).
  { unfold put_adnl_ping. exists (put_u64 v). now apply u32_reads. }
  destruct Hq as [r Hq].
  assert (Hs : ping_layer id_adnl_ping (put_adnl_ping v) = Subscribers.Consumed (Some (put_adnl_pong v))).
  { unfold ping_layer, Subscribers.ping_subscriber. rewrite N.eqb_refl.
    unfold deserialize. rewrite <- (app_nil_r (put_adnl_ping v)). now rewrite (adnl_ping_reads v []). }
  split.
  - rewrite (proj1 (routed P before ping_layer after _ _ r Hq Ho ltac:(intros q' E; rewrite Hs in E; discriminate E))). now rewrite Hs.
  - unfold deserialize. rewrite <- (app_nil_r (put_adnl_pong v)). now rewrite (adnl_pong_reads v []).
Qed.

Lemma overlay_asked : forall P, prims_ok P -> forall o body inner rest react g now picks c answer before after,
  hash_ok (ov_id o) -> get_u32 body = Some (inner, rest) -> inner <> id_overlay_get_random_peers ->
  gr_subscribers g !! ov_id o = Some c -> react c inner body = Some (Some (Some answer)) -> others P id_overlay_query before ->
  let query := overlay_query_sent o body in
  answer_of (fst (Subscribers.process_query (before ++ overlay_layer P react g now picks :: after) query)) = Some answer
  /\ snd (fst (on_query P react g id_overlay_query query now picks)) = [(c, inner, body)]
  /\ forall fuel a b, parties_ok P a b -> forall s w t, talking P fuel a b s -> trip_ok P fuel a b s w t query answer ->
     handed P a b (asked_to P fuel a b s w t query) (other w) (length (qn_handed (qnode_of s (other w)))) (tr_id t) query
     /\ option_map overlay_query_result (returned P fuel a b s w t query answer) = Some (Ok (Some answer)).
Proof.
  intros P HP o body inner rest react g now picks c answer before after Hid Hb Hn Hc Hr Ho query.
  assert (Eq : query = put_overlay_query (ov_id o) ++ body) by reflexivity.
  assert (Hq : get_u32 query = Some (id_overlay_query, put_hash (ov_id o) ++ body)).
  { unfold query, overlay_query_sent, make_query. rewrite <- app_assoc. now apply u32_reads. }
  pose proof (proj1 (queries P react g (ov_id o) body inner rest now picks Hid Hb) Hn) as [_ H2].
  rewrite <- Eq in H2. rewrite Hc, Hr in H2.
  assert (Hs : overlay_layer P react g now picks id_overlay_query query = Subscribers.Consumed (Some answer)).
  { unfold overlay_layer. now rewrite H2. }
  split; [|split].
  - rewrite (proj1 (routed P before _ after _ _ _ Hq Ho ltac:(intros q' E; rewrite Hs in E; discriminate E))). now rewrite Hs.
  - now rewrite H2.
  - intros fuel a b Hab s w t Hs' Ht. destruct (trip_returns P HP fuel a b Hab s w t _ _ Hs' Ht) as (_ & H & ->). split; [exact H|reflexivity].
Qed.

Lemma dht_asked : forall P, prims_ok P -> forall e d query c r answer before after,
  get_u32 query = Some (c, r) -> others P c before -> fst (dht_receive P e d query) = Ok (Some answer) ->
  answer_of (fst (Subscribers.process_query (before ++ dht_layer P e d :: after) query)) = Some answer
  /\ (forall fuel a b, parties_ok P a b -> carried P fuel a b query answer).
Proof.
  intros P HP e d query c r answer before after Hq Ho Hd.
  assert (Hs : dht_layer P e d c query = Subscribers.Consumed (Some answer)) by (rewrite (dht_layer_receive P e d c query r Hq); now rewrite Hd).
  split.
  - rewrite (proj1 (routed P before _ after _ _ _ Hq Ho ltac:(intros q' E; rewrite Hs in E; discriminate E))). now rewrite Hs.
  - intros fuel a b Hab s w t Hs' Ht. exact (proj2 (trip_returns P HP fuel a b Hab s w t _ _ Hs' Ht)).
Qed.

Lemma layers_apart :
  List.NoDup (dht_queries ++ [id_overlay_query; id_adnl_ping]) /\ List.NoDup (rldp_messages ++ [id_overlay_message]).
Proof. split; repeat constructor; cbn; intuition discriminate. Qed.

Lemma abandoned_none : forall s q, (q < length (q_list s))%nat -> query_result s q = None ->
  query_result (query_run s [EGiveUp q; EDrop q]) q = Some None.
Proof.
  intros s q Hq Hn. destruct (q_list s !! q) as [[id ph]|] eqn:Hl; [|apply lookup_ge_None in Hl; lia].
  assert (Hdrop : forall t id', q_list t !! q = Some (id', Leaving) -> query_result (query_step t (EDrop q)) q = Some None).
  { intros t id' Ht. cbn [query_step]. rewrite Ht. unfold query_result. cbn [q_list]. rewrite QueryFacts.set_phase_lookup.
    assert (Hc : exists ph', close (q_list t) (q_table t !! id') !! q = Some (id', ph')).
    { destruct (q_table t !! id') as [j|]; cbn [close]; [|eauto].
      destruct (q_list t !! j) as [[? []]|]; eauto. rewrite QueryFacts.set_phase_lookup, Ht. cbn [fmap option_fmap option_map fst].
      destruct (q =? j)%nat; eauto. }
    destruct Hc as [ph' ->]. cbn. now rewrite Nat.eqb_refl. }
  unfold query_run. cbn [fold_left]. unfold query_result in Hn. rewrite Hl in Hn.
  destruct ph as [|an| | |r]; [| | | |discriminate Hn].
  all: eapply (Hdrop _ id); cbn [query_step]; rewrite Hl; cbn [q_list]; try exact Hl.
  all: rewrite QueryFacts.set_phase_lookup, Hl; cbn; now rewrite Nat.eqb_refl.
Qed.
Lemma timed_out : forall P, prims_ok P -> forall fuel a b, parties_ok P a b -> forall A (get : parser A) s w q,
  talking P fuel a b s -> (q < length (asked_by s w))%nat -> result s w q = None ->
  option_map (typed_answer get) (result (abandons s w q) w q) = Some (Ok None).
Proof.
  intros P HP fuel a b Hab A get s w q Hs Hq Hn.
  assert (E : result (abandons s w q) w q = Some None).
  { unfold result, abandons. rewrite becomes_same. unfold query_returned, query_abandon. cbn [qn_queries].
    apply abandoned_none; [|exact Hn].
    destruct (talk_invariant P fuel a b HP Hab s Hs) as [Hsides Hids _ _ _ _]. destruct (Hsides w) as (evs & [Hrun Hasked _ _ _ _ _ _]).
    rewrite (list_length _ evs); [|rewrite Hasked; apply asked_by_ids; exact Hids|exact Hrun].
    rewrite Hasked, map_length. exact Hq. }
  rewrite E. reflexivity.
Qed.

Lemma timeout_least : forall min_timeout default roundtrip,
  let t := compute_query_timeout min_timeout default roundtrip in
  let estimate := match roundtrip with Some r => r | None => default end in
  min_timeout <= t /\ estimate <= t /\ (forall t', min_timeout <= t' -> estimate <= t' -> t <= t')
  /\ query_waits default (Some t) = t /\ query_waits default None = default.
Proof. intros. unfold t, compute_query_timeout, query_waits. fold estimate. repeat split; lia. Qed.

Lemma consume_own : forall f P e d c q, In c dht_queries -> fst (consume_query f P e d c q) <> Ok None.
Proof.
  intros f P e d c q Hc. unfold dht_queries in Hc. destruct f; cbn [consume_query].
  all: destruct (N.eqb_spec c id_dht_ping); [destruct (deserialize get_dht_query q) as [[]|]; discriminate|].
  all: destruct (N.eqb_spec c id_dht_find_node); [destruct (deserialize get_dht_query q) as [[]|]; discriminate|].
  all: destruct (N.eqb_spec c id_dht_find_value);
    [destruct (deserialize get_dht_query q) as [[]|]; try discriminate; destruct (process_find_value _ _ _ _ _); discriminate|].
  all: destruct (N.eqb_spec c id_dht_get_signed_address_list); [discriminate|].
  all: destruct (N.eqb_spec c id_dht_store);
    [destruct (deserialize get_dht_query q) as [[]|]; try discriminate; destruct (DhtStorage.storage_insert _ _ _ _ _ _ _) as [[]]; discriminate|].
  all: destruct (N.eqb_spec c id_dht_query); [|cbn [In] in Hc; intuition congruence].
  all: destruct (get_dht_query q) as [[[] rest]|]; try discriminate.
  all: destruct (get_u32 rest) as [[]|]; try discriminate.
  all: destruct (add_dht_peer _ _ _ _ _) as [[]]; try discriminate.
  destruct (consume_query _ _ _ _ _ _) as [[[]|]]; discriminate.
Qed.
Lemma own_queries : forall P,
  (forall e d c q q', In c dht_queries -> dht_layer P e d c q <> Subscribers.Refused q')
  /\ (forall react g now picks q q', overlay_layer P react g now picks id_overlay_query q <> Subscribers.Refused q')
  /\ (forall q q', ping_layer id_adnl_ping q <> Subscribers.Refused q').
Proof.
  intros P. split; [|split].
  - intros e d c q q' Hc. unfold dht_layer, try_consume_query. pose proof (consume_own (length q) P e d c q Hc) as H.
    destruct (fst (consume_query _ _ _ _ _ _)) as [[]|]; [discriminate|now destruct H|discriminate].
  - intros react g now picks q q'. unfold overlay_layer, on_query. rewrite N.eqb_refl. cbn [negb].
    destruct (get_hash (skipn 4 q)) as [[id r]|]; [|discriminate]. destruct (get_u32 r) as [[inner r']|]; [|discriminate].
    destruct (inner =? id_overlay_get_random_peers).
    + destruct (get_get_random_peers r) as [[nodes ?]|]; [|discriminate]. destruct (gr_overlays g !! id) as [i|]; [|discriminate].
      destruct (process_get_random_peers P (in_peers i) nodes now picks). discriminate.
    + destruct (gr_subscribers g !! id) as [c|]; [|discriminate]. destruct (react c inner r) as [[a|]|]; discriminate.
  - intros q q'. unfold ping_layer, Subscribers.ping_subscriber. rewrite N.eqb_refl. destruct (deserialize get_adnl_ping q); discriminate.
Qed.
Lemma own_messages : forall P z checks,
  (forall handle c data, In c rldp_messages -> rldp_layer handle c data
     = match deserialize get_message_part data with Some m => if handle m then Ok true else Err AppFailed | None => Err BadPart end)
  /\ (forall g peer picks data, overlay_message_layer P z checks g peer picks id_overlay_message data <> Ok false).
Proof.
  intros P z checks. split.
  - intros handle c data Hc. unfold rldp_layer.
    destruct Hc as [<-|[<-|[<-|[]]]]; reflexivity.
  - intros g peer picks data. unfold overlay_message_layer, on_message. rewrite N.eqb_refl. cbn [negb].
    destruct (get_hash (skipn 4 data)) as [[id r]|]; [|discriminate]. destruct (get_broadcast r) as [[b ?]|]; [|discriminate].
    destruct (gr_overlays g !! id) as [i|]; [|discriminate]. destruct b; try discriminate.
    + destruct (Broadcast.receive_broadcast _ _ _ _ _ _ _ _ _) as [x s]. destruct x; discriminate.
    + destruct (Broadcast.receive_fec _ _ _ _ _ _ _ _) as [x s]. destruct x; discriminate.
Qed.
