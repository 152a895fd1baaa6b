(** Peer exchange over the network of two nodes. *)
From stdpp Require Import gmap.
From Coq Require Import NArith Lia.
From Coq Require Import ZifyBool ZifyNat ZifyN.
From Verif.Base Require Import Bytes BytesFacts Res.
From Verif.Model Require Import Crypto Tl Scheme ProtoAdnl ProtoOverlay Peer AdnlNode PeersSet DhtStorage OverlayPeers Broadcast OverlayNode OverlayExchange Queries NodeQueries.
From Verif.Model Require Subscribers.
From Verif.Spec Require Import Codec CryptoSpec NodeSpec PeersSetSpec DhtSpec OverlaySpec OverlayExchangeSpec PairSpec TalkSpec.
From Verif.Proof Require Import TlFacts OverlayExchangeFacts TalkFacts.
Open Scope N_scope.

Lemma exchange_fits : forall P id key o now picks qid, prims_ok P -> hash_ok id -> u32_ok now -> member_of P id key o -> hash_ok qid ->
  small_payload (MQuery qid (exchange_query P o now picks))
  /\ small_payload (MAnswer qid (put_ov_nodes_boxed (prepare_random_peers P o now picks))).
Proof.
  intros P id key o now picks qid HP Hid Hnow Hm Hq.
  pose proof (query_size P HP id key o now picks Hm Hid Hnow) as H1.
  pose proof (answer_size P HP id key o now picks Hm Hid Hnow) as H2.
  unfold small_payload, message_ok, blob_ok. repeat split; try exact Hq; lia.
Qed.

Lemma exchange_network : forall P, prims_ok P -> forall fuel a b, parties_ok P a b ->
  forall s w react gb id oa ib nowa nowb pa pb existing qid x1 y1 x2 y2, talking P fuel a b s ->
  let v := other w in
  hash_ok id -> u32_ok nowa -> u32_ok nowb ->
  member_of P id (pa_secret (pick_who w a b)) oa -> gr_overlays gb !! id = Some ib ->
  member_of P id (pa_secret (pick_who v a b)) (in_peers ib) ->
  sample_of (ps_len (ov_neighbours oa)) 4 pa -> sample_of (ps_len (ov_neighbours (in_peers ib))) 4 pb ->
  let query := exchange_query P oa nowa pa in
  exists answer, fst (on_query P react gb id_overlay_query query nowb pb) = (Subscribers.Consumed (Some answer), [])
  /\ let q := length (asked_by s w) in
     let k := length (qn_handed (qnode_of s v)) in
     let s1 := asks P a b s w qid query x1 in
     let s2 := last_arrives P fuel s1 y1 in
     let s3 := replies P a b s2 v k qid answer x2 in
     let s4 := last_arrives P fuel s3 y2 in
     ~ In qid (map (fun e => snd (fst e)) (tk_asked s)) ->
     may_say_to P a b s w (MQuery qid query) x1 -> last_timely a b s1 y1 ->
     may_say_to P a b s2 v (MAnswer qid answer) x2 -> last_timely a b s3 y2 ->
     handed P a b s2 v k qid query /\ (exists rest, get_u32 query = Some (id_overlay_query, rest))
     /\ exists data peers, result (reads s4 w q) w q = Some data /\ exchange_result P oa existing data = Ok (Some peers)
        /\ (existing (id_of_who P a b v) = false -> In (id_of_who P a b v) peers).
Proof.
  intros P HP fuel a b Hab s w react gb id oa ib nowa nowb pa pb existing qid x1 y1 x2 y2 Hs v Hid Hna Hnb Hma Hgb Hmb Hpa Hpb query.
  pose proof (exchange_peers P react gb id _ _ oa ib nowa nowb pa pb existing HP Hid Hna Hnb Hma Hgb Hmb Hpa Hpb) as H. cbv zeta in H.
  fold query in H. destruct (on_query P react gb id_overlay_query query nowb pb) as [[reply asked] gb'].
  destruct H as (answer & peers & ob' & -> & -> & Hres & _ & Hin & _). exists answer. split; [reflexivity|].
  cbv zeta. intros Hfresh M1 T1 M2 T2.
  destruct (round_trip P fuel a b HP Hab s w qid query answer x1 y1 x2 y2 Hs Hfresh M1 T1 M2 T2) as (_ & Hh & Hr).
  split; [exact Hh|]. split.
  { unfold query, exchange_query, overlay_query_bytes, put_overlay_query. rewrite <- !app_assoc, u32_reads by reflexivity. eexists. reflexivity. }
  exists (Some answer), peers. split; [exact Hr|]. split; [exact Hres|]. intros He. apply Hin. split; [exact He|]. left.
  rewrite (member_id_of P _ _ _ Hmb), (member_key_of P _ _ _ Hmb), (member_key_of P _ _ _ Hma). split; [reflexivity|].
  intros Hk. destruct Hab as (_ & _ & _ & Hnd). apply NoDup_cons_iff in Hnd as [Hnd _]. apply Hnd. left.
  unfold party_id, party_key. unfold v in Hk. destruct w; cbn [other pick_who] in Hk; now rewrite Hk.
Qed.
