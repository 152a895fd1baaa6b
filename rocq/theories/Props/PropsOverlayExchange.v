(** C81: members of an overlay exchange the peers they know. *)
From stdpp Require Import gmap.
From Coq Require Import NArith.
From Verif.Base Require Import Bytes Res.
From Verif.Model Require Import Crypto Tl Scheme ProtoAdnl ProtoOverlay Peer AdnlNode PeersSet OverlayPeers Broadcast OverlayNode OverlayExchange Queries NodeQueries.
From Verif.Model Require Subscribers.
From Verif.Spec Require Import Codec CryptoSpec NodeSpec PeersSetSpec Sample DhtSpec DhtSample OverlaySpec OverlaySample PairSpec TalkSpec
  OverlayExchangeSpec OverlayExchangeSample.
From Verif.Proof Require Import OverlayExchangeFacts OverlayExchangeNet OverlayExchangeSamples.
Open Scope N_scope.

(** C81: two members, whatever happened to them before.  The one that asks learns exactly the other one
    and those of its chosen neighbours it has a record of, each once, without itself and without those
    it asked to leave out.  The other one keeps the records it was told, or newer ones of the same
    nodes, and nothing else is changed. *)
Theorem c81_exchange : forall P react gb id ka kb oa ib nowa nowb pa pb existing,
  prims_ok P -> hash_ok id -> u32_ok nowa -> u32_ok nowb ->
  member_of P id ka oa -> gr_overlays gb !! id = Some ib -> member_of P id kb (in_peers ib) ->
  sample_of (ps_len (ov_neighbours oa)) 4 pa -> sample_of (ps_len (ov_neighbours (in_peers ib))) 4 pb ->
  let ob := in_peers ib in
  let '(reply, asked, gb') := on_query P react gb id_overlay_query (exchange_query P oa nowa pa) nowb pb in
  exists answer peers ob',
    reply = Subscribers.Consumed (Some answer) /\ asked = []
    /\ exchange_result P oa existing (Some answer) = Ok (Some peers)
    /\ List.NoDup peers
    /\ (forall p, In p peers <-> existing p = false
         /\ ((p = member_id P ob /\ member_key P ob <> member_key P oa)
             \/ (In p (chosen ob pb) /\ exists n key, ov_nodes ob !! p = Some n /\ on_id n = PkEd25519 key /\ key <> member_key P oa)))
    /\ gb' = set_instance gb id (mk_instance ob' (in_options ib) (in_broadcasts ib))
    /\ member_of P id kb ob'
    /\ (forall n, told_by P oa nowa pa n -> on_id n <> PkEd25519 (member_key P ob) ->
         exists newest, fst (take_new_peers ob') !! put_public_key (on_id n) = Some newest
           /\ signed_node P id newest /\ on_id newest = on_id n /\ on_version n <= on_version newest)
    /\ (forall k n, fst (take_new_peers ob') !! k = Some n -> fst (take_new_peers ob) !! k = Some n \/ told_by P oa nowa pa n).
Proof. exact exchange_peers. Qed.
Print Assumptions c81_exchange.

(** Node 5, which knows 2, asks 3, which knows 2 and 4. *)
Example c81_exchange_example :
  hash_ok t_overlay /\ member_of brief t_overlay (secret_of 5) x_asker
  /\ (exists ib, gr_overlays x_asked !! t_overlay = Some ib /\ member_of brief t_overlay (secret_of 3) (in_peers ib)
      /\ sample_of (ps_len (ov_neighbours (in_peers ib))) 4 [1; 0]%nat)
  /\ sample_of (ps_len (ov_neighbours x_asker)) 4 [0]%nat
  /\ exists answer,
     fst (on_query brief x_react x_asked id_overlay_query (exchange_query brief x_asker 1000 [0]%nat) 1001 [1; 0]%nat)
     = (Subscribers.Consumed (Some answer), [])
     /\ exchange_result brief x_asker (known_filter x_asker) (Some answer) = Ok (Some [t_id 3; t_id 4]).
Proof. exact sample_exchange. Qed.

(** C81: a member that leaves out the peers it knows learns exactly peers that it did not know; no answer
    is no error, and only an answer that cannot be read is one. *)
Theorem c81_news : forall P id key o answer, member_of P id key o ->
  (exchange_result P o (known_filter o) answer = Err tt <->
   exists data, answer = Some data /\ deserialize get_ov_nodes_boxed data = None)
  /\ (exchange_result P o (known_filter o) answer = Ok None <-> answer = None)
  /\ (forall peers p, exchange_result P o (known_filter o) answer = Ok (Some peers) -> 
      (In p peers <->
       ~ In p (ps_members (ov_known o))
       /\ exists data nodes n key, answer = Some data /\ deserialize get_ov_nodes_boxed data = Some nodes /\ In n nodes
          /\ signed_node P id n /\ on_id n = PkEd25519 key /\ p = node_id P key /\ key <> member_key P o)).
Proof. exact exchange_news. Qed.
Print Assumptions c81_news.

(** C81: query and answer fit into one packet. *)
Theorem c81_fits : forall P id key o now picks qid, prims_ok P -> hash_ok id -> u32_ok now -> member_of P id key o -> hash_ok qid ->
  small_payload (MQuery qid (exchange_query P o now picks))
  /\ small_payload (MAnswer qid (put_ov_nodes_boxed (prepare_random_peers P o now picks))).
Proof. exact exchange_fits. Qed.
Print Assumptions c81_fits.

(** C81: over the network: when the letters with the query and with the answer arrive, the exchange
    ends with the peers of the answer, among them the node that was asked. *)
Theorem c81_network : forall P, prims_ok P -> forall fuel a b, parties_ok P a b ->
  forall s w react gb id oa ib nowa nowb pa pb existing qid x1 y1 x2 y2, talking P fuel a b s ->
  let v := other w in
  hash_ok id -> u32_ok nowa -> u32_ok nowb ->
  member_of P id (pa_secret (pick_who w a b)) oa -> gr_overlays gb !! id = Some ib ->
  member_of P id (pa_secret (pick_who v a b)) (in_peers ib) ->
  sample_of (ps_len (ov_neighbours oa)) 4 pa -> sample_of (ps_len (ov_neighbours (in_peers ib))) 4 pb ->
  let query := exchange_query P oa nowa pa in
  exists answer, fst (on_query P react gb id_overlay_query query nowb pb) = (Subscribers.Consumed (Some answer), [])
  /\ let q := length (asked_by s w) in
     let k := length (qn_handed (qnode_of s v)) in
     let s1 := asks P a b s w qid query x1 in
     let s2 := last_arrives P fuel s1 y1 in
     let s3 := replies P a b s2 v k qid answer x2 in
     let s4 := last_arrives P fuel s3 y2 in
     ~ In qid (map (fun e => snd (fst e)) (tk_asked s)) ->
     may_say_to P a b s w (MQuery qid query) x1 -> last_timely a b s1 y1 ->
     may_say_to P a b s2 v (MAnswer qid answer) x2 -> last_timely a b s3 y2 ->
     handed P a b s2 v k qid query /\ (exists rest, get_u32 query = Some (id_overlay_query, rest))
     /\ exists data peers, result (reads s4 w q) w q = Some data /\ exchange_result P oa existing data = Ok (Some peers)
        /\ (existing (id_of_who P a b v) = false -> In (id_of_who P a b v) peers).
Proof. exact exchange_network. Qed.
Print Assumptions c81_network.

Example c81_network_example :
  member_of light x_overlay (pa_secret sample_alice) x_alice
  /\ (exists ib, gr_overlays x_bob !! x_overlay = Some ib /\ member_of light x_overlay (pa_secret sample_bob) (in_peers ib))
  /\ fst (on_query light x_react x_bob id_overlay_query x_query 1001 []) = (Subscribers.Consumed (Some x_answer), [])
  /\ may_say_to light sample_alice sample_bob (talk_start light sample_alice sample_bob) Alice (MQuery (sample_bytes 3) x_query) (sample_sending 1000)
  /\ last_timely sample_alice sample_bob x_talk1 (sample_receiving 1001)
  /\ may_say_to light sample_alice sample_bob x_talk2 Bob (MAnswer (sample_bytes 3) x_answer) (sample_sending 1002)
  /\ last_timely sample_alice sample_bob x_talk3 (sample_receiving 1003).
Proof. exact sample_network. Qed.

(** C81: a peer whose record was received can be added with it; it is then active, and if there is room
    among the neighbours, others may be told about it. *)
Theorem c81_introduced : forall P id kb ob adnl addr fresh k n,
  member_of P id kb ob -> fst (take_new_peers ob) !! k = Some n ->
  exists key, on_id n = PkEd25519 key
  /\ (node_id P key <> member_id P ob -> acceptable adnl (member_id P ob) (node_id P key) addr ->
      let '(r, ob', _) := add_public_peer P (snd (take_new_peers ob)) adnl addr n fresh in
      r = Ok (Some (node_id P key)) /\ is_active_public_peer ob' (node_id P key) = true
      /\ (ov_node_ok n -> member_of P id kb ob')
      /\ (exists kept, ov_nodes ob' !! node_id P key = Some kept /\ record_of P id (member_id P ob) (node_id P key) kept /\ on_version n <= on_version kept)
      /\ (ps_is_full (ov_neighbours ob) = false ->
          exists picks, sample_of (ps_len (ov_neighbours ob')) 4 picks /\ In (node_id P key) (chosen ob' picks))).
Proof. exact introduced. Qed.
Print Assumptions c81_introduced.

Example c81_introduced_example :
  fst (take_new_peers t_ov) !! put_public_key (PkEd25519 (t_key 5)) = Some (t_member 5 4)
  /\ acceptable (t_adnl 3) (t_id 3) (t_id 5) (addr_of 5)
  /\ (let ov := overlay_run brief (overlay_new (secret_of 3) t_overlay [] 2 []) [OvGetRandomPeers [t_member 5 4] 1000 []] in
      ps_is_full (ov_neighbours ov) = false /\ is_Some (fst (take_new_peers ov) !! put_public_key (PkEd25519 (t_key 5)))).
Proof. exact sample_introduced. Qed.
