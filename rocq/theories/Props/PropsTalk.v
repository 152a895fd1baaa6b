(** C72: queries between two nodes, over a network that loses, repeats, delays and reorders. *)
From stdpp Require Import gmap.
From Coq Require Import NArith.
From Verif.Base Require Import Bytes Res.
From Verif.Model Require Import Crypto ProtoAdnl Peer AdnlNode Queries NodeQueries.
From Verif.Spec Require Import CryptoSpec PairSpec TalkSpec.
From Verif.Proof Require Import TalkFacts ChannelFacts.
Open Scope N_scope.

(** C72: the answer a query returns was given by a subscriber of the other node, for exactly this
    query. *)
Theorem c72_genuine : forall P, prims_ok P -> forall fuel a b, parties_ok P a b ->
  forall s w q answer, talking P fuel a b s -> result s w q = Some (Some answer) ->
  exists id query k, nth_error (asked_by s w) q = Some (id, query)
    /\ handed P a b s (other w) k id query /\ In (other w, k, answer) (tk_replied s).
Proof. intros P HP fuel a b Hab. exact (answers_genuine P fuel a b HP Hab). Qed.
Print Assumptions c72_genuine.

(** C72: subscribers are handed nothing but the queries of the other node, with the right names. *)
Theorem c72_handed : forall P, prims_ok P -> forall fuel a b, parties_ok P a b ->
  forall s w k entry, talking P fuel a b s -> nth_error (qn_handed (qnode_of s w)) k = Some entry ->
  exists id query, entry = (id_of_who P a b w, id_of_who P a b (other w), id, query)
    /\ In (other w, id, query) (tk_asked s).
Proof. intros P HP fuel a b Hab. exact (handed_asked P fuel a b HP Hab). Qed.
Print Assumptions c72_handed.

(** C72: and each query once, if the nodes remember packets and fewer than 256 were sent. *)
Theorem c72_once : forall P, prims_ok P -> forall fuel a b, parties_ok P a b -> both_remember a b ->
  forall s w, talking P fuel a b s -> (length (tk_letters s) < 256)%nat ->
  List.NoDup (map (fun e => snd (fst e)) (qn_handed (qnode_of s w))).
Proof. intros P HP fuel a b Hab. exact (handed_once P fuel a b HP Hab). Qed.
Print Assumptions c72_once.

(** C72: whatever happened meanwhile, when the answer to a query that still waits arrives, the query
    returns it, unless another one arrived first. *)
Theorem c72_answer_arrives : forall P, prims_ok P -> forall fuel a b, parties_ok P a b ->
  forall s w q id query i l x answer, talking P fuel a b s ->
  nth_error (asked_by s w) q = Some (id, query) -> result s w q = None ->
  may_get a b (pair_of s) i l (rv_now x) -> ~ In i (tk_seen s) ->
  lt_from l = other w -> lt_message l = MAnswer id answer ->
  exists answer', result (reads (receives P fuel s i l x) w q) w q = Some (Some answer')
    /\ (~ answer_seen s w id -> answer' = answer).
Proof. intros P HP fuel a b Hab. exact (answer_arrives P fuel a b HP Hab). Qed.
Print Assumptions c72_answer_arrives.

(** C72: in every state of the two nodes a query that arrives, is answered, and whose answer
    arrives, returns that answer. *)
Theorem c72_round_trip : forall P, prims_ok P -> forall fuel a b, parties_ok P a b ->
  forall s w id query answer x1 y1 x2 y2, talking P fuel a b s ->
  let v := other w in
  let q := length (asked_by s w) in
  let k := length (qn_handed (qnode_of s v)) in
  let s1 := asks P a b s w id query x1 in
  let s2 := last_arrives P fuel s1 y1 in
  let s3 := replies P a b s2 v k id answer x2 in
  let s4 := last_arrives P fuel s3 y2 in
  ~ In id (map (fun e => snd (fst e)) (tk_asked s)) ->
  may_say_to P a b s w (MQuery id query) x1 -> last_timely a b s1 y1 ->
  may_say_to P a b s2 v (MAnswer id answer) x2 -> last_timely a b s3 y2 ->
  talking P fuel a b s4 /\ handed P a b s2 v k id query /\ result (reads s4 w q) w q = Some (Some answer).
Proof. intros P HP fuel a b Hab. exact (round_trip P fuel a b HP Hab). Qed.
Print Assumptions c72_round_trip.

Example c72_example :
  prims_ok light /\ parties_ok light sample_alice sample_bob /\ both_remember sample_alice sample_bob
  /\ talking light 0 sample_alice sample_bob (sample_talk7 light)
  /\ length (tk_letters (sample_talk7 light)) = 3%nat
  /\ result (sample_talk7 light) Alice 0 = Some (Some [3]) /\ result (sample_talk7 light) Alice 1 = Some None
  /\ map (fun e => snd (fst e)) (qn_handed (tk_bob (sample_talk7 light))) = [sample_bytes 3].
Proof.
  split; [exact light_ok|]. split; [exact PairFacts.sample_parties|]. split; [split; reflexivity|].
  split; [exact (proj1 sample_talking)|].
  split; [vm_compute; reflexivity|]. split; [vm_compute; reflexivity|]. split; vm_compute; reflexivity.
Qed.
(** The hypotheses of the round trip, from the start. *)
Example c72_round_trip_example :
  may_say_to light sample_alice sample_bob (talk_start light sample_alice sample_bob) Alice (MQuery (sample_bytes 3) [2]) (sample_sending 1000)
  /\ last_timely sample_alice sample_bob (sample_talk1 light) (sample_receiving 1001)
  /\ may_say_to light sample_alice sample_bob (sample_talk2 light) Bob (MAnswer (sample_bytes 3) [3]) (sample_sending 1002)
  /\ last_timely sample_alice sample_bob (sample_talk3 light) (sample_receiving 1003)
  /\ talking light 0 sample_alice sample_bob (sample_talk4 light).
Proof.
  destruct sample_may as (M1 & M2 & _). destruct sample_times as (T1 & T3 & _).
  split; [exact M1|]. split; [exact T1|]. split; [exact M2|]. split; [exact T3|]. exact (proj2 sample_talking).
Qed.

(** C72: a query that cannot be sent leaves nothing behind. *)
Theorem c72_failed : forall P x now local peer id query priority rs e,
  q_table (qn_queries x) !! id = None ->
  fst (query_start P x now local peer id query priority rs) = Err e ->
  let x' := snd (query_start P x now local peer id query priority rs) in
  q_table (qn_queries x') = q_table (qn_queries x) /\ qn_node x' = qn_node x /\ qn_handed x' = qn_handed x
  /\ q_sent (qn_queries x') = q_sent (qn_queries x).
Proof. exact failed_start. Qed.
Print Assumptions c72_failed.
Example c72_failed_example :
  let x := mk_qnode (node_new (mk_sockaddr 0 0) 0 (mk_options 60 30 1000 true true false None true) None ∅) queries_new [] in
  fst (query_start light x 0 [1] [2] [3] [4] false (fun _ => mk_rnd [] [])) = Err PeersNotFound
  /\ q_table (qn_queries x) !! [3] = None.
Proof. split; [vm_compute; reflexivity|reflexivity]. Qed.
