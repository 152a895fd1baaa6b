(** C75, C76, C77: RLDP queries between two nodes, over a network that loses, repeats, delays and
    reorders, with all tasks of both nodes interleaved. *)
From stdpp Require Import gmap.
From Coq Require Import NArith.
From Verif.Base Require Import Bytes Res.
From Verif.Model Require Import Tl ProtoRldp Compression Subscribers Fec RldpTransfer RldpQuery RldpNode.
From Verif.Spec Require Import Codec CompressionSpec FecSpec RldpSpec RldpExchangeSpec RldpPairSpec RldpPairSample.
From Verif.Proof Require Import CompressionFacts FecFacts RldpExchange RldpPairFacts RldpLiveFacts RldpOnceFacts RldpReceivedFacts RldpPairWitness.
Open Scope N_scope.

(** C75: whatever both nodes did before and do meanwhile, the answer that a query returns is the one
    that the subscribers of the other node gave, and they gave it for this query. *)
Theorem c75_genuine : forall E (w : rldp_world) i qid now p given (pre post : list (pair_event E)),
  world_ok w -> hash_ok i -> hash_ok qid -> u64_ok (ro_max_answer (rw_alice w)) ->
  blob_ok (sent_payload (rw_zstd w) (ro_force (rw_alice w)) p) ->
  (forall a, given = Ok (Processed (Some a)) -> blob_ok (on_the_wire w p a)) ->
  let s0 := pair_run w rldp_pair_new pre in
  let k := length (rn_queries (rp_alice s0)) in
  let s1 := pair_step (E:=E) w s0 (AtAlice (NQuery (rw_bob_id w) i qid now p)) in
  let s2 := pair_run w s1 post in
  private_run w i rldp_pair_new pre -> private_run w i s1 post -> bob_gives (as_asked w p) given post ->
  forall a, alice_result w s2 k = Some (RAnswered a) ->
  exists a0, given = Ok (Processed (Some a0)) /\ a = as_answered w p a0 /\ bob_asked w s2 i (as_asked w p).
Proof. exact rldp_end_to_end. Qed.
Print Assumptions c75_genuine.

(** C75: and payloads that do not look like compressed data are seen exactly as they were given. *)
Theorem c75_exact : forall E (w : rldp_world) i qid now p given (pre post : list (pair_event E)),
  world_ok w -> zstd_ok (rw_zstd w) -> hash_ok i -> hash_ok qid -> u64_ok (ro_max_answer (rw_alice w)) ->
  blob_ok (sent_payload (rw_zstd w) (ro_force (rw_alice w)) p) ->
  bytes_ok p = true -> N.of_nat (length p) < 2 ^ 32 -> decompress (rw_zstd w) p = None ->
  (forall a, given = Ok (Processed (Some a)) -> blob_ok (on_the_wire w p a)
     /\ bytes_ok a = true /\ N.of_nat (length a) < 2 ^ 32 /\ decompress (rw_zstd w) a = None) ->
  let s0 := pair_run w rldp_pair_new pre in
  let k := length (rn_queries (rp_alice s0)) in
  let s1 := pair_step (E:=E) w s0 (AtAlice (NQuery (rw_bob_id w) i qid now p)) in
  let s2 := pair_run w s1 post in
  private_run w i rldp_pair_new pre -> private_run w i s1 post -> bob_gives p given post ->
  forall a, alice_result w s2 k = Some (RAnswered a) -> given = Ok (Processed (Some a)) /\ bob_asked w s2 i p.
Proof. exact rldp_exactly. Qed.
Print Assumptions c75_exact.

(** C75: after every history, a query whose sizes are within the limits can be answered: there is a way
    for both nodes and the network to go on in which it returns the answer of the subscribers. *)
Theorem c75_answered : forall E (w : rldp_world) i qid now p a (subs : list (subscriber E)) (pre : list (pair_event E)),
  world_ok w -> hash_ok i -> hash_ok qid -> u64_ok (ro_max_answer (rw_alice w)) ->
  blob_ok (sent_payload (rw_zstd w) (ro_force (rw_alice w)) p) -> blob_ok (on_the_wire w p a) ->
  fst (process_query subs (as_asked w p)) = Ok (Processed (Some a)) ->
  N.of_nat (length (sent_payload (rw_zstd w) (ro_force (rw_alice w)) p)) + 55 <= ro_max_answer (rw_bob w) ->
  N.of_nat (length (on_the_wire w p a)) + 43 <= ro_max_answer (rw_alice w) ->
  private_run w i rldp_pair_new pre ->
  let s0 := pair_run w rldp_pair_new pre in
  let k := length (rn_queries (rp_alice s0)) in
  let s1 := pair_step (E:=E) w s0 (AtAlice (NQuery (rw_bob_id w) i qid now p)) in
  exists cs, forallb plain cs = true
    /\ (forall k subs', In (Bob (NAnswerTurn k subs')) cs -> subs' = subs)
    /\ alice_result w (pair_run w s1 (events_of w s1 cs)) k = Some (RAnswered (as_answered w p a)).
Proof. exact rldp_can_answer. Qed.
Print Assumptions c75_answered.

(** C75: it is necessary that nobody else knows the ids: a third node that does answers instead. *)
Theorem c75_anyone_refuted :
  let s1 := t_asked t_short in
  let evs := events_of t_world s1 (t_forged [6; 6]) in
  alice_result t_world (pair_run t_world s1 evs) 0 = Some (RAnswered [6; 6])
  /\ rn_asked (rp_bob (pair_run t_world s1 evs)) = [].
Proof. exact answered_by_another. Qed.
Print Assumptions c75_anyone_refuted.

Example c75_example :
  let s1 := t_asked t_short in
  let evs := events_of t_world s1 (t_answered [9; 9]) in
  world_ok t_world /\ zstd_ok toy_zstd /\ hash_ok t_transfer /\ hash_ok t_query_id
  /\ private_run t_world t_transfer s1 evs
  /\ bob_gives t_short (Ok (Processed (Some [9; 9]))) evs
  /\ as_asked t_world t_short = t_short /\ as_answered t_world t_short [9; 9] = [9; 9]
  /\ alice_result t_world (pair_run t_world s1 evs) 0 = Some (RAnswered [9; 9]).
Proof.
  cbv zeta. split; [exact t_world_ok|]. split; [exact toy_zstd_ok|]. split; [reflexivity|]. split; [reflexivity|].
  split; [apply plain_private; vm_compute; reflexivity|]. split; [|split; [|split]; vm_compute; reflexivity].
  intros k subs H.
  assert (Hall : forallb (fun ev => match ev with
      | AtBob (NAnswerTurn _ l) => match fst (process_query l t_short) with Ok (Processed (Some a)) => bytes_eqb a [9; 9] | _ => false end
      | _ => true end) (events_of t_world (t_asked t_short) (t_answered [9; 9])) = true) by (vm_compute; reflexivity).
  rewrite forallb_forall in Hall. specialize (Hall _ H). cbn beta iota in Hall.
  destruct (fst (process_query subs t_short)) as [[[a|]|]|e]; try discriminate Hall.
  apply BytesFacts.bytes_eqb_eq in Hall. now rewrite Hall.
Qed.

(** C76: as long as the responder has not forgotten the query, its subscribers are asked once. *)
Theorem c76_once_partial : forall E (w : rldp_world) i qid now p (pre post : list (pair_event E)),
  world_ok w -> hash_ok i ->
  let s0 := pair_run w rldp_pair_new pre in
  let s1 := pair_step (E:=E) w s0 (AtAlice (NQuery (rw_bob_id w) i qid now p)) in
  let s2 := pair_run w s1 post in
  private_run w i rldp_pair_new pre -> private_run w i s1 post ->
  ~ bob_forgot s2 i -> (bob_calls s2 i <= 1)%nat.
Proof. exact rldp_at_most_once. Qed.
Print Assumptions c76_once_partial.

(** C76 is false as stated: a message of the query that arrives later makes a new query of it. *)
Theorem c76_once_refuted :
  let s1 := t_asked t_short in
  let evs := events_of t_world s1 (t_again [9; 9]) in
  private_run t_world t_transfer s1 evs
  /\ alice_result t_world (pair_run t_world s1 evs) 0 = Some (RAnswered [9; 9])
  /\ bob_calls (pair_run t_world s1 evs) t_transfer = 2%nat.
Proof. exact asked_twice. Qed.
Print Assumptions c76_once_refuted.

(** C76: if the subscribers then answer differently, the requester may get an answer nobody gave. *)
Theorem c76_mixed_refuted :
  let s1 := t_asked t_short in
  let evs := events_of t_world s1 (t_mixed (repeat 8 40) (repeat 9 40)) in
  private_run t_world t_transfer s1 evs
  /\ alice_result t_world (pair_run t_world s1 evs) 0 = Some (RAnswered (repeat 8 23 ++ repeat 9 17)).
Proof. exact mixed_answers. Qed.
Print Assumptions c76_mixed_refuted.

Example c76_example :
  let s1 := t_asked t_short in
  let evs := events_of t_world s1 (t_answered [9; 9] ++ [ToBob 0; ToBob 0]) in
  let s2 := pair_run t_world s1 evs in
  private_run t_world t_transfer s1 evs /\ bob_calls s2 t_transfer = 1%nat
  /\ map an_stage (rn_answers (rp_bob s2)) = [ASleeping (Some (negate_id t_transfer))].
Proof. cbv zeta. split; [apply plain_private; vm_compute; reflexivity|]. split; vm_compute; reflexivity. Qed.

(** C77: a transfer that loses nothing ends: the sender reports success and the receiver has the data. *)
Theorem c77_exchange : forall F slice checked confirms data id rid max, fec_ok F -> 0 < slice -> slice < u32_max ->
  (confirms = true -> checked = false) -> data <> [] -> part_count slice data < u32_max -> N.of_nat (length data) <= max ->
  exists n, forall k, (n <= k)%nat ->
    let '(s, t) := turns F slice checked confirms k (sender_new id data, incoming_new rid max) in
    se_point s = SentAll /\ incoming_done t = true /\ it_data t = data.
Proof. exact exchange_finishes. Qed.
Print Assumptions c77_exchange.

(** C77 is false as stated: if the timer of the responder fires while the query is being received, the
    requester is told that everything arrived, but nothing did. *)
Theorem c77_received_refuted :
  let s1 := t_asked t_two_parts in
  let evs := events_of t_world s1 t_too_late in
  let s2 := pair_run t_world s1 evs in
  private_run t_world t_transfer s1 evs
  /\ sender_result (rp_alice s2) 0 = Some (SendOk true)
  /\ bob_calls s2 t_transfer = 0%nat
  /\ forall rc, In rc (rn_receivers (rp_bob s2)) -> incoming_done (rc_transfer rc) = false.
Proof. exact sent_for_nothing. Qed.
Print Assumptions c77_received_refuted.

(** C77 between two nodes, in the presence of all other traffic, and with messages lost, repeated and
    reordered: a query that was sent completely has been received completely.  Partial: only as long as the
    responder has neither forgotten the query nor let its timer fire (see the refutation above). *)
Theorem c77_received_partial : forall E (w : rldp_world) i qid now p given (pre post : list (pair_event E)),
  world_ok w -> hash_ok i -> hash_ok qid -> u64_ok (ro_max_answer (rw_alice w)) ->
  blob_ok (sent_payload (rw_zstd w) (ro_force (rw_alice w)) p) ->
  (forall a, given = Ok (Processed (Some a)) -> blob_ok (on_the_wire w p a)) ->
  let s0 := pair_run w rldp_pair_new pre in
  let k := length (rn_senders (rp_alice s0)) in
  let s1 := pair_step (E:=E) w s0 (AtAlice (NQuery (rw_bob_id w) i qid now p)) in
  let s2 := pair_run w s1 post in
  private_run w i rldp_pair_new pre -> private_run w i s1 post -> bob_gives (as_asked w p) given post ->
  ~ bob_forgot s2 i -> bob_waits s2 i ->
  sender_result (rp_alice s2) k = Some (SendOk true) ->
  bob_received s2 i (make_query (rw_zstd w) (ro_force (rw_alice w)) (ro_max_answer (rw_alice w)) (ro_max_timeout (rw_alice w)) qid now p).
Proof. exact rldp_received. Qed.
Print Assumptions c77_received_partial.

Example c77_received_example :
  let s1 := t_asked t_short in
  let evs := events_of t_world s1 (t_answered [9; 9]) in
  let s2 := pair_run t_world s1 evs in
  private_run t_world t_transfer s1 evs
  /\ map (fun a => (an_id a, an_stage a, an_timer a)) (rn_answers (rp_bob s2)) = [(t_transfer, ASleeping (Some (negate_id t_transfer)), true)]
  /\ sender_result (rp_alice s2) 0 = Some (SendOk true).
Proof. cbv zeta. split; [apply plain_private; vm_compute; reflexivity|]. split; vm_compute; reflexivity. Qed.

Example c77_example :
  let data := numbers 150 in
  let st := turns toy_fec 60 false true 40 (sender_new [1] data, incoming_new [1] 1000) in
  se_point (fst st) = SentAll /\ it_data (snd st) = data /\ part_count 60 data = 3.
Proof. vm_compute. repeat split. Qed.
