(** RLDP over ADNL: both layers of two nodes together (C97). *)
From stdpp Require Import gmap.
From Coq Require Import NArith.
From Verif.Base Require Import Bytes Res.
From Verif.Model Require Import Crypto ProtoAdnl ProtoRldp Channel Peer AdnlNode Fec Compression Subscribers RldpTransfer RldpQuery RldpNode.
From Verif.Spec Require Import Codec CryptoSpec CompressionSpec FecSpec NodeSpec BystanderSpec RldpSpec RldpPairSample RldpPairSpec PairSpec
  StackSpec StackPlay StackSample.
From Verif.Proof Require Import FecFacts PairFacts RldpPairWitness StackFacts StackLive.
Open Scope N_scope.

(** C97: what RLDP is told to have come from the other node was sent to it by the RLDP of that node before. *)
Theorem c97_authentic : forall E (P : prims) fuel (a b : party) (w : rldp_world), prims_ok P -> parties_ok P a b ->
  forall acts : list (act (E:=E)), may_run P fuel a b w (stack_start P a b) acts ->
  let s := stack_run P fuel a b w (stack_start P a b) acts in
  sk_rldp s = pair_run w rldp_pair_new (sk_events s)
  /\ forall x m pre post, sk_events s = pre ++ at_who x (NMessage (id_of_who P a b (other x)) m) :: post ->
     In (id_of_who P a b x, m) (sent_by (pair_run w rldp_pair_new pre) (other x)).
Proof. exact (@stack_authentic). Qed.
Print Assumptions c97_authentic.

(** C97: an answer that a query returns is the answer that the subscribers of the other node gave to it. *)
Theorem c97_genuine : forall E (P : prims) fuel (a b : party) (w : rldp_world), prims_ok P -> parties_ok P a b ->
  forall (acts : list (act (E:=E))) i qid now p given, same_names P a b w -> world_ok w -> hash_ok i -> hash_ok qid ->
  u64_ok (ro_max_answer (rw_alice w)) -> blob_ok (sent_payload (rw_zstd w) (ro_force (rw_alice w)) p) ->
  (forall ans, given = Ok (Processed (Some ans)) -> blob_ok (on_the_wire w p ans)) ->
  may_run P fuel a b w (stack_start P a b) acts ->
  let s := stack_run P fuel a b w (stack_start P a b) acts in
  forall pre post, sk_events s = pre ++ AtAlice (NQuery (rw_bob_id w) i qid now p) :: post ->
  Forall (only_theirs w i) pre -> Forall (only_theirs w i) post -> bob_gives (as_asked w p) given post ->
  forall ans, alice_result w (sk_rldp s) (length (rn_queries (rp_alice (pair_run w rldp_pair_new pre)))) = Some (RAnswered ans) ->
  exists a0, given = Ok (Processed (Some a0)) /\ ans = as_answered w p a0 /\ bob_asked w (sk_rldp s) i (as_asked w p).
Proof. exact (@stack_genuine). Qed.
Print Assumptions c97_genuine.

(** C97: they are asked at most once.  Partial, as C76: as long as the other node has not forgotten the query. *)
Theorem c97_once_partial : forall E (P : prims) fuel (a b : party) (w : rldp_world), prims_ok P -> parties_ok P a b ->
  forall (acts : list (act (E:=E))) i qid now p, same_names P a b w -> world_ok w -> hash_ok i ->
  may_run P fuel a b w (stack_start P a b) acts ->
  let s := stack_run P fuel a b w (stack_start P a b) acts in
  forall pre post, sk_events s = pre ++ AtAlice (NQuery (rw_bob_id w) i qid now p) :: post ->
  Forall (only_theirs w i) pre -> Forall (only_theirs w i) post ->
  ~ bob_forgot (sk_rldp s) i -> (bob_calls (sk_rldp s) i <= 1)%nat.
Proof. exact (@stack_once). Qed.
Print Assumptions c97_once_partial.

(** C97: after every history of both layers, a query whose sizes are within the limits can be asked and
    answered over the network. *)
Theorem c97_answered : forall E P fuel a b w T r0 (acts0 : list (act (E:=E))) i qid now p ans (subs : list (subscriber E)),
  prims_ok P -> parties_ok P a b -> same_names P a b w ->
  o_version (pa_opts a) = Some 0 -> o_version (pa_opts b) = Some 0 -> clocks_agree a b T -> length (r_bytes r0) = 10%nat ->
  world_ok w -> hash_ok i -> hash_ok qid -> u64_ok (ro_max_answer (rw_alice w)) ->
  blob_ok (sent_payload (rw_zstd w) (ro_force (rw_alice w)) p) -> blob_ok (on_the_wire w p ans) ->
  fst (process_query subs (as_asked w p)) = Ok (Processed (Some ans)) ->
  N.of_nat (length (sent_payload (rw_zstd w) (ro_force (rw_alice w)) p)) + 55 <= ro_max_answer (rw_bob w) ->
  N.of_nat (length (on_the_wire w p ans)) + 43 <= ro_max_answer (rw_alice w) ->
  may_run P fuel a b w (stack_start P a b) acts0 ->
  let s := stack_run P fuel a b w (stack_start P a b) acts0 in
  Forall (only_theirs w i) (sk_events s) -> N.of_nat (length (pr_letters (sk_net s))) < 2 ^ 61 ->
  let ask := ATask Alice (NQuery (rw_bob_id w) i qid now p) (fun _ => (T, r0)) in
  exists acts, may_run P fuel a b w s (ask :: acts)
  /\ let s' := stack_run P fuel a b w s (ask :: acts) in
     alice_result w (sk_rldp s') (length (rn_queries (rp_alice (sk_rldp s)))) = Some (RAnswered (as_answered w p ans))
     /\ exists evs, sk_events s' = sk_events s ++ AtAlice (NQuery (rw_bob_id w) i qid now p) :: evs
        /\ Forall (only_theirs w i) evs /\ forall k subs', In (AtBob (NAnswerTurn k subs')) evs -> subs' = subs.
Proof. exact stack_answered. Qed.
Print Assumptions c97_answered.

(** C97: whatever RLDP can do if its messages arrive it can do over ADNL. *)
Theorem c97_possible : forall E P fuel a b w T r0 (acts0 : list (act (E:=E))) cs,
  prims_ok P -> parties_ok P a b -> same_names P a b w ->
  o_version (pa_opts a) = Some 0 -> o_version (pa_opts b) = Some 0 -> clocks_agree a b T -> length (r_bytes r0) = 10%nat ->
  may_run P fuel a b w (stack_start P a b) acts0 ->
  let s := stack_run P fuel a b w (stack_start P a b) acts0 in
  let r := pair_run w (sk_rldp s) (events_of w (sk_rldp s) cs) in
  fine_run P a b w (sk_rldp s) cs -> tidy (sk_rldp s) cs ->
  N.of_nat (length (pr_letters (sk_net s)) + (total_sent r - total_sent (sk_rldp s))) < 2 ^ 62 ->
  exists acts, may_run P fuel a b w s acts
  /\ let s' := stack_run P fuel a b w s acts in
     sk_rldp s' = r /\ sk_events s' = sk_events s ++ events_of w (sk_rldp s) cs.
Proof. exact stack_possible. Qed.
Print Assumptions c97_possible.

(** C97: a message of RLDP with a piece of data of at most one symbol needs one datagram only. *)
Theorem c97_fits : forall m, message_part_ok m -> short_piece m -> small_payload (as_custom m).
Proof. exact short_fits. Qed.
Print Assumptions c97_fits.

(** The hypotheses can be met: two nodes, a query and its answer, all the way. *)
Example c97_example :
  prims_ok light /\ parties_ok light sample_alice sample_bob /\ same_names light sample_alice sample_bob k_world /\ world_ok k_world
  /\ clocks_agree sample_alice sample_bob 1000
  /\ exists acts evs, may_run light 0 sample_alice sample_bob k_world (stack_start light sample_alice sample_bob) acts
     /\ let s := stack_run light 0 sample_alice sample_bob k_world (stack_start light sample_alice sample_bob) acts in
        sk_events s = [] ++ AtAlice k_query :: evs
        /\ Forall (only_theirs k_world t_transfer) evs
        /\ bob_gives t_short (Ok (Processed (Some [9; 9]))) evs
        /\ alice_result k_world (sk_rldp s) 0 = Some (RAnswered [9; 9]).
Proof.
  assert (H1 : same_names light sample_alice sample_bob k_world) by (split; reflexivity).
  assert (H2 : world_ok k_world) by (split; [exact toy_fec_ok|]; split; reflexivity).
  assert (H3 : clocks_agree sample_alice sample_bob 1000).
  { split; [reflexivity|]. intros []; split; vm_compute; first [reflexivity|discriminate]. }
  split; [exact light_ok|]. split; [exact sample_parties|]. split; [exact H1|]. split; [exact H2|]. split; [exact H3|].
  destruct (c97_answered unit light 0 sample_alice sample_bob k_world 1000 (pair_rnd 7) [] t_transfer t_query_id 100 t_short [9; 9] (t_subs [9; 9])
    light_ok sample_parties H1 eq_refl eq_refl H3 eq_refl H2 eq_refl eq_refl ltac:(reflexivity) ltac:(vm_compute; reflexivity)
    ltac:(vm_compute; reflexivity) ltac:(vm_compute; reflexivity) ltac:(vm_compute; discriminate) ltac:(vm_compute; discriminate) I
    ltac:(constructor) ltac:(reflexivity)) as (acts & M & R & evs & V1 & V2 & V3).
  eexists. exists evs. split; [exact M|]. split; [exact V1|]. split; [exact V2|]. split; [|exact R].
  intros k subs H. rewrite (V3 k subs H). reflexivity.
Qed.
