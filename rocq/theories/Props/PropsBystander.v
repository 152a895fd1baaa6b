(** C96: peers do not disturb each other. *)
From stdpp Require Import gmap.
From Coq Require Import NArith.
From Verif.Base Require Import Bytes Res.
From Verif.Model Require Import Crypto Tl ProtoAdnl Channel Peer Transfer AdnlNode.
From Verif.Spec Require Import Codec CryptoSpec TransferSpec NodeSpec BystanderSpec Sample BystanderSample.
From Verif.Proof Require Import BystanderFacts BystanderSampleFacts.
Open Scope N_scope.

(** C96, the connection: from any reachable state, whatever the user and the network do afterwards that does not
    concern the peer leaves everything the node keeps about it, and the settings of the node, as they were. *)
Theorem c96_untouched_partial : forall P fuel addr start opts filter keys before others local peer,
  let n := run P fuel (node_new addr start opts filter keys) before in
  let n' := run P fuel n others in
  unconcerned P fuel n others local peer -> no_id_collision n' ->
  same_setup n n' /\ same_connection n n' local peer.
Proof.
  intros P fuel addr start opts filter keys before others local peer.
  exact (bystanders P fuel others _ local peer (own_run P fuel before _ (own_new addr start opts filter keys))).
Qed.
Print Assumptions c96_untouched_partial.
Example c96_untouched_example :
  unconcerned light 10 alice1 carol_ops (id_of 1) (id_of 2) /\ no_id_collision (srun alice1 carol_ops)
  /\ (exists h c p, current alice1 (id_of 2) h c /\ get_peer alice1 (id_of 1) (id_of 2) = Some p)
  /\ (length (map_to_list (n_heap alice1)), length (map_to_list (n_heap (srun alice1 carol_ops)))) = (1%nat, 2%nat).
Proof.
  split; [exact carol_unconcerned|]. split; [exact carol_distinct|].
  split; [do 3 eexists; split; [split; vm_compute; reflexivity|vm_compute; reflexivity]|]. vm_compute. reflexivity.
Qed.

(** C96 is false of long messages: their parts are kept in one place for all peers.  When two peers send the same
    message in parts that arrive alternately, the message of one of them is not handed over. *)
Theorem c96_parts_refuted : ~ forall P fuel n local first second m pieces, prims_ok P -> n_transfers n = ∅ -> first <> second ->
  message_ok m -> message_of pieces = put_message m -> Forall (fun x => x <> []) pieces -> (length pieces <= fuel)%nat ->
  forall peer d, peer = first \/ peer = second -> delivered_as local peer m = Some d ->
  In (Ok [d]) (fst (hear P fuel n (both_send local first second (parts_of P pieces)))).
Proof. exact one_heard. Qed.
Print Assumptions c96_parts_refuted.
