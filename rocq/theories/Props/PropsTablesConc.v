(** C93: the tables of channels, changed by several tasks at once. *)
From Coq Require Import List NArith Bool.
From stdpp Require Import gmap.
From Verif.Base Require Import Bytes.
From Verif.Model Require Import TablesConc.
From Verif.Spec Require Import TablesConcSpec.
From Verif.Proof Require Import TablesConcFacts.
Import ListNotations.
Open Scope N_scope.

(** C93: however the calls that create a channel of the peer, reset the peer or add it are interleaved, whenever none
    of them is in the middle of its changes the tables agree: datagrams are looked up under the ids of the channel
    that is used for sending, and that channel belongs to a known peer and has its current key.
    Missing: calls that remove the peer, and calls for other local ids, for which it is false. *)
Theorem c93_agree_partial : forall ids, two_ids ids -> forall l s ts sched, agree ids s ->
  (forall c, tb_channel s = Some c -> cc_local c = l) -> Forall (keeps l) ts ->
  let x := tables_run ids (s, ts) sched in Forall outside (snd x) -> agree ids (fst x).
Proof. exact tables_agree. Qed.
Print Assumptions c93_agree_partial.
Example c93_agree_example :
  two_ids sample_ids /\ agree sample_ids sample_tables
  /\ (forall c, tb_channel sample_tables = Some c -> cc_local c = 1)
  /\ let ts := [Create 1 9 7; Reset 1 8; Create 1 9 7] in
     Forall (keeps 1) ts
     /\ let x := tables_run sample_ids (sample_tables, ts) [0; 1; 2; 2; 0; 1; 2; 0; 2; 2; 2; 1; 1; 1; 1; 1; 2; 0; 0; 0; 1; 1; 1; 1; 1]%nat in
        snd x = [Over true; Over true; Over true] /\ tb_channel (fst x) = None /\ tb_peers (fst x) !! 1 = Some 8.
Proof.
  split; [exact sample_two|]. split; [exact sample_agree|]. split; [intros c [= <-]; reflexivity|]. cbv zeta.
  split; [repeat constructor|]. split; [vm_compute; reflexivity|]. split; vm_compute; reflexivity.
Qed.

(** A call that runs alone, removals included, does what it should and leaves tables that agree. *)
Theorem c93_alone : forall ids, two_ids ids -> forall s t, agree ids s -> call t ->
  exists n s' known, tables_run ids (s, [t]) (repeat 0%nat n) = (s', [Over known])
  /\ (tb_peers s', tb_channel s', known) = call_effect s t /\ agree ids s'.
Proof. exact call_alone. Qed.
Print Assumptions c93_alone.
Example c93_alone_example :
  two_ids sample_ids /\ agree sample_ids sample_tables /\ call (Create 2 9 7)
  /\ snd (fst (call_effect sample_tables (Create 2 9 7))) = Some (mk_chan 2 4 9 7).
Proof. split; [exact sample_two|]. split; [exact sample_agree|]. split; [exact I|]. vm_compute. reflexivity. Qed.

(** C93 is false when the peer is removed meanwhile: a channel is left for a peer that is not known, and when the peer
    is added again it is used although it has the key of before. *)
Theorem c93_removed_refuted : exists ids s ts before after, two_ids ids /\ agree ids s /\ Forall call ts
  /\ ts = [Remove 1; Create 1 5 6; Add 1 7; Create 1 5 6]
  /\ (let x := fst (tables_run ids (s, ts) before) in tb_channel x <> None /\ tb_peers x !! 1 = None)
  /\ let x := tables_run ids (s, ts) (before ++ after) in
     Forall over (snd x) /\ tb_peers (fst x) !! 1 = Some 7 /\ tb_channel (fst x) = Some (mk_chan 1 3 5 6).
Proof. exact removed_peer. Qed.
Print Assumptions c93_removed_refuted.

(** C93 is false when the peer is known under two local ids: a reset under one of them, while a channel is created
    under the other, leaves a channel that is used for sending but under whose ids nothing is found.  The offer of
    the channel, when it comes again, changes nothing. *)
Theorem c93_deaf_refuted : exists ids s ts sched, two_ids ids /\ agree ids s /\ Forall call ts
  /\ ts = [Reset 2 8; Create 1 5 6; Create 1 5 6]
  /\ let x := tables_run ids (s, ts) sched in
     Forall over (snd x) /\ tb_peers (fst x) !! 1 = Some 3 /\ tb_channel (fst x) = Some (mk_chan 1 3 5 6)
     /\ forall i, tb_by_id (fst x) !! i = None.
Proof. exact deaf_channel. Qed.
Print Assumptions c93_deaf_refuted.
