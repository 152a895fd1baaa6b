(** C19, C68: two nodes that know each other, with an unreliable network between them; both may have to do
    with others as well. *)
From stdpp Require Import gmap.
From Coq Require Import NArith.
From Verif.Base Require Import Bytes Res.
From Verif.Model Require Import Crypto ProtoAdnl Channel Peer AdnlNode.
From Verif.Spec Require Import CryptoSpec PairSpec BystanderSample.
From Verif.Proof Require Import PairFacts BystanderSampleFacts.
Open Scope N_scope.

(** C19: whatever was lost, repeated or reordered, if both have a channel then what one uses for
    sending the other uses for receiving. *)
Theorem c19_same_secrets : forall P, prims_ok P -> forall fuel a b, parties_ok P a b ->
  forall s ca cb, exchange P fuel a b s ->
  channel_of P a b s Alice = Some ca -> channel_of P a b s Bob = Some cb ->
  ch_out ca = ch_in cb /\ ch_in ca = ch_out cb.
Proof. intros P HP fuel a b Hab. exact (same_secrets P fuel a b HP Hab). Qed.
Print Assumptions c19_same_secrets.

(** C19: when one side sends over the channel, the other side has it and finds it by the ids in
    the packets. *)
Theorem c19_used_only_after : forall P, prims_ok P -> forall fuel a b, parties_ok P a b ->
  forall s w, exchange P fuel a b s -> uses_channel P a b s w ->
  exists c, channel_of P a b s (other w) = Some c
  /\ forall priority, exists h, n_by_id (node_of s (other w)) !! channel_in_id c priority = Some (priority, h)
     /\ n_heap (node_of s (other w)) !! h = Some c.
Proof. intros P HP fuel a b Hab. exact (ready_only_after P fuel a b HP Hab). Qed.
Print Assumptions c19_used_only_after.

(** C19: from every state three messages that arrive, sent alternately, make both use the
    channel. *)
Theorem c19_converges : forall P, prims_ok P -> forall fuel a b, parties_ok P a b ->
  forall s t1 t2 t3, exchange P fuel a b s ->
  tn_who t2 = other (tn_who t1) -> tn_who t3 = tn_who t1 ->
  let s1 := take_turn P fuel a b s t1 in
  let s2 := take_turn P fuel a b s1 t2 in
  let s3 := take_turn P fuel a b s2 t3 in
  may_turn P a b s t1 -> may_turn P a b s1 t2 -> may_turn P a b s2 t3 ->
  forall w, uses_channel P a b s3 w.
Proof. intros P HP fuel a b Hab. exact (converges P fuel a b HP Hab). Qed.
Print Assumptions c19_converges.

Example c19_example :
  let s0 := pair_start light sample_alice sample_bob in
  let s1 := take_turn light 0 sample_alice sample_bob s0 turn1 in
  let s2 := take_turn light 0 sample_alice sample_bob s1 turn2 in
  prims_ok light /\ parties_ok light sample_alice sample_bob
  /\ exchange light 0 sample_alice sample_bob s2
  /\ may_turn light sample_alice sample_bob s0 turn1 /\ may_turn light sample_alice sample_bob s1 turn2
  /\ may_turn light sample_alice sample_bob s2 turn3
  /\ tn_who turn2 = other (tn_who turn1) /\ tn_who turn3 = tn_who turn1.
Proof.
  intros s0 s1 s2. destruct sample_turns as (M1 & M2 & M3 & X). split; [exact light_ok|].
  split; [exact sample_parties|]. split; [exact X|]. split; [exact M1|]. split; [exact M2|]. split; [exact M3|].
  split; reflexivity.
Qed.

(** C68: a letter is never refused.  The first time it arrives its message is handed to the layers
    above, as sent and with the right names.  When it arrives again it is handed over again if the
    history of packets is disabled; if it is enabled it is not, as long as fewer than 256 letters
    were sent (C01 shows why not in general). *)
Theorem c68_arrives : forall P, prims_ok P -> forall fuel a b, parties_ok P a b ->
  forall s i l now fresh rs, exchange P fuel a b s -> may_get a b s i l now ->
  let enabled := o_history_enabled (pa_opts (pick_who (other (lt_from l)) a b)) in
  exists deliveries n', arrival P fuel s l now fresh rs = (Ok tt, deliveries, n')
    /\ (deliveries = shown P a b l \/ deliveries = [])
    /\ (~ In i (pr_seen s) -> deliveries = shown P a b l)
    /\ (enabled = false -> deliveries = shown P a b l)
    /\ (enabled = true -> In i (pr_seen s) -> (length (pr_letters s) < 256)%nat -> deliveries = []).
Proof. intros P HP fuel a b Hab. exact (letters_arrive P fuel a b HP Hab). Qed.
Print Assumptions c68_arrives.

(** C68: and it is sent to the address of the other one. *)
Theorem c68_addressed : forall P, prims_ok P -> forall fuel a b, parties_ok P a b ->
  forall s l, exchange P fuel a b s -> In l (pr_letters s) -> lt_dest l = pa_addr (pick_who (other (lt_from l)) a b).
Proof. intros P HP fuel a b Hab. exact (letters_addressed P fuel a b HP Hab). Qed.
Print Assumptions c68_addressed.

(** In the sample: Bob's letter is shown once, Alice's too, over a handshake and a channel. *)
Example c68_example :
  let s0 := pair_start light sample_alice sample_bob in
  let s1 := take_turn light 0 sample_alice sample_bob s0 turn1 in
  let s2 := sent_in light sample_alice sample_bob s1 turn2 in
  let arrives (s : pair) (i : nat) (now : N) :=
    option_map (fun l => fst (arrival light 0 s l now [] (fun _ => pair_rnd 7))) (nth_error (pr_letters s2) i) in
  exchange light 0 sample_alice sample_bob s2
  /\ (pr_seen s2, length (pr_letters s2)) = ([0%nat], 2%nat)
  /\ arrives s0 0%nat 1001
     = Some (Ok tt, [DCustom (party_id light sample_alice) (party_id light sample_bob) [1]])
  /\ arrives s2 0%nat 1002 = Some (Ok tt, [])
  /\ arrives s2 1%nat 1012
     = Some (Ok tt, [DQuery (party_id light sample_bob) (party_id light sample_alice) (sample_bytes 3) [2]]).
Proof.
  intros s0 s1 s2 arrives. split; [exact sample_sent|].
  split; [vm_compute; reflexivity|]. split; [vm_compute; reflexivity|]. split; vm_compute; reflexivity.
Qed.
(** The same theorems apply when Alice meets Carol meanwhile. *)
Example c68_others_example : exchange light 0 sample_alice sample_bob pair_with_carol
  /\ n_by_peer (node_of pair_with_carol Alice) !! party_id light sample_carol <> None
  /\ n_by_peer (node_of pair_with_carol Alice) !! party_id light sample_bob <> None.
Proof. split; [exact carol_between|]. split; vm_compute; discriminate. Qed.
