(** Which messages are short enough for [LongFacts], and the sample of [LongSample]. *)
From stdpp Require Import gmap.
From Coq Require Import NArith Lia Permutation.
From Coq Require Import ZifyBool ZifyNat ZifyN.
From Verif.Base Require Import Bytes BytesFacts Res.
From Verif.Model Require Import Crypto Tl Scheme ProtoAdnl ProtoRldp ProtoOverlay Compression Fec OverlayPeers Broadcast OverlayNode Peer Transfer AdnlNode Layers.
From Verif.Model Require Subscribers.
From Verif.Spec Require Import Codec CryptoSpec FecSpec NodeSpec PairSpec GossipSpec GossipFecSpec LayersSpec LongSpec LongSample.
From Verif.Proof Require Import TlFacts ProtoFacts TransferFacts SplitFacts PairFacts LongFacts.
From Verif.Proof Require RldpQueryFacts OverlayTripFacts.
Open Scope N_scope.

Lemma long_sizes :
  (forall id q, hash_ok id -> N.of_nat (length q) <= 1892 -> long_payload (MQuery id q) /\ long_payload (MAnswer id q))
  /\ forall d, N.of_nat (length d) <= 1924 -> long_payload (MCustom d).
Proof.
  assert (Hb : forall d, N.of_nat (length d) <= 1924 -> blob_ok d)
    by (intros d Hd; unfold blob_ok; eapply N.le_lt_trans; [exact Hd|reflexivity]).
  split.
  - intros id q Hid Hq. assert (Hq' : blob_ok q) by (apply Hb; lia).
    assert (Hok : message_ok (MQuery id q) /\ message_ok (MAnswer id q)) by (cbn [message_ok]; tauto).
    split; (split; [apply Hok|split; [|exact I]]).
    + pose proof (proj1 (estimate (MQuery id q) _ (proj1 Hok) eq_refl)) as H. unfold len, MSG_QUERY_SIZE in H. unfold bytes in *. lia.
    + pose proof (proj1 (estimate (MAnswer id q) _ (proj2 Hok) eq_refl)) as H. unfold len, MSG_ANSWER_SIZE in H. unfold bytes in *. lia.
  - intros d Hd. assert (Hok : message_ok (MCustom d)) by (cbn [message_ok]; apply Hb; exact Hd).
    split; [exact Hok|split; [|exact I]].
    pose proof (proj1 (estimate (MCustom d) _ Hok eq_refl)) as H. unfold len, MSG_CUSTOM_SIZE in H. unfold bytes in *. lia.
Qed.

Lemma parts_fit : forall P z F overlay (packed : bool) secret data date esi, prims_ok P -> fec_ok F -> hash_ok overlay ->
  long_payload (MCustom (GossipFecSpec.part_message P z F overlay packed secret data date esi)).
Proof.
  intros P z F overlay packed secret data date esi HP HF Ho. apply long_sizes.
  unfold GossipFecSpec.part_message, overlay_message, put_overlay_message, own_fec_packet. cbn [put_broadcast]. unfold put_ov_broadcast_fec.
  cbn [bf_src bf_certificate bf_data_hash bf_data_size bf_flags bf_data bf_seqno bf_fec bf_date bf_signature put_public_key put_certificate].
  unfold put_fec_type, put_hash, put_u32, GossipFecSpec.parts_id.
  rewrite !app_length, ?le_bytes_length, Ho, (pub_len P HP), (sha_len P HP).
  match goal with |- context [put_bytes (fe_symbol F ?d ?i)] =>
    pose proof (RldpQueryFacts.put_bytes_length (fe_symbol F d i)) as H1; rewrite (fec_symbol_size F HF d i) in H1; unfold symbol_size in H1 end.
  match goal with |- context [put_bytes (sign P ?s ?m)] =>
    pose proof (RldpQueryFacts.put_bytes_length (sign P s m)) as H2; rewrite (sign_len P HP) in H2; change (N.of_nat 64) with 64 in H2 end.
  lia.
Qed.

Lemma parts_network : forall P z checks F react overlay, prims_ok P -> fec_ok F -> hash_ok overlay ->
  forall fuel a b, parties_ok P a b -> forall s from now priority rs (w : nodes) k targets (packed : bool) secret data date esi picks,
  let me := id_of_who P a b from in let you := id_of_who P a b (other from) in
  let m := GossipFecSpec.part_message P z F overlay packed secret data date esi in
  exchange P fuel a b s -> u32_ok now -> (forall i, length (r_bytes (rs i)) = 10%nat) ->
  N.of_nat (length (pr_letters s)) < 2 ^ 62 -> now + o_address_list_timeout (pa_opts (pick_who from a b)) < 2 ^ 32 ->
  1936 <= N.of_nat fuel -> n_transfers (node_of s (other from)) !! sha256 P (put_message (MCustom m)) = None ->
  nth_error (GossipSpec.sent_by overlay w me) k = Some (targets, m) -> In you targets ->
  exists n' datagrams, send_message P (node_of s from) now me you (MCustom m) priority rs = (Ok tt, n')
    /\ n_out n' = n_out (node_of s from) ++ map (fun x => (pa_addr (pick_who (other from) a b), x)) datagrams
    /\ (forall l, Permutation (map ar_data l) datagrams ->
        Forall (in_time P (pick_who from a b) (pick_who (other from) a b) now) l ->
        exists n2, all_arrive P fuel (node_of s (other from)) l = (map (fun _ => Ok tt) l, [DCustom you me m], n2))
    /\ gossip_step P z checks F react overlay w (Arrives me k you picks)
       = place w you (snd (on_message P z checks (w you) me id_overlay_message m picks))
    /\ forall before after, other_hearers P z checks id_overlay_message before ->
       fst (Subscribers.process_message_custom (before ++ overlay_message_layer P z checks (w you) me picks :: after) m)
       = match fst (on_message P z checks (w you) me id_overlay_message m picks) with
         | Ok x => Ok x
         | Err e => Err (Subscribers.SubscriberError (OverlayFailed e))
         end.
Proof.
  intros P z checks F react overlay HP HF Ho fuel a b Hab s from now priority rs w k targets packed secret data date esi picks me you m
    Hs Hnow Hrs Hlet Hto Hfuel Hnone Hk Hin.
  destruct (long_arrives P HP fuel a b Hab s from now (MCustom m) priority rs (DCustom you me m) Hs
    (parts_fit P z F overlay packed secret data date esi HP HF Ho) Hnow Hrs Hlet Hto Hfuel eq_refl Hnone) as (n' & ds & E & Eo & Ha).
  destruct (OverlayTripFacts.message_starts overlay (BBroadcastFec (own_fec_packet P F secret (GossipFecSpec.parts_id P data)
    (GossipFecSpec.parts_of z packed data) date esi))) as (r & Hr). change (get_u32 m = Some (id_overlay_message, r)) in Hr.
  exists n', ds. split; [exact E|]. split; [exact Eo|]. split; [|split].
  - intros l Hl Ht. destruct (Ha l Hl Ht) as (n2 & E2 & _). exists n2. exact E2.
  - cbn [gossip_step]. rewrite Hk, Hr.
    assert (Ex : existsb (bytes_eqb you) targets = true).
    { apply existsb_exists. exists you. split; [exact Hin|]. now apply bytes_eqb_eq. }
    rewrite Ex. reflexivity.
  - intros before after Hb. exact (OverlayTripFacts.layer_takes P z checks (w you) me picks before after m r Hr Hb).
Qed.

Lemma sample_ready : exchange light (N.to_nat 2000) sample_alice sample_bob l_start
  /\ long_payload l_message /\ fst l_sent = Ok tt /\ length (n_out (snd l_sent)) = 2%nat.
Proof.
  split; [apply ex_start|]. split.
  { apply long_sizes. rewrite repeat_length. rewrite N2Nat.id. discriminate. }
  split; vm_compute; reflexivity.
Qed.

Lemma long_sample : fst l_sent = Ok tt /\ length (n_out (snd l_sent)) = 2%nat
  /\ fst (all_arrive light (N.to_nat 2000) (node_of l_start Bob) l_arriving)
     = ([Ok tt; Ok tt], [DCustom (party_id light sample_bob) (party_id light sample_alice) (repeat 5 (N.to_nat 1100))]).
Proof.
  destruct sample_ready as (H1 & H2 & H3 & H4). split; [exact H3|]. split; [exact H4|].
  assert (Hu : u32_ok 1000) by reflexivity.
  assert (Hr : forall i : nat, length (r_bytes ((fun _ : nat => pair_rnd 7) i)) = 10%nat) by reflexivity.
  assert (Hf : 1936 <= N.of_nat (N.to_nat 2000)) by (rewrite N2Nat.id; discriminate).
  pose proof (long_arrives light light_ok (N.to_nat 2000) sample_alice sample_bob sample_parties l_start Alice 1000 l_message false
    (fun _ => pair_rnd 7) (DCustom (party_id light sample_bob) (party_id light sample_alice) (repeat 5 (N.to_nat 1100)))
    H1 H2 Hu Hr eq_refl eq_refl Hf eq_refl eq_refl) as H.
  cbv zeta in H. destruct H as (n' & ds & E & Eo & Ha).
  assert (El : snd l_sent = n').
  { exact (f_equal snd E). }
  unfold l_arriving. rewrite El in *. change (n_out (node_of l_start Alice)) with (@nil (sockaddr * bytes)) in Eo. cbn [app] in Eo.
  rewrite Eo in H4 |- *. rewrite map_length in H4. destruct ds as [|d1 [|d2 [|]]]; try discriminate H4.
  cbn [map rev app snd] in *.
  match goal with |- fst (all_arrive _ _ _ ?l) = _ => destruct (Ha l) as (n2 & E2 & _) end.
  - cbn [map ar_data]. constructor 3.
  - repeat (constructor; [split; [discriminate|split; [discriminate|intros Hv; discriminate Hv]]|]). constructor.
  - exact (f_equal fst E2).
Qed.
