(** Messages and queries of overlays between two nodes. *)
From stdpp Require Import gmap.
From Coq Require Import NArith Lia.
From Verif.Base Require Import Bytes BytesFacts Res.
From Verif.Model Require Import Crypto Tl Scheme ProtoAdnl ProtoRldp ProtoOverlay Peer AdnlNode PeersSet Compression Fec OverlayPeers Broadcast OverlayNode
  OverlayExchange RldpNode Layers.
From Verif.Model Require Subscribers.
From Verif.Spec Require DhtSpec.
From Verif.Spec Require Import Codec CryptoSpec CompressionSpec NodeSpec OverlaySpec BroadcastSpec PairSpec GossipSpec LayersSpec OverlayTripSpec
  RldpSpec RldpPairSpec StackSpec StackPlay.
From Verif.Proof Require Import TlFacts ProtoFacts PairFacts BroadcastLive OverlayNodeFacts LayersFacts StackLive.
Open Scope N_scope.

Lemma message_carried : forall P, prims_ok P -> forall fuel a b, parties_ok P a b -> forall s t m,
  exchange P fuel a b s -> may_turn P a b s t -> tn_message t = MCustom m ->
  exchange P fuel a b (take_turn P fuel a b s t)
  /\ handed_over P fuel a b s t = [DCustom (id_of_who P a b (other (tn_who t))) (id_of_who P a b (tn_who t)) m].
Proof.
  intros P HP fuel a b Hab s t m Hs [Hsay Htime] Hm.
  destruct (exchange_inv P fuel a b HP Hab s Hs) as (pp & tags & HI).
  destruct (inv_says P fuel a b HP Hab s pp tags _ _ _ _ _ HI Hsay) as (pp1 & tags1 & l & k & pr & q & c & _ & Hlet & Hw & Ht & Hlm & _ & _ & _ & _ & Hseen).
  change (says P a b s (tn_who t) (tn_sent t) (tn_message t) (tn_priority t) (tn_rnd t)) with (sent_in P a b s t) in Hlet, Hseen.
  assert (Hl : last_letter (sent_in P a b s t) = Some l).
  { unfold last_letter. rewrite Hlet, app_length, nth_error_app2 by (cbn [length]; lia).
    cbn [length]. replace (_ - 1 - _)%nat with 0%nat by lia. reflexivity. }
  assert (Hs1 : exchange P fuel a b (sent_in P a b s t)) by (now apply ex_says).
  assert (Hg : may_get a b (sent_in P a b s t) (length (pr_letters (sent_in P a b s t)) - 1) l (tn_received t)) by (split; auto).
  unfold take_turn, handed_over. rewrite Hl. split; [now apply ex_gets|].
  destruct (letters_arrive P fuel a b HP Hab _ _ l (tn_received t) (tn_fresh t) (tn_rnds t) Hs1 Hg) as (ds & n' & -> & _ & Hnew & _).
  cbn [fst snd]. rewrite Hnew.
  - unfold shown. rewrite Hw, Hlm, Hm. reflexivity.
  - rewrite Hseen. intros Hin. apply (pi_seen _ _ _ _ _ _ HI) in Hin. rewrite Hlet, app_length in Hin. cbn [length] in Hin. lia.
Qed.

Lemma layer_takes : forall P z checks g peer picks before after m r,
  get_u32 m = Some (id_overlay_message, r) -> other_hearers P z checks id_overlay_message before ->
  fst (Subscribers.process_message_custom (before ++ overlay_message_layer P z checks g peer picks :: after) m)
  = match fst (on_message P z checks g peer id_overlay_message m picks) with
    | Ok b => Ok b
    | Err e => Err (Subscribers.SubscriberError (OverlayFailed e))
    end.
Proof.
  intros P z checks g peer picks before after m r Hm Ho.
  rewrite (proj1 (heard_by P z checks before (overlay_message_layer P z checks g peer picks) after m _ _ Hm Ho (proj2 (own_messages P z checks) g peer picks m))).
  unfold overlay_message_layer. destruct (fst (on_message P z checks g peer id_overlay_message m picks)); reflexivity.
Qed.

Lemma message_starts : forall id b, exists r, get_u32 (overlay_message id b) = Some (id_overlay_message, r).
Proof. intros id b. unfold overlay_message, put_overlay_message. rewrite <- !app_assoc. eexists. apply u32_reads. reflexivity. Qed.

Lemma broadcast_fits : forall P z id (packed : bool) secret data date, prims_ok P -> hash_ok id ->
  N.of_nat (length (if packed then compress z data else data)) <= 768 ->
  small_payload (MCustom (the_message P z id packed secret data date)).
Proof.
  intros P z id packed secret data date HP Hid Hd.
  assert (Hl : N.of_nat (length (the_message P z id packed secret data date)) <= 940).
  { unfold the_message, overlay_message, put_overlay_message, the_broadcast, own_broadcast. cbn [put_broadcast bo_compress]. unfold put_ov_broadcast.
    cbn [ob_src ob_certificate ob_flags ob_data ob_date ob_signature put_public_key put_certificate]. unfold put_hash, put_u32.
    rewrite !app_length, ?le_bytes_length, Hid, (pub_len P HP).
    pose proof (RldpQueryFacts.put_bytes_length (sign P secret (broadcast_to_sign P data date None))) as H1.
    rewrite (sign_len P HP) in H1. change (N.of_nat 64) with 64 in H1.
    pose proof (RldpQueryFacts.put_bytes_length (if packed then compress z data else data)) as H2.
    destruct packed; cbv beta iota in *;
    lia. }
  split; [|exact Hl]. cbn [message_ok]. unfold blob_ok. eapply N.le_lt_trans; [exact Hl|reflexivity].
Qed.

Lemma broadcast_travels : forall P z checks F react ga gb id ia ib secret data targets,
  prims_ok P -> zstd_ok z -> hash_ok id -> bytes_ok data = true -> N.of_nat (length data) < 2 ^ 32 ->
  gr_overlays ga !! id = Some ia -> gr_overlays gb !! id = Some ib ->
  let date := now_sec (in_broadcasts ia) in
  let packed := bo_compress (in_options ia) in
  let bid := the_id P data date in
  let m := the_message P z id packed secret data date in
  N.of_nat (length (if packed then compress z data else data)) < 2 ^ 24 -> unambiguous P z packed secret data date ->
  br_owned (in_broadcasts ia) !! bid = None -> br_owned (in_broadcasts ib) !! bid = None ->
  BroadcastSpec.timely (setup_of P z checks F id ib) (in_broadcasts ib) date ->
  sent_out (group_step P z checks F react ga (GoBroadcasts id (EvSend secret data targets))) id = sent_out ga id ++ [(targets, m)]
  /\ (forall fuel a b s t, parties_ok P a b -> exchange P fuel a b s -> may_turn P a b s t -> tn_message t = MCustom m ->
      handed_over P fuel a b s t = [DCustom (id_of_who P a b (other (tn_who t))) (id_of_who P a b (tn_who t)) m])
  /\ forall before after peer picks, other_hearers P z checks id_overlay_message before ->
     let gb' := group_step P z checks F react gb (GoMessage peer id_overlay_message m picks) in
     fst (Subscribers.process_message_custom (before ++ overlay_message_layer P z checks gb peer picks :: after) m) = Ok true
     /\ user_got gb' id = user_got gb id ++ [mk_delivery bid 1 data (node_id P (pub_of P secret))]
     /\ sent_out gb' id = sent_out gb id ++ [(get_random_peers (ov_neighbours (in_peers ib)) (bo_secondary (in_options ib)) (Some peer) picks, m)]
     /\ (forall other, other <> id -> gr_overlays gb' !! other = gr_overlays gb !! other).
Proof.
  intros P z checks F react ga gb id ia ib secret data targets HP Hz Hid Hd Hl Ha Hb date packed bid m Hw Hu Hna Hnb Ht.
  assert (Hclaim : broadcast_to_sign P data date None = broadcast_claim P 1 [] data date) by reflexivity.
  split; [|split].
  - unfold sent_out. cbn [group_step is_reception]. unfold on_instance. rewrite Ha. cbn [set_instance set_overlays gr_overlays]. rewrite lookup_insert.
    cbn [in_broadcasts bc_step setup_of bs_prims bs_zstd bs_options bs_overlay]. unfold send_broadcast. cbv zeta. fold date.
    unfold create_broadcast, broadcast_id. rewrite Hclaim. fold bid. unfold the_id in bid. fold bid. rewrite Hna. reflexivity.
  - intros fuel a b s t Hab Hs Hmt Hm. exact (proj2 (message_carried P HP fuel a b Hab s t m Hs Hmt Hm)).
  - intros before after peer picks Ho gb'. destruct (message_starts id (BBroadcast (the_broadcast P z packed secret data date))) as [r Hr].
    rewrite (layer_takes P z checks gb peer picks before after m r Hr Ho).
    assert (Hon : on_message P z checks gb peer id_overlay_message m picks
      = let '(x, s) := receive_broadcast P z checks (in_options ib) (mk_bc_env (ov_neighbours (in_peers ib)) picks) (in_broadcasts ib) peer m
           (the_broadcast P z packed secret data date) in
        (received x, set_instance gb id (mk_instance (in_peers ib) (in_options ib) s))).
    { unfold on_message. rewrite N.eqb_refl. cbn [negb]. unfold m, the_message, overlay_message. rewrite message_named by exact Hid.
      assert (Hok : broadcast_ok (BBroadcast (the_broadcast P z packed secret data date))).
      { cbn [broadcast_ok]. unfold ov_broadcast_ok, the_broadcast, own_broadcast. cbn [ob_src ob_certificate ob_flags ob_data ob_date ob_signature bo_compress].
        split; [exact (pub_len P HP secret)|]. split; [exact I|]. split; [reflexivity|]. split; [exact Hw|]. split.
        - unfold u32_ok, date, now_sec. apply N.mod_lt. discriminate.
        - unfold blob_ok. rewrite (sign_len P HP). reflexivity. }
      pose proof (broadcast_reads (BBroadcast (the_broadcast P z packed secret data date)) [] Hok) as Hr'. rewrite app_nil_r in Hr'. rewrite Hr'. now rewrite Hb. }
    pose proof (BroadcastLive.honest_ordinary_arrives (setup_of P z checks F id ib) (in_broadcasts ib) secret data packed date
      (mk_bc_env (ov_neighbours (in_peers ib)) picks) peer m) as H.
    cbv zeta in H. cbn [bs_prims bs_zstd setup_of bs_options] in H.
    assert (Hamb : forall u, decompress z (BroadcastSpec.wire (mk_bc_setup P z F checks (in_options ib) id) packed data) = Some u -> u <> data ->
      ~ DhtSpec.signed_by P (pub_of P secret) (broadcast_claim P 1 [] u date) (ob_signature (the_broadcast P z packed secret data date))).
    { intros u Hun Hne Hsig. apply Hne. apply Hu. exists (pub_of P secret). split; [reflexivity|]. split; [reflexivity|].
      split; [now right|exact Hsig]. }
    specialize (H HP Hz Hd Hl Hamb Ht Hnb). cbn [bc_step setup_of bs_prims bs_zstd bs_options bs_checks] in H.
    change (own_broadcast P z (mk_bc_options (bo_timeout (in_options ib)) 0 0 0 0 packed) secret data date) with (the_broadcast P z packed secret data date) in H.
    destruct H as (H1 & H2 & _). fold bid in H1.
    pose proof (receive_done P z checks (in_options ib) (mk_bc_env (ov_neighbours (in_peers ib)) picks) (in_broadcasts ib) peer m
      (the_broadcast P z packed secret data date)) as HD.
    unfold gb'. cbn [group_step]. rewrite Hon.
    destruct (receive_broadcast P z checks (in_options ib) (mk_bc_env (ov_neighbours (in_peers ib)) picks) (in_broadcasts ib) peer m
      (the_broadcast P z packed secret data date)) as [x s'] eqn:Ex. cbn [fst snd] in *.
    assert (Hx : x = Done).
    { apply HD. intros E. rewrite E in H1. apply (f_equal (@length _)) in H1. rewrite app_length in H1. cbn [length] in H1. lia. }
    rewrite Hx. split; [reflexivity|]. unfold user_got, sent_out. cbn [set_instance set_overlays gr_overlays]. rewrite lookup_insert, Hb. cbn [in_broadcasts].
    split; [exact H1|]. split; [exact H2|]. intros o Hne. rewrite lookup_insert_ne; [reflexivity|congruence].
Qed.

Lemma network_real : forall P z checks F react overlay, prims_ok P -> forall fuel a b, parties_ok P a b -> forall s t (w : nodes) k targets m r picks,
  let from := id_of_who P a b (tn_who t) in let to := id_of_who P a b (other (tn_who t)) in
  exchange P fuel a b s -> may_turn P a b s t -> tn_message t = MCustom m ->
  nth_error (GossipSpec.sent_by overlay w from) k = Some (targets, m) -> In to targets -> get_u32 m = Some (id_overlay_message, r) ->
  handed_over P fuel a b s t = [DCustom to from m]
  /\ gossip_step P z checks F react overlay w (Arrives from k to picks)
     = place w to (snd (on_message P z checks (w to) from id_overlay_message m picks))
  /\ forall before after, other_hearers P z checks id_overlay_message before ->
     fst (Subscribers.process_message_custom (before ++ overlay_message_layer P z checks (w to) from picks :: after) m)
     = match fst (on_message P z checks (w to) from id_overlay_message m picks) with
       | Ok x => Ok x
       | Err e => Err (Subscribers.SubscriberError (OverlayFailed e))
       end.
Proof.
  intros P z checks F react overlay HP fuel a b Hab s t w k targets m r picks from to Hs Ht Hm Hk Hin Hr. split; [|split].
  - exact (proj2 (message_carried P HP fuel a b Hab s t m Hs Ht Hm)).
  - cbn [gossip_step]. rewrite Hk, Hr.
    assert (E : existsb (bytes_eqb to) targets = true).
    { apply existsb_exists. exists to. split; [exact Hin|]. now apply bytes_eqb_eq. }
    rewrite E. reflexivity.
  - intros before after Ho. exact (layer_takes P z checks (w to) from picks before after m r Hr Ho).
Qed.

Lemma overlay_rldp : forall P fuel a b w T r0 (acts0 : list (act (E:=layer_error))) i qid now o body inner rest react g time picks c answer
    (before after : list (Subscribers.subscriber layer_error)),
  prims_ok P -> parties_ok P a b -> same_names P a b w ->
  o_version (pa_opts a) = Some 0 -> o_version (pa_opts b) = Some 0 -> clocks_agree a b T -> length (r_bytes r0) = 10%nat ->
  world_ok w -> hash_ok i -> hash_ok qid -> u64_ok (ro_max_answer (rw_alice w)) ->
  let p := overlay_query_sent o body in
  hash_ok (ov_id o) -> get_u32 body = Some (inner, rest) -> inner <> id_overlay_get_random_peers ->
  gr_subscribers g !! ov_id o = Some c -> react c inner body = Some (Some (Some answer)) -> others P id_overlay_query before ->
  as_asked w p = p -> as_answered w p answer = answer ->
  blob_ok (sent_payload (rw_zstd w) (ro_force (rw_alice w)) p) -> blob_ok (on_the_wire w p answer) ->
  N.of_nat (length (sent_payload (rw_zstd w) (ro_force (rw_alice w)) p)) + 55 <= ro_max_answer (rw_bob w) ->
  N.of_nat (length (on_the_wire w p answer)) + 43 <= ro_max_answer (rw_alice w) ->
  may_run P fuel a b w (stack_start P a b) acts0 ->
  let s := stack_run P fuel a b w (stack_start P a b) acts0 in
  let subs := before ++ overlay_layer P react g time picks :: after in
  Forall (only_theirs w i) (sk_events s) -> N.of_nat (length (pr_letters (sk_net s))) < 2 ^ 61 ->
  let ask := ATask Alice (NQuery (rw_bob_id w) i qid now p) (fun _ => (T, r0)) in
  snd (fst (on_query P react g id_overlay_query p time picks)) = [(c, inner, body)]
  /\ exists acts, may_run P fuel a b w s (ask :: acts)
     /\ let s' := stack_run P fuel a b w s (ask :: acts) in
        alice_result w (sk_rldp s') (length (rn_queries (rp_alice (sk_rldp s)))) = Some (RAnswered answer)
        /\ exists evs, sk_events s' = sk_events s ++ AtAlice (NQuery (rw_bob_id w) i qid now p) :: evs
           /\ Forall (only_theirs w i) evs /\ forall k subs', In (AtBob (NAnswerTurn k subs')) evs -> subs' = subs.
Proof.
  intros P fuel a b w T r0 acts0 i qid now o body inner rest react g time picks c answer before after HP Hab Hn Va Vb Hc Hr Hw Hi Hq Hu p Hid Hb Hnot Hs Hre Ho
    Ea Er B1 B2 L1 L2 Hrun s subs Hfree Hlen ask.
  destruct (overlay_asked P HP o body inner rest react g time picks c answer before after Hid Hb Hnot Hs Hre Ho) as (H1 & H2 & _).
  split; [exact H2|].
  assert (Hsub : fst (Subscribers.process_query subs (as_asked w p)) = Ok (Subscribers.Processed (Some answer))).
  { rewrite Ea. fold p subs in H1. destruct (fst (Subscribers.process_query subs p)) as [[x|]|x]; cbn [answer_of] in H1; try discriminate H1. now rewrite H1. }
  destruct (stack_answered layer_error P fuel a b w T r0 acts0 i qid now p answer subs HP Hab Hn Va Vb Hc Hr Hw Hi Hq Hu B1 B2 Hsub L1 L2 Hrun Hfree Hlen)
    as (acts & M & R & evs & V). rewrite Er in R.
  exists acts. split; [exact M|]. split; [exact R|]. exists evs. exact V.
Qed.
