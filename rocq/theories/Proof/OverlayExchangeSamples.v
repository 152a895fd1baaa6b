(** The samples of peer exchange. *)
From stdpp Require Import gmap.
From Coq Require Import NArith Lia.
From Verif.Base Require Import Bytes BytesFacts Res.
From Verif.Model Require Import Crypto Tl Scheme ProtoAdnl ProtoOverlay Peer AdnlNode PeersSet OverlayPeers Broadcast OverlayNode OverlayExchange Queries NodeQueries.
From Verif.Model Require Subscribers.
From Verif.Spec Require Import Codec CryptoSpec NodeSpec PeersSetSpec Sample DhtSpec DhtSample OverlaySpec OverlaySample BroadcastSample PairSpec TalkSpec
  OverlayExchangeSpec OverlayExchangeSample.
From Verif.Proof Require Import OverlayExchangeFacts OverlayExchangeNet TalkFacts.
Open Scope N_scope.

Lemma member_node_ok : forall x v, u32_ok v -> ov_node_ok (t_member x v).
Proof.
  intros x v Hv. unfold t_member, ov_node_ok. cbn [on_id on_overlay on_version on_signature public_key_ok].
  split; [apply (pub_len brief brief_ok)|]. split; [apply (sha_len brief brief_ok)|]. split; [exact Hv|].
  unfold blob_ok. rewrite (sign_len brief brief_ok). reflexivity.
Qed.
Lemma stranger_ok : ov_node_ok t_stranger.
Proof.
  unfold t_stranger, ov_node_ok. cbn [on_id on_overlay on_version on_signature public_key_ok].
  split; [apply (pub_len brief brief_ok)|]. split; [reflexivity|]. split; [reflexivity|].
  unfold blob_ok. rewrite (sign_len brief brief_ok). reflexivity.
Qed.
Lemma t_ov_member : member_of brief t_overlay (secret_of 3) t_ov.
Proof.
  exists [], 2, [], t_ov_ops. split; [reflexivity|]. cbn [t_ov_ops flat_map offered map fst snd app].
  repeat constructor; try apply member_node_ok; try apply stranger_ok; reflexivity.
Qed.
Lemma asker_member : member_of brief t_overlay (secret_of 5) x_asker.
Proof.
  exists [], 2, [], [OvAdd (t_adnl 5) (addr_of 2) (t_member 2 5) (secret_of 91)]. split; [reflexivity|].
  cbn [flat_map offered app]. constructor; [|constructor]. now apply member_node_ok.
Qed.

Lemma sample_exchange :
  hash_ok t_overlay /\ member_of brief t_overlay (secret_of 5) x_asker
  /\ (exists ib, gr_overlays x_asked !! t_overlay = Some ib /\ member_of brief t_overlay (secret_of 3) (in_peers ib)
      /\ sample_of (ps_len (ov_neighbours (in_peers ib))) 4 [1; 0]%nat)
  /\ sample_of (ps_len (ov_neighbours x_asker)) 4 [0]%nat
  /\ exists answer,
     fst (on_query brief x_react x_asked id_overlay_query (exchange_query brief x_asker 1000 [0]%nat) 1001 [1; 0]%nat)
     = (Subscribers.Consumed (Some answer), [])
     /\ exchange_result brief x_asker (known_filter x_asker) (Some answer) = Ok (Some [t_id 3; t_id 4]).
Proof.
  split; [apply (sha_len brief brief_ok)|]. split; [exact asker_member|]. split.
  { exists (mk_instance t_ov (bs_options (t_bc 10 0)) (bstate_new 0)). split; [apply lookup_insert|]. split; [exact t_ov_member|].
    cbn [in_peers]. assert (E : ps_len (ov_neighbours t_ov) = 2%nat) by (vm_compute; reflexivity). rewrite E.
    split; [|split; [|reflexivity]].
    - constructor; [intros [H|[]]; discriminate|]. constructor; [intros []|constructor].
    - intros i [<-|[<-|[]]]; lia. }
  split.
  { assert (E : ps_len (ov_neighbours x_asker) = 1%nat) by (vm_compute; reflexivity). rewrite E.
    split; [|split; [|reflexivity]].
    - constructor; [intros []|constructor].
    - intros i [<-|[]]; lia. }
  exists (put_ov_nodes_boxed [t_member 3 1001; t_member 4 7; t_member 2 6]).
  split; vm_compute; reflexivity.
Qed.

Lemma sample_network :
  member_of light x_overlay (pa_secret sample_alice) x_alice
  /\ (exists ib, gr_overlays x_bob !! x_overlay = Some ib /\ member_of light x_overlay (pa_secret sample_bob) (in_peers ib))
  /\ fst (on_query light x_react x_bob id_overlay_query x_query 1001 []) = (Subscribers.Consumed (Some x_answer), [])
  /\ may_say_to light sample_alice sample_bob (talk_start light sample_alice sample_bob) Alice (MQuery (sample_bytes 3) x_query) (sample_sending 1000)
  /\ last_timely sample_alice sample_bob x_talk1 (sample_receiving 1001)
  /\ may_say_to light sample_alice sample_bob x_talk2 Bob (MAnswer (sample_bytes 3) x_answer) (sample_sending 1002)
  /\ last_timely sample_alice sample_bob x_talk3 (sample_receiving 1003).
Proof.
  assert (Ma : member_of light x_overlay (pa_secret sample_alice) x_alice) by (exists [], 2, [], []; split; [reflexivity|constructor]).
  assert (Mb : member_of light x_overlay (pa_secret sample_bob) (overlay_new (sample_bytes 2) x_overlay [] 2 []))
    by (exists [], 2, [], []; split; [reflexivity|constructor]).
  assert (Ho : hash_ok x_overlay) by reflexivity. assert (Hq : hash_ok (sample_bytes 3)) by reflexivity.
  assert (Ha : x_answer = put_ov_nodes_boxed (prepare_random_peers light (overlay_new (sample_bytes 2) x_overlay [] 2 []) 1001 []))
    by (vm_compute; reflexivity).
  split; [exact Ma|]. split.
  { eexists. split; [apply lookup_insert|]. exact Mb. }
  split; [vm_compute; reflexivity|].
  assert (C2 : length (tk_letters x_talk2) = 1%nat) by (vm_compute; reflexivity).
  assert (H1 : option_map (fun l => (lt_from l, lt_time l)) (last_one x_talk1) = Some (Alice, 1000)) by (vm_compute; reflexivity).
  assert (H3 : option_map (fun l => (lt_from l, lt_time l)) (last_one x_talk3) = Some (Bob, 1002)) by (vm_compute; reflexivity).
  split; [|split; [|split]].
  - apply sample_may_say; [reflexivity| |reflexivity|reflexivity].
    exact (proj1 (exchange_fits light _ _ _ 1000 [] _ light_ok Ho eq_refl Ma Hq)).
  - intros l Hl. unfold PairSpec.timely. rewrite Hl in H1. injection H1 as -> ->. cbn. lia.
  - apply sample_may_say; [reflexivity| |reflexivity|rewrite C2; reflexivity]. rewrite Ha.
    exact (proj2 (exchange_fits light _ _ _ 1001 [] _ light_ok Ho eq_refl Mb Hq)).
  - intros l Hl. unfold PairSpec.timely. rewrite Hl in H3. injection H3 as -> ->. cbn. lia.
Qed.

Lemma sample_introduced :
  fst (take_new_peers t_ov) !! put_public_key (PkEd25519 (t_key 5)) = Some (t_member 5 4)
  /\ acceptable (t_adnl 3) (t_id 3) (t_id 5) (addr_of 5)
  /\ (let ov := overlay_run brief (overlay_new (secret_of 3) t_overlay [] 2 []) [OvGetRandomPeers [t_member 5 4] 1000 []] in
      ps_is_full (ov_neighbours ov) = false /\ is_Some (fst (take_new_peers ov) !! put_public_key (PkEd25519 (t_key 5)))).
Proof.
  split; [vm_compute; reflexivity|]. split.
  - split; [|split; [reflexivity|split; [reflexivity|]]].
    + apply bytes_eqb_neq. vm_compute. reflexivity.
    + assert (E : bool_decide (is_Some (n_peers (t_adnl 3) !! t_id 3)) = true) by (vm_compute; reflexivity).
      exact (bool_decide_eq_true_1 _ E).
  - cbv zeta. split; [vm_compute; reflexivity|].
    exists (t_member 5 4). vm_compute. reflexivity.
Qed.
