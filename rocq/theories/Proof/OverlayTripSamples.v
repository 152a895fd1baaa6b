(** The samples of messages and queries of overlays. *)
From stdpp Require Import gmap.
From Coq Require Import NArith Lia.
From Verif.Base Require Import Bytes BytesFacts Res.
From Verif.Model Require Import Crypto Tl Scheme ProtoAdnl ProtoRldp ProtoOverlay Peer AdnlNode PeersSet Compression Fec OverlayPeers Broadcast OverlayNode
  OverlayExchange RldpNode Layers.
From Verif.Model Require Subscribers.
From Verif.Spec Require Import Codec CryptoSpec CompressionSpec FecSpec NodeSpec OverlaySpec BroadcastSpec PairSpec GossipSpec LayersSpec LayersSample OverlayTripSpec
  OverlayTripSample RldpSpec RldpPairSample RldpPairSpec StackSpec StackPlay StackSample.
From Verif.Proof Require Import FecFacts CompressionFacts PairFacts LayersSamples OverlayTripFacts.
Open Scope N_scope.

Lemma v_others : other_hearers light toy_zstd true id_overlay_message v_before.
Proof.
  constructor; [exists rldp_messages; split; [apply hears_rldp|]|constructor; [exists [42]; split; [|]|constructor]].
  - cbn. intuition discriminate.
  - apply hears_app. intros c d Hc. unfold v_app. f_equal. apply N.eqb_neq. intros ->. apply Hc. now left.
  - cbn. intuition discriminate.
Qed.

Lemma v_may : may_turn light sample_alice sample_bob (pair_start light sample_alice sample_bob) v_turn.
Proof.
  apply (may_turn_versioned light 0 _ _ light_ok PairFacts.sample_parties);
    [apply ex_start|reflexivity|reflexivity|reflexivity| |reflexivity|reflexivity|cbn; lia].
  apply broadcast_fits; [exact light_ok|reflexivity|vm_compute; discriminate].
Qed.

Lemma sample_broadcast :
  prims_ok light /\ zstd_ok toy_zstd /\ parties_ok light sample_alice sample_bob /\ hash_ok v_overlay
  /\ (exists ia ib, gr_overlays v_alice !! v_overlay = Some ia /\ gr_overlays v_bob !! v_overlay = Some ib
      /\ now_sec (in_broadcasts ia) = 1000 /\ bo_compress (in_options ia) = false
      /\ br_owned (in_broadcasts ia) !! the_id light v_data 1000 = None /\ br_owned (in_broadcasts ib) !! the_id light v_data 1000 = None
      /\ BroadcastSpec.timely (setup_of light toy_zstd true toy_fec v_overlay ib) (in_broadcasts ib) 1000)
  /\ unambiguous light toy_zstd false (sample_bytes 1) v_data 1000
  /\ exchange light 0 sample_alice sample_bob (pair_start light sample_alice sample_bob)
  /\ may_turn light sample_alice sample_bob (pair_start light sample_alice sample_bob) v_turn /\ tn_message v_turn = MCustom v_message
  /\ other_hearers light toy_zstd true id_overlay_message v_before.
Proof.
  split; [exact light_ok|]. split; [exact toy_zstd_ok|]. split; [exact PairFacts.sample_parties|]. split; [reflexivity|]. split.
  { eexists _, _. split; [apply lookup_insert|]. split; [apply lookup_insert|]. split; [reflexivity|]. split; [reflexivity|].
    split; [apply lookup_empty|]. split; [apply lookup_empty|]. split; [reflexivity|]. vm_compute. discriminate. }
  split. { intros o (key & _ & _ & [H|H] & _); [exact H|]. exfalso.
    assert (Hd : decompress toy_zstd [1; 2; 3] = None) by (vm_compute; reflexivity).
    change (ob_data _) with [1; 2; 3] in H. congruence. }
  split; [apply ex_start|]. split; [exact v_may|]. split; [reflexivity|exact v_others].
Qed.

Lemma sample_rldp :
  prims_ok light /\ parties_ok light sample_alice sample_bob /\ same_names light sample_alice sample_bob k_world /\ world_ok k_world
  /\ clocks_agree sample_alice sample_bob 1000 /\ hash_ok t_transfer /\ hash_ok t_query_id
  /\ hash_ok (ov_id l_overlay) /\ get_u32 l_body = Some (67305985, [5]) /\ gr_subscribers l_group !! ov_id l_overlay = Some 7%nat
  /\ l_react 7%nat 67305985 l_body = Some (Some (Some l_answer)) /\ others light id_overlay_query l_before
  /\ as_asked k_world l_query = l_query /\ as_answered k_world l_query l_answer = l_answer
  /\ blob_ok (sent_payload (rw_zstd k_world) (ro_force (rw_alice k_world)) l_query) /\ blob_ok (on_the_wire k_world l_query l_answer)
  /\ N.of_nat (length (sent_payload (rw_zstd k_world) (ro_force (rw_alice k_world)) l_query)) + 55 <= ro_max_answer (rw_bob k_world)
  /\ N.of_nat (length (on_the_wire k_world l_query l_answer)) + 43 <= ro_max_answer (rw_alice k_world).
Proof.
  split; [exact light_ok|]. split; [exact PairFacts.sample_parties|]. split; [split; reflexivity|].
  split; [split; [exact toy_fec_ok|]; split; reflexivity|].
  split. { split; [reflexivity|]. intros []; split; vm_compute; first [reflexivity|discriminate]. }
  split; [reflexivity|]. split; [reflexivity|]. split; [reflexivity|]. split; [reflexivity|]. split; [apply lookup_insert|].
  split; [reflexivity|]. split; [apply before_others; now left|]. split; [vm_compute; reflexivity|]. split; [vm_compute; reflexivity|].
  split; [vm_compute; reflexivity|]. split; [vm_compute; reflexivity|]. split; vm_compute; discriminate.
Qed.
