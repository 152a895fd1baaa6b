(** The sample of a node with several layers. *)
From stdpp Require Import gmap.
From Coq Require Import NArith Lia.
From Verif.Base Require Import Bytes BytesFacts Res.
From Verif.Model Require Import Crypto Tl Scheme ProtoAdnl DhtNode OverlayPeers OverlayNode OverlayExchange Queries NodeQueries Layers.
From Verif.Model Require Subscribers.
From Verif.Spec Require Import Codec CryptoSpec NodeSpec Sample DhtSample PairSpec TalkSpec TripSpec DhtTripSample LayersSpec LayersSample.
From Verif.Proof Require Import PairFacts TalkFacts DhtTripFacts DhtTripSamples.
Open Scope N_scope.

Lemma app_serves : serves light l_app [42].
Proof.
  apply serves_app. intros c q Hc. unfold l_app. destruct (N.eqb_spec c 42) as [->|Hn]; [exfalso; apply Hc; now left|reflexivity].
Qed.
Lemma before_others : forall c, c = id_overlay_query \/ c = id_adnl_ping -> others light c l_before.
Proof.
  intros c Hc. constructor; [exists [42]; split; [exact app_serves|]|constructor; [exists dht_queries; split; [apply serves_dht|]|constructor]].
  - destruct Hc as [-> | ->]; cbn; intuition discriminate.
  - destruct Hc as [-> | ->]; cbn; intuition discriminate.
Qed.

Lemma short_fits : forall m, (exists n d, (m = MQuery (sample_bytes n) d \/ m = MAnswer (sample_bytes n) d) /\ (length d <= 100)%nat) -> small_payload m.
Proof.
  intros m (n & d & [-> | ->] & Hd); unfold small_payload, message_ok, blob_ok; (split; [split; [apply id_ok|lia]|lia]).
Qed.

Lemma sample_layers :
  prims_ok light /\ parties_ok light sample_alice sample_bob /\ hash_ok (ov_id l_overlay)
  /\ get_u32 l_body = Some (67305985, [5]) /\ gr_subscribers l_group !! ov_id l_overlay = Some 7%nat
  /\ l_react 7%nat 67305985 l_body = Some (Some (Some l_answer))
  /\ others light id_overlay_query l_before /\ others light id_adnl_ping l_before
  /\ talking light 0 sample_alice sample_bob r_start
  /\ trip_ok light 0 sample_alice sample_bob r_start Alice (r_trip 3 1500) l_query l_answer
  /\ trip_ok light 0 sample_alice sample_bob r_start Alice (r_trip 4 1700) (put_adnl_ping 77) (put_adnl_pong 77).
Proof.
  split; [exact light_ok|]. split; [exact PairFacts.sample_parties|]. split; [reflexivity|]. split; [reflexivity|].
  split; [apply lookup_insert|]. split; [reflexivity|].
  split; [apply before_others; now left|]. split; [apply before_others; now right|]. split; [apply tk_starts|]. split.
  - apply trip_by; [vm_compute; reflexivity|reflexivity|reflexivity|split; reflexivity| |];
      apply short_fits; eexists _, _; (split; [auto|]); vm_compute; lia.
  - apply trip_by; [vm_compute; reflexivity|reflexivity|reflexivity|split; reflexivity| |];
      apply short_fits; eexists _, _; (split; [auto|]); vm_compute; lia.
Qed.
