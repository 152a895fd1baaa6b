(** Members of an overlay that exchange peers, used to show that the hypotheses of theorems are met. *)
From stdpp Require Import gmap.
From Coq Require Import NArith.
From Verif.Base Require Import Bytes Res.
From Verif.Model Require Import Crypto Tl Scheme ProtoAdnl ProtoOverlay Peer AdnlNode PeersSet OverlayPeers Broadcast OverlayNode OverlayExchange Queries NodeQueries.
From Verif.Model Require Subscribers.
From Verif.Spec Require Import CryptoSpec Sample DhtSample OverlaySample BroadcastSample PairSpec TalkSpec.
Open Scope N_scope.

(** Node 5 knows member 2 and asks node 3, which knows 2 and 4. *)
Definition x_asker : overlay :=
  overlay_run brief (overlay_new (secret_of 5) t_overlay [] 2 []) [OvAdd (t_adnl 5) (addr_of 2) (t_member 2 5) (secret_of 91)].
Definition x_asked : group :=
  set_instance (group_new (secret_of 3)) t_overlay (mk_instance t_ov (bs_options (t_bc 10 0)) (bstate_new 0)).
Definition x_react : consumers := fun _ _ _ => None.

(** The two parties of [TalkSpec] as members of an overlay. *)
Definition x_overlay : bytes := sample_bytes 5.
Definition x_alice : overlay := overlay_new (sample_bytes 1) x_overlay [] 2 [].
Definition x_bob : group :=
  set_instance (group_new (sample_bytes 2)) x_overlay
    (mk_instance (overlay_new (sample_bytes 2) x_overlay [] 2 []) (bs_options (t_bc 10 0)) (bstate_new 0)).
Definition x_query : bytes := exchange_query light x_alice 1000 [].
Definition x_answer : bytes :=
  match fst (fst (on_query light x_react x_bob id_overlay_query x_query 1001 [])) with
  | Subscribers.Consumed (Some a) => a
  | _ => []
  end.
Definition x_talk1 : talk := asks light sample_alice sample_bob (talk_start light sample_alice sample_bob) Alice (sample_bytes 3) x_query (sample_sending 1000).
Definition x_talk2 : talk := last_arrives light 0 x_talk1 (sample_receiving 1001).
Definition x_talk3 : talk := replies light sample_alice sample_bob x_talk2 Bob 0 (sample_bytes 3) x_answer (sample_sending 1002).
