(** Small operations over several peers, used to show that the hypotheses of theorems are met. *)
From stdpp Require Import gmap.
From Coq Require Import NArith.
From Verif.Base Require Import Bytes Res.
From Verif.Model Require Import Crypto Tl Scheme ProtoAdnl ProtoDht ProtoOverlay Peer AdnlNode PeersSet DhtStorage DhtBuckets
  DhtNode DhtStream DhtTasks.
From Verif.Spec Require Import CryptoSpec Sample DhtSample.
Open Scope N_scope.

(** Node 3 knows nodes 2 and 4; node 2 has the value, node 4 only knows nodes 5 and 6. *)
Definition k_found : bytes := put_value_result (VrFound (t_value 3000)).
Definition k_not_found : bytes := put_value_result (VrNotFound [t_announcement 5; t_announcement 6]).
Definition k_check (seen : list (key_description * bytes)) (v : key_description * bytes) : res unit bool :=
  Ok (bytes_eqb (snd v) [1; 2; 3]).
Definition k_refuse (seen : list (key_description * bytes)) (v : key_description * bytes) : res unit bool := Ok false.
Definition k_ends (i : nat) (e : ending) : lookup_event := LkEnds i e insertion_sort 1100 (secret_of 92).
Definition k_found_at (i : nat) (e : ending) : store_event := SkFound i e insertion_sort 1100 (secret_of 92).
Definition k_lookup : dht * lookup bytes := (t_server, lookup_new insertion_sort t_server t_value_key (Some 5) true).
(** A lookup that learns of nodes 5 and 6 while it runs. *)
Definition k_lookup_events : list lookup_event :=
  [k_ends 0 (Replied k_not_found); LkOther (DGc 1700); k_ends 0 (Replied k_found); k_ends 0 Silent; k_ends 0 Silent; k_ends 0 Silent].
Definition k_start : list store_event :=
  [SkOther (DGc 1700); SkPoll; SkStored 1 Answered; SkStored 0 TimedOut; SkLook insertion_sort].
Definition k_store_events : list store_event :=
  k_start ++ [k_found_at 0 (Replied k_not_found); k_found_at 0 (Replied k_found); k_found_at 0 Silent; k_found_at 0 Broken; k_found_at 0 Silent].

(** Discovery: the peers of node 3 offer nodes 5 and each other. *)
Definition k_offer (x : N) : offered := mk_offered 1200 (secret_of 93) (t_announcement x).
Definition k_bad_offer : offered := mk_offered 1200 (secret_of 93) (mk_dht_node (PkOverlay [1; 2]) (dn_addr_list (t_announcement 5)) 1 []).
Definition k_discovery : list discovery_event :=
  [DcEnds 1 (Ok [k_offer 2; k_offer 5]); DcOther (DGc 1700); DcEnds 0 (Ok [k_offer 4])].
