From stdpp Require Import gmap.
From Coq Require Import NArith.
From Verif.Base Require Import Bytes Res.
From Verif.Model Require Import Crypto PeersSet DhtNode DhtStream DhtTasks.
From Verif.Spec Require Import CryptoSpec Sample DhtSample DhtTaskSpec DhtTaskSample.
From Verif.Proof Require DhtIterFacts.
Open Scope N_scope.

Lemma lookup_events_ok : Forall lookup_event_ok k_lookup_events.
Proof.
  apply List.Forall_forall. intros ev Hin. unfold k_lookup_events in Hin.
  repeat (destruct Hin as [<-|Hin]; [first [exact I|exact DhtIterFacts.insertion_sort_sorts]|]). destruct Hin.
Qed.
Lemma store_events_ok : Forall store_event_ok k_store_events.
Proof.
  apply List.Forall_forall. intros ev Hin. unfold k_store_events, k_start in Hin. cbn [app] in Hin.
  repeat (destruct Hin as [<-|Hin]; [first [exact I|exact DhtIterFacts.insertion_sort_sorts]|]). destruct Hin.
Qed.
Lemma known_counted :
  let s := discovery_run brief (discovery_start t_server) k_discovery in
  ps_members (d_known t_server) = [t_id 2; t_id 4]
  /\ ps_members (d_known (dc_dht s)) = [t_id 2; t_id 4; t_id 5]
  /\ dc_result s = Some (Ok 3).
Proof. vm_compute. repeat split. Qed.
