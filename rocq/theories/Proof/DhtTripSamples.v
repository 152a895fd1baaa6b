(** The sample of values stored and found over the network. *)
From stdpp Require Import gmap.
From Coq Require Import NArith Lia.
From Verif.Base Require Import Bytes BytesFacts Res.
From Verif.Model Require Import Crypto Tl ProtoAdnl ProtoDht Peer AdnlNode DhtStorage DhtNode DhtTasks Queries NodeQueries.
From Verif.Spec Require Import Codec CryptoSpec NodeSpec DhtSpec DhtNodeSpec DhtNetSpec Sample DhtSample PairSpec TalkSpec TripSpec DhtTripSample.
From Verif.Proof Require Import PairFacts TalkFacts DhtTripFacts.
Open Scope N_scope.

Lemma entry_is_ok : entry_ok [97; 98] 3 [1; 2; 3] 3000.
Proof. vm_compute. repeat split. Qed.

Definition trip_checks (s : talk) (t : trip) (t1 : N) (query answer : bytes) : bool :=
  let s1 := asks light sample_alice sample_bob s Alice (tr_id t) query (tr_sent t) in
  let s2 := last_arrives light 0 s1 (tr_taken t) in
  let s3 := replies light sample_alice sample_bob s2 Bob (length (qn_handed (qnode_of s Bob))) (tr_id t) answer (tr_back t) in
  (N.of_nat (length (tk_letters s)) <? 1000) && (N.of_nat (length (tk_letters s2)) <? 1000)
  && match last_one s1, last_one s3 with
     | Some l1, Some l3 =>
       match lt_from l1, lt_from l3 with Alice, Bob => (lt_time l1 =? t1) && (lt_time l3 =? t1 + 2) | _, _ => false end
     | _, _ => false
     end
  && negb (existsb (bytes_eqb (tr_id t)) (map (fun e => snd (fst e)) (tk_asked s))).

Lemma trip_by : forall s id t1 query answer, trip_checks s (r_trip id t1) t1 query answer = true ->
  u32_ok t1 -> u32_ok (t1 + 2) -> 1000 < t1 < 100000 ->
  small_payload (MQuery (sample_bytes id) query) -> small_payload (MAnswer (sample_bytes id) answer) ->
  trip_ok light 0 sample_alice sample_bob s Alice (r_trip id t1) query answer.
Proof.
  intros s id t1 query answer H U1 U2 Ht F1 F2. unfold trip_checks in H. cbv zeta in H.
  unfold trip_ok, replied_to, asked_to.
  apply andb_prop in H as [H Hid]. apply andb_prop in H as [H Hl]. apply andb_prop in H as [L1 L2].
  apply N.ltb_lt in L1, L2.
  split; [|split; [|split; [|split]]].
  - intros Hin. apply negb_true_iff in Hid. assert (E : existsb (bytes_eqb (tr_id (r_trip id t1))) (map (fun e => snd (fst e)) (tk_asked s)) = true).
    { apply existsb_exists. exists (tr_id (r_trip id t1)). split; [exact Hin|apply bytes_eqb_refl]. }
    rewrite E in Hid. discriminate Hid.
  - apply sample_may_say; [exact U1|exact F1|reflexivity|]. etransitivity; [exact L1|reflexivity].
  - intros l El. rewrite El in Hl.
    match type of Hl with match ?o with _ => _ end = _ => destruct o as [l3|]; [|discriminate Hl] end.
    destruct (lt_from l) eqn:E; [|discriminate Hl]. destruct (lt_from l3); [discriminate Hl|].
    apply andb_prop in Hl as [Hl _]. apply N.eqb_eq in Hl. unfold PairSpec.timely. rewrite E, Hl. cbn. lia.
  - apply sample_may_say; [exact U2|exact F2|reflexivity|]. etransitivity; [exact L2|reflexivity].
  - intros l El. cbn [other] in El. rewrite El in Hl.
    match type of Hl with match ?o with _ => _ end = _ => destruct o as [l1|]; [|discriminate Hl] end.
    destruct (lt_from l1); [|discriminate Hl]. destruct (lt_from l) eqn:E; [discriminate Hl|].
    apply andb_prop in Hl as [_ Hl]. apply N.eqb_eq in Hl. unfold PairSpec.timely. rewrite E, Hl. cbn. lia.
Qed.

Lemma id_ok : forall n, hash_ok (sample_bytes n).
Proof. reflexivity. Qed.
Lemma fits_here : forall n,
  small_payload (MQuery (sample_bytes n) r_store) /\ small_payload (MAnswer (sample_bytes n) put_dht_stored)
  /\ small_payload (MQuery (sample_bytes n) r_lookup) /\ small_payload (MAnswer (sample_bytes n) r_reply).
Proof. intros n. refine (entry_fits light light_ok _ _ _ _ _ (sample_bytes n) (id_ok n) _). cbn. lia. Qed.

Lemma first_trip : trip_ok light 0 sample_alice sample_bob r_start Alice (r_trip 3 1500) r_store put_dht_stored.
Proof.
  destruct (fits_here 3) as (F1 & F2 & _ & _).
  apply trip_by; [vm_compute; reflexivity|reflexivity|reflexivity|split; reflexivity|exact F1|exact F2].
Qed.
Lemma second_trip : trip_ok light 0 sample_alice sample_bob r_talk Alice (r_trip 4 1700) r_lookup r_reply.
Proof.
  destruct (fits_here 4) as (_ & _ & F3 & F4).
  apply trip_by; [vm_compute; reflexivity|reflexivity|reflexivity|split; reflexivity|exact F3|exact F4].
Qed.

Lemma sample_stored_found :
  prims_ok light /\ parties_ok light sample_alice sample_bob
  /\ entry_ok [97; 98] 3 [1; 2; 3] 3000 /\ d_storage r_server !! r_key = None
  /\ N.of_nat (length [97; 98]) <= so_name_len (do_storage (d_opts r_server)) /\ 6 <= do_max_allowed_k (d_opts r_server)
  /\ Forall (nothing_else light r_value 2000) (stores [DGc 1600])
  /\ trip_ok light 0 sample_alice sample_bob r_start Alice (r_trip 3 1500) r_store put_dht_stored
  /\ talking light 0 sample_alice sample_bob r_talk
  /\ trip_ok light 0 sample_alice sample_bob r_talk Alice (r_trip 4 1700) r_lookup r_reply
  /\ returned light 0 sample_alice sample_bob r_talk Alice (r_trip 4 1700) r_lookup r_reply = Some (Some r_reply).
Proof.
  assert (Hab : parties_ok light sample_alice sample_bob) by exact PairFacts.sample_parties.
  assert (Ht : talking light 0 sample_alice sample_bob r_talk)
    by exact (proj1 (trip_returns light light_ok 0 _ _ Hab _ _ _ _ _ (tk_starts light 0 _ _) first_trip)).
  split; [exact light_ok|]. split; [exact Hab|]. split; [exact entry_is_ok|]. split; [apply lookup_empty|].
  split; [vm_compute; discriminate|]. split; [vm_compute; discriminate|].
  split; [constructor; [vm_compute; discriminate|constructor]|].
  split; [exact first_trip|]. split; [exact Ht|]. split; [exact second_trip|].
  exact (proj2 (proj2 (trip_returns light light_ok 0 _ _ Hab _ _ _ _ _ Ht second_trip))).
Qed.
