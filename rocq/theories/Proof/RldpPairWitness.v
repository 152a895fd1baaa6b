(** Two RLDP nodes: sample histories, and the payloads seen on both sides. *)
From stdpp Require Import gmap.
From Coq Require Import NArith Lia.
From Verif.Base Require Import Bytes BytesFacts Res.
From Verif.Model Require Import Tl ProtoRldp Compression Subscribers Fec RldpTransfer RldpQuery RldpNode.
From Verif.Spec Require Import Codec CompressionSpec FecSpec RldpSpec RldpPairSpec RldpPairSample.
From Verif.Proof Require Import CompressionFacts FecFacts RldpPairFacts RldpLiveFacts.
Open Scope N_scope.

Lemma t_world_ok : world_ok t_world.
Proof. split; [exact toy_fec_ok|]. split; reflexivity. Qed.

(** Payloads that do not look compressed, or are compressed, are seen as they are. *)
Lemma asked_exactly : forall w p, zstd_ok (rw_zstd w) -> bytes_ok p = true -> N.of_nat (length p) < 2 ^ 32 ->
  (ro_force (rw_alice w) = true /\ 256 < N.of_nat (length p) \/ decompress (rw_zstd w) p = None) -> as_asked w p = p.
Proof. intros w p Hz Hp Hl H. unfold as_asked. apply delivered_iff; tauto. Qed.
Lemma answered_exactly : forall w p a, zstd_ok (rw_zstd w) -> bytes_ok a = true -> N.of_nat (length a) < 2 ^ 32 ->
  decompress (rw_zstd w) a = None -> as_answered w p a = a.
Proof. intros w p a Hz Hp Hl H. unfold as_answered, on_the_wire. apply delivered_iff; tauto. Qed.

Theorem rldp_exactly : forall E (w : rldp_world) i qid now p given (pre post : list (pair_event E)),
  world_ok w -> zstd_ok (rw_zstd w) -> hash_ok i -> hash_ok qid -> u64_ok (ro_max_answer (rw_alice w)) ->
  blob_ok (sent_payload (rw_zstd w) (ro_force (rw_alice w)) p) ->
  bytes_ok p = true -> N.of_nat (length p) < 2 ^ 32 -> decompress (rw_zstd w) p = None ->
  (forall a, given = Ok (Processed (Some a)) -> blob_ok (on_the_wire w p a)
     /\ bytes_ok a = true /\ N.of_nat (length a) < 2 ^ 32 /\ decompress (rw_zstd w) a = None) ->
  let s0 := pair_run w rldp_pair_new pre in
  let k := length (rn_queries (rp_alice s0)) in
  let s1 := pair_step (E:=E) w s0 (AtAlice (NQuery (rw_bob_id w) i qid now p)) in
  let s2 := pair_run w s1 post in
  private_run w i rldp_pair_new pre -> private_run w i s1 post -> bob_gives p given post ->
  forall a, alice_result w s2 k = Some (RAnswered a) -> given = Ok (Processed (Some a)) /\ bob_asked w s2 i p.
Proof.
  intros E w i qid now p given pre post Hw Hz Hi Hq Hm Hb Hp Hl Hd Hg s0 k s1 s2 Hpre Hpost Hgive a Hr.
  assert (Hap : as_asked w p = p) by (apply asked_exactly; tauto).
  destruct (rldp_end_to_end E w i qid now p given pre post Hw Hi Hq Hm Hb) with (a := a) as (a0 & G1 & G2 & G3); try assumption.
  - intros a' Ha'. now apply Hg.
  - now rewrite Hap.
  - destruct (Hg a0 G1) as (_ & B2 & B3 & B4). rewrite (answered_exactly w p a0 Hz B2 B3 B4) in G2. subst a0.
    rewrite Hap in G3. split; [exact G1|exact G3].
Qed.

(** Bob's subscribers are asked twice. *)
Lemma asked_twice :
  let s1 := t_asked t_short in
  let evs := events_of t_world s1 (t_again [9; 9]) in
  private_run t_world t_transfer s1 evs
  /\ alice_result t_world (pair_run t_world s1 evs) 0 = Some (RAnswered [9; 9])
  /\ bob_calls (pair_run t_world s1 evs) t_transfer = 2%nat.
Proof. cbv zeta. split; [apply plain_private; vm_compute; reflexivity|]. split; vm_compute; reflexivity. Qed.

(** The answer that Alice gets was given by nobody. *)
Lemma mixed_answers :
  let s1 := t_asked t_short in
  let evs := events_of t_world s1 (t_mixed (repeat 8 40) (repeat 9 40)) in
  private_run t_world t_transfer s1 evs
  /\ alice_result t_world (pair_run t_world s1 evs) 0 = Some (RAnswered (repeat 8 23 ++ repeat 9 17)).
Proof. cbv zeta. split; [apply plain_private; vm_compute; reflexivity|]. vm_compute; reflexivity. Qed.

(** Alice's query is sent, as it seems to Alice; Bob has never got it. *)
Lemma sent_for_nothing :
  let s1 := t_asked t_two_parts in
  let evs := events_of t_world s1 t_too_late in
  let s2 := pair_run t_world s1 evs in
  private_run t_world t_transfer s1 evs
  /\ sender_result (rp_alice s2) 0 = Some (SendOk true)
  /\ bob_calls s2 t_transfer = 0%nat
  /\ forall rc, In rc (rn_receivers (rp_bob s2)) -> incoming_done (rc_transfer rc) = false.
Proof.
  cbv zeta. split; [apply plain_private; vm_compute; reflexivity|]. split; [vm_compute; reflexivity|]. split; [vm_compute; reflexivity|].
  assert (H : forallb (fun rc => negb (incoming_done (rc_transfer rc)))
    (rn_receivers (rp_bob (pair_run t_world (t_asked t_two_parts) (events_of t_world (t_asked t_two_parts) t_too_late)))) = true)
    by (vm_compute; reflexivity).
  intros rc Hin. rewrite forallb_forall in H. specialize (H rc Hin). now apply negb_true_iff in H.
Qed.

(** Alice's query to Bob is answered by a third node. *)
Lemma answered_by_another :
  let s1 := t_asked t_short in
  let evs := events_of t_world s1 (t_forged [6; 6]) in
  alice_result t_world (pair_run t_world s1 evs) 0 = Some (RAnswered [6; 6])
  /\ rn_asked (rp_bob (pair_run t_world s1 evs)) = [].
Proof. cbv zeta. split; vm_compute; reflexivity. Qed.
