(** RLDP queries with the default options. *)
From stdpp Require Import gmap.
From Coq Require Import NArith Lia.
From Coq Require Import ZifyBool ZifyNat ZifyN.
From Verif.Base Require Import Bytes BytesFacts Res.
From Verif.Model Require Import Tl ProtoRldp Compression Subscribers Fec RldpTransfer RldpQuery RldpNode Defaults.
From Verif.Spec Require Import Codec CompressionSpec FecSpec RldpSpec RldpExchangeSpec RldpPairSpec RldpPairSample.
From Verif.Proof Require Import RldpLiveFacts.
Open Scope N_scope.

Lemma default_rldp_answered : forall E F z checked alice bob i qid now p a (subs : list (subscriber E)) (pre : list (pair_event E)),
  fec_ok F -> hash_ok i -> hash_ok qid -> decompress z p = None -> decompress z a = None ->
  N.of_nat (length p) <= 10485760 - 55 -> N.of_nat (length a) <= 10485760 - 43 ->
  fst (process_query subs p) = Ok (Processed (Some a)) ->
  let w := mk_rldp_world F SLICE checked z default_rldp default_rldp alice bob in
  private_run w i rldp_pair_new pre ->
  let s0 := pair_run w rldp_pair_new pre in
  let k := length (rn_queries (rp_alice s0)) in
  let s1 := pair_step (E:=E) w s0 (AtAlice (NQuery bob i qid now p)) in
  exists cs, forallb plain cs = true
    /\ (forall k subs', In (Bob (NAnswerTurn k subs')) cs -> subs' = subs)
    /\ alice_result w (pair_run w s1 (events_of w s1 cs)) k = Some (RAnswered a).
Proof.
  intros E F z checked alice bob i qid now p a subs pre HF Hi Hq Hp Ha Lp La Hs w Hpre s0 k s1.
  assert (Hasked : as_asked w p = p) by (unfold as_asked, received_payload; cbn; now rewrite Hp).
  assert (Hwire : on_the_wire w p a = a) by (unfold on_the_wire; cbn; now rewrite Hp).
  assert (Hanswered : as_answered w p a = a) by (unfold as_answered, received_payload; rewrite Hwire; cbn [w rw_zstd]; now rewrite Ha).
  pose proof (rldp_can_answer E w i qid now p a subs pre) as H. cbv zeta in H. rewrite Hasked, Hwire, Hanswered in H.
  apply H; try assumption.
  - split; [exact HF|]. split; reflexivity.
  - reflexivity.
  - unfold blob_ok. cbn. unfold bytes in *. lia.
  - unfold blob_ok. unfold bytes in *. lia.
  - cbn. unfold bytes in *. lia.
  - cbn. unfold bytes in *. lia.
Qed.
