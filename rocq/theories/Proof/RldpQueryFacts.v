(** RLDP queries: payloads, size limit, ids, timeouts. *)
From Coq Require Import List NArith Arith Bool Lia.
From Coq Require Import ZifyBool ZifyNat ZifyN.
From Verif.Base Require Import Bytes BytesFacts Res.
From Verif.Model Require Import Tl Scheme ProtoRldp Compression Subscribers Fec RldpTransfer RldpQuery.
From Verif.Spec Require Import Codec CompressionSpec FecSpec RldpSpec.
From Verif.Proof Require Import TlFacts ProtoFacts CompressionFacts RldpParts RldpInFacts.
Import ListNotations.
Open Scope N_scope.

(** ** Payloads *)

Lemma get_put_rldp : forall m, rldp_message_ok m -> get_rldp_message (put_rldp_message m) = Some (m, []).
Proof. intros m H. pose proof (rldp_message_reads m [] H) as R. now rewrite app_nil_r in R. Qed.

Lemma query_arrives : forall z force max tmo qid now p,
  hash_ok qid -> u64_ok max -> blob_ok (sent_payload z force p) ->
  query_from_data (make_query z force max tmo qid now p) = Some (qid, max, sent_payload z force p).
Proof.
  intros z force max tmo qid now p Hq Hm Hb. unfold query_from_data, make_query. cbv zeta.
  fold (sent_payload z force p). rewrite get_put_rldp; [reflexivity|].
  cbn [rldp_message_ok]. split; [exact Hq|]. split; [exact Hm|]. split; [|exact Hb].
  unfold u32_ok. apply N.mod_lt. unfold u32_max. lia.
Qed.

(** The whole query as the responder reads it. *)
Lemma query_as_read : forall z force max tmo qid now p,
  hash_ok qid -> u64_ok max -> blob_ok (sent_payload z force p) ->
  tmo < u32_max -> now + tmo / 1000 < u32_max ->
  get_rldp_message (make_query z force max tmo qid now p)
  = Some (RQuery qid max (now + tmo / 1000) (sent_payload z force p), []).
Proof.
  intros z force max tmo qid now p Hq Hm Hb Ht Hn. unfold make_query. cbv zeta.
  fold (sent_payload z force p). rewrite get_put_rldp.
  - now rewrite (N.mod_small tmo), N.mod_small by assumption.
  - cbn [rldp_message_ok]. split; [exact Hq|]. split; [exact Hm|]. split; [|exact Hb].
    unfold u32_ok. apply N.mod_lt. unfold u32_max. lia.
Qed.

(** The limit is about the answer as it is sent. *)
Lemma answer_limit : forall E (z : zstd) (subs : list (subscriber E)) force qid max d a log,
  process_query subs (received_payload z d) = (Ok (Processed (Some a)), log) ->
  let sent := sent_payload z (match decompress z d with Some _ => true | None => force end) a in
  process_rldp_query z subs force qid max d
  = (if N.of_nat (length sent) <=? max then Ok (Processed (Some (put_rldp_message (RAnswer qid sent))))
     else Err AnswerSizeExceeded, log).
Proof.
  intros E z subs force qid max d a log H. unfold process_rldp_query, received_payload, sent_payload in *. cbv zeta.
  assert (G : forall n, (if max <? n then Err AnswerSizeExceeded else Ok (Processed (Some [])))
                       = (if n <=? max then Ok (Processed (Some [])) else @Err (rldp_error E) _ AnswerSizeExceeded)).
  { intros n. destruct (max <? n) eqn:E1, (n <=? max) eqn:E2; try reflexivity; lia. }
  destruct (decompress z d) as [d'|]; rewrite H; f_equal;
  match goal with |- (if max <? ?n then _ else _) = _ =>
    destruct (max <? n) eqn:E1, (n <=? max) eqn:E2; try reflexivity; lia end.
Qed.

(** The payload the first subscriber sees. *)
Lemma subscriber_sees : forall E (z : zstd) (s : subscriber E) subs force qid max d c r,
  get_u32 (received_payload z d) = Some (c, r) ->
  hd_error (snd (process_rldp_query z (s :: subs) force qid max d)) = Some (0%nat, received_payload z d).
Proof.
  intros E z s subs force qid max d c r H. unfold process_rldp_query, received_payload in *.
  assert (G : forall q, get_u32 q = Some (c, r) -> hd_error (snd (process_query (s :: subs) q)) = Some (0%nat, q)).
  { intros q Hq. unfold process_query. rewrite Hq. cbn [ask].
    destruct (s c q) as [a|q'|e]; try reflexivity. destruct (ask 1 subs c q') as [o log]. reflexivity. }
  destruct (decompress z d) as [x|] eqn:E1.
  - specialize (G x H). destruct (process_query (s :: subs) x) as [o log]. exact G.
  - specialize (G d H). destruct (process_query (s :: subs) d) as [o log]. exact G.
Qed.

Lemma answer_arrives : forall z force qid a, hash_ok qid -> blob_ok (sent_payload z force a) ->
  accept_answer z qid (put_rldp_message (RAnswer qid (sent_payload z force a)))
  = Ok (received_payload z (sent_payload z force a)).
Proof.
  intros z force qid a Hq Hb. unfold accept_answer. rewrite get_put_rldp by (cbn; tauto).
  now rewrite bytes_eqb_refl.
Qed.

(** The whole way of a query and its answer. *)
Lemma query_delivered : forall E z (s : subscriber E) subs force max tmo qid now p c r,
  zstd_ok z -> bytes_ok p = true -> N.of_nat (length p) < 2 ^ 32 ->
  hash_ok qid -> u64_ok max -> blob_ok (sent_payload z force p) -> get_u32 p = Some (c, r) ->
  (force = true /\ 256 < N.of_nat (length p) \/ decompress z p = None) ->
  exists d, query_from_data (make_query z force max tmo qid now p) = Some (qid, max, d)
    /\ forall responder_force,
       hd_error (snd (process_rldp_query z (s :: subs) responder_force qid max d)) = Some (0%nat, p).
Proof.
  intros E z s subs force max tmo qid now p c r Hz Hp Hl Hq Hm Hb Hc Hcase.
  exists (sent_payload z force p). split; [now apply query_arrives|]. intros rf.
  assert (Hr : received_payload z (sent_payload z force p) = p) by (apply delivered_iff; tauto).
  rewrite <- Hr at 2. eapply subscriber_sees. rewrite Hr. exact Hc.
Qed.

Lemma answer_delivered : forall z force qid a,
  zstd_ok z -> bytes_ok a = true -> N.of_nat (length a) < 2 ^ 32 ->
  hash_ok qid -> blob_ok (sent_payload z force a) ->
  (force = true /\ 256 < N.of_nat (length a) \/ decompress z a = None) ->
  accept_answer z qid (put_rldp_message (RAnswer qid (sent_payload z force a))) = Ok a.
Proof.
  intros z force qid a Hz Ha Hl Hq Hb Hcase. rewrite answer_arrives by assumption. f_equal.
  apply delivered_iff; tauto.
Qed.

(** ** Size limit *)

Lemma put_bytes_length : forall d,
  N.of_nat (length d) + 1 <= N.of_nat (length (put_bytes d)) <= N.of_nat (length d) + 7.
Proof.
  intros d. unfold put_bytes. cbv zeta.
  assert (Hp : forall n, pad_len n < 4) by (intros n; unfold pad_len; apply N.mod_lt; lia).
  destruct (N.of_nat (length d) <? 254).
  - cbn [length]. rewrite app_length, repeat_length. specialize (Hp (1 + N.of_nat (length d))). lia.
  - cbn [length]. rewrite !app_length, repeat_length, le_bytes_length. specialize (Hp (N.of_nat (length d))). lia.
Qed.

Lemma answer_length : forall qid a, hash_ok qid ->
  N.of_nat (length a) + 37 <= N.of_nat (length (put_rldp_message (RAnswer qid a)))
  <= N.of_nat (length a) + 43.
Proof.
  intros qid a Hq. cbn [put_rldp_message]. unfold put_u32, put_hash.
  rewrite !app_length, le_bytes_length. unfold hash_ok in Hq. pose proof (put_bytes_length a). lia.
Qed.

(** Chunks that announce too much are all rejected. *)
Lemma too_big_never_done : forall F ms t,
  it_total t = None -> Forall (fun m => it_max t < ch_total m) ms ->
  incoming_done (fst (receive F t ms)) = false /\ it_data (fst (receive F t ms)) = it_data t.
Proof.
  intros F ms. induction ms as [|m ms IH]; intros t Ht Hm.
  - cbn [receive fst]. split; [|reflexivity]. unfold incoming_done. now rewrite Ht.
  - inversion Hm as [|? ? H1 H2]; subst. rewrite receive_cons.
    assert (Hone : it_total (fst (receive_one F t m)) = None
                   /\ it_max (fst (receive_one F t m)) = it_max t
                   /\ it_data (fst (receive_one F t m)) = it_data t).
    { unfold receive_one, process_chunk. rewrite Ht.
      destruct (N.ltb_spec (it_max t) (ch_total m)); [|lia]. cbn [fst it_total it_max it_data]. tauto. }
    destruct Hone as (A & B & C).
    assert (Hd : incoming_done (fst (receive_one F t m)) = false) by (unfold incoming_done; now rewrite A).
    rewrite Hd. rewrite <- C. apply IH; [exact A|]. now rewrite B.
Qed.

Lemma honest_total : forall F slice data m, honest F slice data m -> ch_total m = N.of_nat (length data).
Proof. intros F slice data m (j & i & _ & ->). reflexivity. Qed.

(** An answer the responder accepts and the requester cannot receive. *)
Lemma near_limit_answer_lost : forall E (z : zstd) (subs : list (subscriber E)) qid max d a log F slice rid ms,
  hash_ok qid -> decompress z d = None ->
  process_query subs d = (Ok (Processed (Some a)), log) ->
  N.of_nat (length a) <= max -> max < N.of_nat (length a) + 37 ->
  exists w, process_rldp_query z subs false qid max d = (Ok (Processed (Some w)), log)
    /\ (Forall (honest F slice w) ms -> incoming_done (fst (receive F (incoming_new rid max) ms)) = false).
Proof.
  intros E z subs qid max d a log F slice rid ms Hq Hd Ha H1 H2.
  exists (put_rldp_message (RAnswer qid a)). split.
  - unfold process_rldp_query. rewrite Hd, Ha. cbv zeta.
    destruct (N.ltb_spec max (N.of_nat (length a))); [lia|]. reflexivity.
  - intros Hh. apply too_big_never_done; [reflexivity|]. cbn [it_max incoming_new].
    eapply Forall_impl; [|exact Hh]. intros m Hm. rewrite (honest_total _ _ _ _ Hm).
    pose proof (answer_length qid a Hq). lia.
Qed.

(** Accepted answers that leave room for the envelope complete. *)
Lemma small_answer_received : forall F slice rid qid max a ms,
  fec_ok F -> 0 < slice -> slice < u32_max -> hash_ok qid -> N.of_nat (length a) + 43 <= max ->
  let w := put_rldp_message (RAnswer qid a) in
  Forall (honest F slice w) ms ->
  let t := fst (receive F (incoming_new rid max) (ms ++ all_source_chunks F slice w)) in
  incoming_done t = true /\ it_data t = w.
Proof.
  intros F slice rid qid max a ms HF Hs Hs32 Hq Hl w Hh.
  pose proof (answer_length qid a Hq) as Hw. fold w in Hw.
  apply receive_completes; try assumption; [|lia].
  intros He. rewrite He in Hw. cbn [length] in Hw. lia.
Qed.

(** ** Transfer ids *)

Lemma lxor_255 : forall b, N.lxor b 255 <> b.
Proof.
  intros b H. assert (H' : N.lxor b (N.lxor b 255) = N.lxor b b) by now rewrite H.
  rewrite <- N.lxor_assoc, N.lxor_nilpotent, N.lxor_0_l in H'. discriminate.
Qed.

Lemma negate_involutive : forall id, negate_id (negate_id id) = id.
Proof.
  intros id. unfold negate_id. rewrite map_map. rewrite <- (map_id id) at 2. apply map_ext.
  intros b. rewrite N.lxor_assoc. change (N.lxor 255 255) with 0. apply N.lxor_0_r.
Qed.

Lemma negate_differs : forall id, id <> [] -> negate_id id <> id.
Proof. intros [|b id] H; [congruence|]. cbn [negate_id map]. intros He. injection He as He _. now apply lxor_255 in He. Qed.

Lemma negate_ok : forall id, bytes_ok id = true -> bytes_ok (negate_id id) = true.
Proof.
  induction id as [|b id IH]; [reflexivity|]. rewrite bytes_ok_cons. intros [H1 H2].
  cbn [negate_id map]. apply bytes_ok_cons. split; [|now apply IH]. apply lxor_byte; lia.
Qed.

Lemma negate_length : forall id, length (negate_id id) = length id.
Proof. intros. apply map_length. Qed.

(** ** Timeouts *)

Lemma compute_timeout_bounds : forall o r, qo_min o <= qo_max o ->
  qo_min o <= compute_timeout o r <= qo_max o.
Proof.
  intros o r H. unfold compute_timeout. destruct r as [r|]; [|lia].
  destruct (N.ltb_spec (qo_max o) r); lia.
Qed.

Lemma timeouts_bounds : forall o measured r, qo_min o <= qo_max o ->
  Forall (fun t => qo_min o <= t <= qo_max o) (timeouts o r measured).
Proof.
  intros o measured. induction measured as [|e measured IH]; intros r H; [constructor|].
  cbn [timeouts update_roundtrip]. constructor; [now apply compute_timeout_bounds|now apply IH].
Qed.

(** Waiting longer takes more updates. *)
Lemma timed_out_updates : forall e t u u', u' <= u -> is_timed_out e t u = true -> is_timed_out e t u' = true.
Proof.
  intros e t u u' H. unfold is_timed_out. rewrite !N.ltb_lt. intros H1.
  assert (t * u' / 100 <= t * u / 100) by (apply N.div_le_mono; [lia|nia]). lia.
Qed.

Lemma waits_bounded : forall o e t u, t <= qo_max o ->
  is_timed_out e t u = false -> e <= qo_max o + qo_max o * u / 100.
Proof.
  intros o e t u Ht. unfold is_timed_out. rewrite N.ltb_ge. intros H.
  assert (t * u / 100 <= qo_max o * u / 100) by (apply N.div_le_mono; [lia|nia]). lia.
Qed.

Lemma no_updates_timeout : forall e t, is_timed_out e t 0 = (t <? e).
Proof. intros. unfold is_timed_out. rewrite N.mul_0_r, N.div_0_l by lia. now rewrite N.add_0_r. Qed.

(** Every measured time but the first counts for half of the estimate. *)
Lemma estimate : forall o r e,
  let r' := fst (update_roundtrip o r e) in
  (r = 0 -> r' = e)
  /\ (0 < r -> N.min r e <= r' <= N.max r e /\ 2 * r' <= r + e <= 2 * r' + 1).
Proof.
  intros o r e. unfold update_roundtrip. cbn [fst]. split.
  - intros ->. reflexivity.
  - intros H. replace (r =? 0) with false by (symmetry; apply N.eqb_neq; lia).
    pose proof (N.div_mod (r + e) 2 ltac:(discriminate)). pose proof (N.mod_lt (r + e) 2 ltac:(discriminate)). lia.
Qed.
