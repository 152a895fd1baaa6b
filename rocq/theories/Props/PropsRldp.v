(** C26-C36: compression and RLDP. *)
From Coq Require Import List NArith Arith Bool.
From Verif.Base Require Import Bytes Res.
From Verif.Model Require Import Tl Scheme ProtoRldp Compression Subscribers Fec RldpTransfer RldpQuery RldpTable RldpLimit.
From Verif.Spec Require Import Codec CompressionSpec FecSpec RldpSpec.
From Verif.Proof Require CompressionFacts FecFacts RldpParts RldpInFacts RldpOutFacts RldpQueryFacts RldpTableFacts.
Import ListNotations.
Open Scope N_scope.

(** C26: compression round-trip. *)
Theorem c26_roundtrip : forall z d, zstd_ok z -> bytes_ok d = true ->
  256 < N.of_nat (length d) -> N.of_nat (length d) < 2 ^ 32 ->
  decompress z (compress z d) = Some d.
Proof. exact CompressionFacts.compress_roundtrip. Qed.
Print Assumptions c26_roundtrip.

Theorem c26_short : forall z d, N.of_nat (length d) <= 256 -> compress z d = d.
Proof. exact CompressionFacts.compress_short. Qed.
Print Assumptions c26_short.

Example c26_example : zstd_ok toy_zstd
  /\ N.of_nat (length (compress toy_zstd (repeat 0 300))) = 23
  /\ decompress toy_zstd (compress toy_zstd (repeat 0 300)) = Some (repeat 0 300)
  /\ decompress toy_zstd (compress toy_zstd (repeat 7 300)) = Some (repeat 7 300).
Proof. split; [exact CompressionFacts.toy_zstd_ok|]. vm_compute. repeat split. Qed.

(** C27 is false as stated: a payload that is itself the compressed form of some [x] arrives as [x]. *)
Theorem c27_payload_refuted : forall z x, zstd_ok z -> bytes_ok x = true ->
  256 < N.of_nat (length x) -> N.of_nat (length x) < 2 ^ 32 -> last x 0 <> 128 ->
  let p := compress z x in
  received_payload z (sent_payload z false p) = x
  /\ (N.of_nat (length p) <= 256 -> received_payload z (sent_payload z true p) = x)
  /\ x <> p.
Proof. exact CompressionFacts.compressed_payload_replaced. Qed.
Print Assumptions c27_payload_refuted.

Example c27_payload_refuted_example :
  let x := repeat 0 300 in let p := compress toy_zstd x in
  N.of_nat (length p) <= 256
  /\ received_payload toy_zstd (sent_payload toy_zstd true p) = x
  /\ received_payload toy_zstd (sent_payload toy_zstd false p) = x /\ length p <> length x.
Proof. vm_compute. repeat split; discriminate. Qed.

(** C27: exactly these payloads are received unchanged. *)
Theorem c27_payload_partial : forall z force p, zstd_ok z -> bytes_ok p = true ->
  N.of_nat (length p) < 2 ^ 32 ->
  (received_payload z (sent_payload z force p) = p
   <-> (force = true /\ 256 < N.of_nat (length p)) \/ decompress z p = None \/ decompress z p = Some p).
Proof. exact CompressionFacts.delivered_iff. Qed.
Print Assumptions c27_payload_partial.

(** C27 for a query: what the first subscriber of the responder sees. *)
Theorem c27_query_partial : forall E z (s : subscriber E) subs force max tmo qid now p c r,
  zstd_ok z -> bytes_ok p = true -> N.of_nat (length p) < 2 ^ 32 ->
  hash_ok qid -> u64_ok max -> blob_ok (sent_payload z force p) -> get_u32 p = Some (c, r) ->
  (force = true /\ 256 < N.of_nat (length p) \/ decompress z p = None) ->
  exists d, query_from_data (make_query z force max tmo qid now p) = Some (qid, max, d)
    /\ forall responder_force,
       hd_error (snd (process_rldp_query z (s :: subs) responder_force qid max d)) = Some (0%nat, p).
Proof. exact RldpQueryFacts.query_delivered. Qed.
Print Assumptions c27_query_partial.

(** C27 for an answer: what the querying side gets. *)
Theorem c27_answer_partial : forall z force qid a,
  zstd_ok z -> bytes_ok a = true -> N.of_nat (length a) < 2 ^ 32 ->
  hash_ok qid -> blob_ok (sent_payload z force a) ->
  (force = true /\ 256 < N.of_nat (length a) \/ decompress z a = None) ->
  accept_answer z qid (put_rldp_message (RAnswer qid (sent_payload z force a))) = Ok a.
Proof. exact RldpQueryFacts.answer_delivered. Qed.
Print Assumptions c27_answer_partial.

Example c27_query_example :
  let qid := repeat 5 32 in let p := [1; 2; 3; 4] ++ repeat 0 300 in
  let s : subscriber unit := fun c q => Consumed (Some (9 :: q)) in
  (exists d, query_from_data (make_query toy_zstd true 5000 10000 qid 100 p) = Some (qid, 5000, d)
     /\ snd (process_rldp_query toy_zstd [s] false qid 5000 d) = [(0%nat, p)]
     /\ exists w, fst (process_rldp_query toy_zstd [s] false qid 5000 d) = Ok (Processed (Some w))
          /\ accept_answer toy_zstd qid w = Ok (9 :: p)).
Proof.
  eexists. split; [vm_compute; reflexivity|]. split; [vm_compute; reflexivity|].
  eexists. split; vm_compute; reflexivity.
Qed.

(** C28: whatever chunks arrive, the data collected is no longer than the announced total, the total
    is within the limit and never changes. *)
Theorem c28_limits : forall F id max ms1 ms2,
  let t1 := fst (receive F (incoming_new id max) ms1) in
  let t2 := fst (receive F (incoming_new id max) (ms1 ++ ms2)) in
  (forall total, it_total t1 = Some total ->
     N.of_nat (length (it_data t1)) <= total /\ total <= max /\ it_total t2 = Some total)
  /\ (it_total t1 = None -> it_data t1 = []).
Proof. exact RldpInFacts.receive_limits. Qed.
Print Assumptions c28_limits.

Example c28_limits_example :
  let m := chunk_of toy_fec 4 [1; 2; 3; 4; 5; 6] in
  let t := fst (receive toy_fec (incoming_new [7] 6) [m 0 0; mk_chunk (ch_fec (m 1 0)) 1 9 0 (ch_data (m 1 0))]) in
  it_total t = Some 6 /\ it_data t = [1; 2; 3; 4] /\ it_part t = 1
  /\ it_total (fst (receive toy_fec (incoming_new [7] 5) [m 0 0])) = None.
Proof. vm_compute. repeat split. Qed.

(** C29: whatever of the sender's chunks arrives in whatever order and number, what is collected is
    the beginning of the data, and all of it when the transfer is complete; parts are reported complete
    only when collected. *)
Theorem c29_reassembly : forall F, fec_ok F -> forall slice, 0 < slice -> slice < u32_max ->
  forall data id max ms, Forall (honest F slice data) ms ->
  let '(t, replies) := receive F (incoming_new id max) ms in
  it_data t = first_parts slice data (it_part t) /\ it_part t <= part_count slice data
    /\ incoming_done t = false
    /\ (forall k j, In (MpComplete k j) replies -> j < it_part t)
  \/ it_data t = data /\ incoming_done t = true.
Proof. exact RldpInFacts.receive_honest. Qed.
Print Assumptions c29_reassembly.

(** C29: nothing received before can prevent completion. *)
Theorem c29_completion : forall F, fec_ok F -> forall slice, 0 < slice -> slice < u32_max ->
  forall data id max ms, data <> [] -> N.of_nat (length data) <= max ->
  Forall (honest F slice data) ms ->
  let t := fst (receive F (incoming_new id max) (ms ++ all_source_chunks F slice data)) in
  incoming_done t = true /\ it_data t = data.
Proof. exact RldpInFacts.receive_completes. Qed.
Print Assumptions c29_completion.

(** C29, both ends: a sender that reports success without having seen an answer has delivered
    everything. *)
Theorem c29_transfer : forall F, fec_ok F -> forall slice, 0 < slice -> slice < u32_max ->
  forall checked data id rid max evs ms,
  let '(s, sent) := send_run F slice checked (sender_new id data) evs in
  let '(t, replies) := receive F (incoming_new rid max) ms in
  Forall event_ok evs ->
  (forall m, In m ms -> In m sent) ->
  (forall j, In (EvComplete j) evs -> exists k, In (MpComplete k j) replies) ->
  ~ In EvReply evs -> data <> [] ->
  se_point s = SentAll ->
  incoming_done t = true /\ it_data t = data.
Proof. exact RldpOutFacts.transfer_delivers. Qed.
Print Assumptions c29_transfer.

Example c29_example : fec_ok toy_fec
  /\ let data := [1; 2; 3; 4; 5; 6; 7; 8; 9] in
     let m := chunk_of toy_fec 4 data in
     let t := fst (receive toy_fec (incoming_new [7] 9) [m 1 0; m 0 5; m 2 0; m 0 0; m 0 0; m 1 0; m 0 0; m 2 0]) in
     it_data t = data /\ incoming_done t = true.
Proof. split; [exact FecFacts.toy_fec_ok|]. vm_compute. split; reflexivity. Qed.

Example c29_transfer_example :
  let data := [1; 2; 3; 4; 5; 6] in
  let '(s, sent) := send_run toy_fec 4 true (sender_new [7] data)
     [EvStep; EvStep; EvStep; EvComplete 0; EvStep; EvStep; EvStep; EvStep; EvComplete 1; EvStep; EvStep] in
  let '(t, replies) := receive toy_fec (incoming_new [7] 9) sent in
  se_point s = SentAll /\ length sent = 2%nat
  /\ replies = [MpComplete [7] 0; MpComplete [7] 1] /\ it_data t = data.
Proof. vm_compute. repeat split. Qed.

(** C30: the parts are consecutive slices that make up the data. *)
Theorem c30_parts : forall slice data, 0 < slice ->
  concat (map (part_of slice data) (numbers (part_count slice data))) = data
  /\ forall j, j < part_count slice data ->
       0 < N.of_nat (length (part_of slice data j)) <= slice
       /\ first_parts slice data (j + 1) = first_parts slice data j ++ part_of slice data j.
Proof. exact RldpParts.parts_cover. Qed.
Print Assumptions c30_parts.

(** C30: only symbols of these parts are sent, of a part only after all earlier parts were reported
    complete; success is reported only after every part was (the last one: or an answer began), for all
    messages received, true or forged. *)
Theorem c30_acknowledged : forall F, fec_ok F -> forall slice, 0 < slice -> slice < u32_max ->
  forall checked data id evs, Forall event_ok evs ->
  let '(s, ms) := send_run F slice checked (sender_new id data) evs in
  (se_point s = SentAll -> forall j, j < part_count slice data ->
     In (EvComplete j) evs \/ j + 1 = part_count slice data /\ In EvReply evs)
  /\ Forall (fun m => honest F slice data m /\ forall j, j < ch_part m -> In (EvComplete j) evs) ms.
Proof. exact RldpOutFacts.send_run_new. Qed.
Print Assumptions c30_acknowledged.

Example c30_example :
  let data := [1; 2; 3; 4; 5; 6] in
  let run evs := send_run toy_fec 4 false (sender_new [7] data) evs in
  map (part_of 4 data) (numbers (part_count 4 data)) = [[1; 2; 3; 4]; [5; 6]]
  /\ map ch_part (snd (run [EvStep; EvStep; EvStep; EvComplete 1; EvStep; EvStep; EvComplete 0; EvComplete 0; EvStep; EvStep; EvStep; EvStep]))
     = [0; 0; 1]
  /\ se_point (fst (run [EvStep; EvStep; EvStep; EvComplete 0; EvReply; EvStep; EvStep])) = SentAll.
Proof. vm_compute. repeat split. Qed.

(** C31 is false as stated: when a part has more source symbols than the window, all its repair chunks
    are one and the same. *)
Theorem c31_fresh_refuted : forall F slice checked id data evs,
  fec_ok F -> 0 < slice -> slice < u32_max -> data <> [] ->
  1000 < fe_count F (part_of slice data 0) ->
  let t := fst (start_next_part F slice (outgoing_new id data)) in
  let ms := snd (part_run F checked t evs) in
  fe_count F (part_of slice data 0) + 2 <= N.of_nat (length ms) ->
  ~ NoDup (map ch_seqno ms).
Proof. exact RldpOutFacts.big_first_part. Qed.
Print Assumptions c31_fresh_refuted.

Example c31_fresh_refuted_example : forall id,
  let data := repeat 0 (N.to_nat 800000) in
  let t := fst (start_next_part toy_fec 2000000 (outgoing_new id data)) in
  let ms := snd (part_run toy_fec false t (repeat PChunk (N.to_nat 1044))) in
  fe_count toy_fec (part_of 2000000 data 0) = 1042 /\ length ms = N.to_nat 1044 /\ ~ NoDup (map ch_seqno ms).
Proof. exact RldpOutFacts.big_part_exists. Qed.

(** C31: the window compares numbers of different parts; with overflow checks, the first chunk of a
    part after a part with a confirmation panics. *)
Theorem c31_window_refuted : forall F slice id data t,
  fec_ok F -> 0 < slice -> slice < u32_max -> ot_data t = data -> ot_id t = id ->
  os_reply (ot_state t) = false -> 0 < os_in (ot_state t) ->
  os_part (ot_state t) < part_count slice data ->
  prepare_chunk F true (fst (start_next_part F slice t)) = ChunkOverflow.
Proof. exact RldpOutFacts.second_part_panics. Qed.
Print Assumptions c31_window_refuted.

Example c31_window_refuted_example :
  let run evs := se_point (fst (send_run toy_fec 4 true (sender_new [7] [1; 2; 3; 4; 5; 6]) evs)) in
  let evs := [EvStep; EvStep; EvStep; EvConfirm 0 1; EvComplete 0; EvStep; EvStep; EvStep] in
  run evs = AtSend 1 /\ run (evs ++ [EvStep]) = SendFailed.
Proof. vm_compute. split; reflexivity. Qed.

(** C31, the part that holds: fresh as long as the receiver's confirmations keep up with the window. *)
Theorem c31_fresh_partial : forall F slice checked id data evs,
  fec_ok F -> 0 < slice -> slice < u32_max -> data <> [] ->
  let t := fst (start_next_part F slice (outgoing_new id data)) in
  window_kept F checked t evs -> NoDup (map ch_seqno (snd (part_run F checked t evs))).
Proof. exact RldpOutFacts.first_part_in_window. Qed.
Print Assumptions c31_fresh_partial.

(** C31, the part that holds: the source symbols are sent first, each once, in order. *)
Theorem c31_source_partial : forall F slice checked id data evs a m, 0 < slice -> data <> [] ->
  let t := fst (start_next_part F slice (outgoing_new id data)) in
  nth_error (snd (part_run F checked t evs)) a = Some m ->
  N.of_nat a < fe_count F (part_of slice data 0) -> ch_seqno m = N.of_nat a.
Proof. exact RldpOutFacts.first_symbols. Qed.
Print Assumptions c31_source_partial.

Example c31_partial_example :
  let t := fst (start_next_part toy_fec 2000 (outgoing_new [7] (repeat 3 800))) in
  let evs := [PChunk; PChunk; PConfirm 0 1; PChunk; PChunk] in
  window_kept toy_fec true t evs
  /\ map ch_seqno (snd (part_run toy_fec true t evs)) = [0; 1; 4; 6].
Proof. vm_compute. repeat split; discriminate. Qed.

(** C32 is false as stated: the limit is checked before the answer is wrapped, so an answer within 36
    bytes of the limit is accepted by the responder and never by the requester. *)
Theorem c32_limit_refuted : forall E (z : zstd) (subs : list (subscriber E)) qid max d a log F slice rid ms,
  hash_ok qid -> decompress z d = None ->
  process_query subs d = (Ok (Processed (Some a)), log) ->
  N.of_nat (length a) <= max -> max < N.of_nat (length a) + 37 ->
  exists w, process_rldp_query z subs false qid max d = (Ok (Processed (Some w)), log)
    /\ (Forall (honest F slice w) ms -> incoming_done (fst (receive F (incoming_new rid max) ms)) = false).
Proof. exact RldpQueryFacts.near_limit_answer_lost. Qed.
Print Assumptions c32_limit_refuted.

(** C32: what the responder compares with the limit is the answer as it is sent, compressed or not. *)
Theorem c32_checked : forall E (z : zstd) (subs : list (subscriber E)) force qid max d a log,
  process_query subs (received_payload z d) = (Ok (Processed (Some a)), log) ->
  let sent := sent_payload z (match decompress z d with Some _ => true | None => force end) a in
  process_rldp_query z subs force qid max d
  = (if N.of_nat (length sent) <=? max then Ok (Processed (Some (put_rldp_message (RAnswer qid sent))))
     else Err AnswerSizeExceeded, log).
Proof. exact RldpQueryFacts.answer_limit. Qed.
Print Assumptions c32_checked.

Example c32_checked_example :
  let s : subscriber unit := fun c q => Consumed (Some (repeat 0 300)) in
  fst (process_rldp_query toy_zstd [s] false (repeat 5 32) 100 [1; 2; 3; 4]) = Err AnswerSizeExceeded
  /\ fst (process_rldp_query toy_zstd [s] true (repeat 5 32) 100 [1; 2; 3; 4]) <> Err AnswerSizeExceeded.
Proof. split; [vm_compute; reflexivity|]. vm_compute. discriminate. Qed.

(** C32, the part that holds: with 43 bytes of room the transfer can always complete. *)
Theorem c32_limit_partial : forall F slice rid qid max a ms,
  fec_ok F -> 0 < slice -> slice < u32_max -> hash_ok qid -> N.of_nat (length a) + 43 <= max ->
  let w := put_rldp_message (RAnswer qid a) in
  Forall (honest F slice w) ms ->
  let t := fst (receive F (incoming_new rid max) (ms ++ all_source_chunks F slice w)) in
  incoming_done t = true /\ it_data t = w.
Proof. exact RldpQueryFacts.small_answer_received. Qed.
Print Assumptions c32_limit_partial.

Example c32_example :
  let qid := repeat 5 32 in
  let s : subscriber unit := fun c q => Consumed (Some (repeat 1 60)) in
  let try max :=
    match fst (process_rldp_query toy_zstd [s] false qid max [1; 2; 3; 4]) with
    | Ok (Processed (Some w)) =>
        Some (incoming_done (fst (receive toy_fec (incoming_new [7] max) (all_source_chunks toy_fec 100 w))))
    | _ => None
    end in
  try 59 = None /\ try 60 = Some false /\ try 96 = Some false /\ try 103 = Some true.
Proof. vm_compute. repeat split. Qed.

(** C33, the querying side: whatever the outcome, both entries of a query are gone at the end. *)
Theorem c33_query_removed : forall ts1 ts2 id o trace, id <> [] ->
  interleaving (flat_map tasks_of (ts1 ++ TQuery id o :: ts2)) trace ->
  own_ids (TQuery id o) (ts1 ++ ts2) ->
  stored trace id = None /\ stored trace (negate_id id) = None.
Proof. exact RldpTableFacts.query_removed. Qed.
Print Assumptions c33_query_removed.

(** C33 is false for answers: when sending the answer fails, its entry stays in every schedule. *)
Theorem c33_answer_refuted : forall ts1 ts2 id trace, id <> [] ->
  interleaving (flat_map tasks_of (ts1 ++ TAnswer id ASendError :: ts2)) trace ->
  own_ids (TAnswer id ASendError) (ts1 ++ ts2) ->
  stored trace (negate_id id) = Some EOutgoing.
Proof. exact RldpTableFacts.answer_leaked. Qed.
Print Assumptions c33_answer_refuted.

(** C33: a timer that fires after the removal puts the entry back for ever. *)
Theorem c33_timer_refuted : forall id, id <> [] ->
  exists trace, interleaving (flat_map tasks_of [TAnswer id ANothing]) trace
    /\ stored trace id = Some EDone.
Proof. exact RldpTableFacts.timer_leaks. Qed.
Print Assumptions c33_timer_refuted.

(** C33, the part that holds for answers. *)
Theorem c33_answer_partial : forall ts1 ts2 id o trace, id <> [] -> o <> ASendError ->
  interleaving (flat_map tasks_of (ts1 ++ TAnswer id o :: ts2)) trace ->
  own_ids (TAnswer id o) (ts1 ++ ts2) ->
  stored trace (negate_id id) = None
  /\ forall t1 t2, trace = t1 ++ ARemove id :: t2 -> ~ In (AInsert id EDone) t2 -> stored trace id = None.
Proof. exact RldpTableFacts.answer_removed. Qed.
Print Assumptions c33_answer_partial.

Example c33_example :
  let trace := concat (flat_map tasks_of [TAnswer [1] ASendError; TAnswer [2] ASent]) in
  stored trace (negate_id [1]) = Some EOutgoing /\ stored trace (negate_id [2]) = None
  /\ stored trace [2] = Some EDone.
Proof. vm_compute. repeat split. Qed.

(** C34: the two ids of a query. *)
Theorem c34_ids : forall id,
  negate_id (negate_id id) = id /\ (id <> [] -> negate_id id <> id)
  /\ length (negate_id id) = length id /\ (bytes_ok id = true -> bytes_ok (negate_id id) = true).
Proof.
  exact (fun id => conj (RldpQueryFacts.negate_involutive id) (conj (RldpQueryFacts.negate_differs id)
           (conj (RldpQueryFacts.negate_length id) (RldpQueryFacts.negate_ok id)))).
Qed.
Print Assumptions c34_ids.

Example c34_example : negate_id [0; 255; 18] = [255; 0; 237].
Proof. vm_compute. reflexivity. Qed.

(** C35: timeouts after any measured round trips lie between the configured bounds. *)
Theorem c35_timeouts : forall o measured r, qo_min o <= qo_max o ->
  Forall (fun t => qo_min o <= t <= qo_max o) (timeouts o r measured).
Proof. exact RldpQueryFacts.timeouts_bounds. Qed.
Print Assumptions c35_timeouts.

(** C35: the estimate of the round-trip time is the first measured time; later ones count for half each,
    so that a single one cannot move it beyond the times measured. *)
Theorem c35_estimate : forall o r e,
  let r' := fst (update_roundtrip o r e) in
  (r = 0 -> r' = e)
  /\ (0 < r -> N.min r e <= r' <= N.max r e /\ 2 * r' <= r + e <= 2 * r' + 1).
Proof. exact RldpQueryFacts.estimate. Qed.
Print Assumptions c35_estimate.

(** C35: without a message a transfer waits for its timeout; more waiting takes more messages. *)
Theorem c35_waiting : forall o e t u, t <= qo_max o ->
  is_timed_out e t 0 = (t <? e)
  /\ (forall u', u' <= u -> is_timed_out e t u = true -> is_timed_out e t u' = true)
  /\ (is_timed_out e t u = false -> e <= qo_max o + qo_max o * u / 100).
Proof.
  exact (fun o e t u H => conj (RldpQueryFacts.no_updates_timeout e t)
    (conj (fun u' => RldpQueryFacts.timed_out_updates e t u u') (RldpQueryFacts.waits_bounded o e t u H))).
Qed.
Print Assumptions c35_waiting.

(** C35: the query tells the responder the time, in seconds, at which the longest wait ends. *)
Theorem c35_deadline : forall z force max tmo qid now p,
  hash_ok qid -> u64_ok max -> blob_ok (sent_payload z force p) ->
  tmo < u32_max -> now + tmo / 1000 < u32_max ->
  get_rldp_message (make_query z force max tmo qid now p)
  = Some (RQuery qid max (now + tmo / 1000) (sent_payload z force p), []).
Proof. exact RldpQueryFacts.query_as_read. Qed.
Print Assumptions c35_deadline.

Example c35_deadline_example :
  get_rldp_message (make_query toy_zstd false 5000 10000 (repeat 5 32) 1700000000 [1; 2; 3; 4])
  = Some (RQuery (repeat 5 32) 5000 1700000010 [1; 2; 3; 4], []).
Proof. vm_compute. reflexivity. Qed.

Example c35_example :
  let o := mk_query_options 500 10000 in
  timeouts o 0 [100; 900; 40000; 1] = [500; 500; 10000; 10000]
  /\ fst (update_roundtrip o 100 900) = 500
  /\ is_timed_out 10001 10000 0 = true /\ is_timed_out 10001 10000 1 = false.
Proof. vm_compute. repeat split. Qed.

(** C36 is false as stated: if the collector runs between looking the semaphore up and taking a permit,
    the limit is void. *)
Theorem c36_limit_refuted : forall max n, (0 < max)%nat ->
  exists evs, in_flight (limit_run max limiter_new evs) = n.
Proof. exact RldpTableFacts.limit_exceeded. Qed.
Print Assumptions c36_limit_refuted.

(** C36, the part that holds: without that, at most [max] queries run. *)
Theorem c36_limit_partial : forall max evs, gc_in_peace max limiter_new evs ->
  (in_flight (limit_run max limiter_new evs) <= max)%nat.
Proof. exact RldpTableFacts.limit_kept. Qed.
Print Assumptions c36_limit_partial.

Example c36_example :
  let evs := [LAsk; LAcquire 0%nat; LAsk; LAsk; LAcquire 1%nat; LAcquire 2%nat; LFinish 0%nat; LAcquire 2%nat; LFinish 1%nat; LFinish 2%nat; LGc] in
  gc_in_peace 2 limiter_new evs
  /\ in_flight (limit_run 2 limiter_new (firstn 6 evs)) = 2%nat
  /\ li_table (limit_run 2 limiter_new evs) = None
  /\ in_flight (limit_run 1 limiter_new [LAsk; LGc; LAcquire 0%nat; LAsk; LAcquire 1%nat]) = 2%nat.
Proof. vm_compute. repeat split; try discriminate; repeat constructor. Qed.
