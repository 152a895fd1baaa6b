(** RLDP transfers: /repo/src/rldp/incoming_transfer.rs, /repo/src/rldp/outgoing_transfer.rs and
    the receiving and sending loops of /repo/src/rldp/transfers_cache.rs. *)
From Coq Require Import List NArith Bool.
From Verif.Base Require Import Bytes Res.
From Verif.Model Require Import ProtoRldp Fec.
Import ListNotations.
Open Scope N_scope.

(** ** Receiving *)

(** A received message part (incoming_transfer.rs:161-167). *)
Record chunk := mk_chunk {
  ch_fec : fec_type; ch_part : N; ch_total : N; ch_seqno : N; ch_data : bytes }.

(** [IncomingTransfer] (10-20) without the reply buffer; the [updates] counter of the shared
    state is kept here. *)
Record incoming := mk_incoming {
  it_id : bytes;
  it_max : N;
  it_confirm : N;
  it_data : bytes;
  it_decoder : option decoder;
  it_part : N;
  it_total : option N;
  it_updates : N
}.

(** [new] (23-35). *)
Definition incoming_new (id : bytes) (max : N) : incoming := mk_incoming id max 0 [] None 0 None 0.

(** [IncomingTransferError] (169-177). *)
Inductive in_error := TotalSizeMismatch | TooBigTransferSize | PacketParametersMismatch.

Definition set_total (t : incoming) (total : N) : incoming :=
  mk_incoming (it_id t) (it_max t) (it_confirm t) (it_data t) (it_decoder t) (it_part t)
    (Some total) (it_updates t).

Definition set_decoder (t : incoming) (d : decoder) : incoming :=
  mk_incoming (it_id t) (it_max t) (it_confirm t) (it_data t) (Some d) (it_part t) (it_total t)
    (it_updates t).

Definition set_confirm (t : incoming) (c : N) : incoming :=
  mk_incoming (it_id t) (it_max t) c (it_data t) (it_decoder t) (it_part t) (it_total t)
    (it_updates t).

(** Decoding a chunk of the current part (98-138): [d] is the decoder in use. *)
Definition process_current (F : fec) (t : incoming) (total : N) (d : decoder) (m : chunk)
  : incoming * res in_error (option message_part) :=
  let (r, d') := decode F d (ch_seqno m) (ch_data m) in
  let t := set_decoder t d' in
  match r with
  | Some data =>
      if total <? N.of_nat (length data + length (it_data t))
      then (t, Err TooBigTransferSize)
      else
        let all := it_data t ++ data in
        let t :=
          if N.of_nat (length all) <? total
          then mk_incoming (it_id t) (it_max t) 0 all None (it_part t + 1) (it_total t) (it_updates t)
          else mk_incoming (it_id t) (it_max t) (it_confirm t) all (it_decoder t) (it_part t)
                 (it_total t) (it_updates t) in
        (t, Ok (Some (MpComplete (it_id t) (ch_part m))))
  | None =>
      if it_confirm t =? 9
      then (set_confirm t 0, Ok (Some (MpConfirm (it_id t) (ch_part m) (de_seqno d'))))
      else (set_confirm t (it_confirm t + 1), Ok None)
  end.

(** Choice of the decoder by the part number (74-96). *)
Definition process_part (F : fec) (t : incoming) (total : N) (m : chunk)
  : incoming * res in_error (option message_part) :=
  match ch_part m ?= it_part t with
  | Eq =>
      match it_decoder t with
      | Some d =>
          if fec_type_eqb (de_params d) (ch_fec m) then process_current F t total d m
          else (t, Err PacketParametersMismatch)
      | None => process_current F t total (decoder_new (ch_fec m)) m
      end
  | Lt => (t, Ok (Some (MpComplete (it_id t) (ch_part m))))
  | Gt => (t, Ok None)
  end.

(** [process_chunk] (53-139).  [part += 1] is not wrapped: it is bounded by the number of
    received chunks. *)
Definition process_chunk (F : fec) (t : incoming) (m : chunk)
  : incoming * res in_error (option message_part) :=
  match it_total t with
  | Some total =>
      if total =? ch_total m then process_part F t total m else (t, Err TotalSizeMismatch)
  | None =>
      if it_max t <? ch_total m then (t, Err TooBigTransferSize)
      else process_part F (set_total t (ch_total m)) (ch_total m) m
  end.

(** All bytes were received (transfers_cache.rs:387-390). *)
Definition incoming_done (t : incoming) : bool :=
  match it_total t with Some total => total <=? N.of_nat (length (it_data t)) | None => false end.

(** One turn of the receiving loop (transfers_cache.rs:361-396): the chunk is processed, errors
    are only logged, the update counter grows with every message. *)
Definition receive_one (F : fec) (t : incoming) (m : chunk) : incoming * option message_part :=
  let (t', r) := process_chunk F t m in
  (mk_incoming (it_id t') (it_max t') (it_confirm t') (it_data t') (it_decoder t') (it_part t')
     (it_total t') (it_updates t' + 1),
   match r with Ok reply => reply | Err _ => None end).

(** [receive] (transfers_cache.rs:359-401) on the chunks that arrive, in order: it stops at the
    first moment everything was received; [None] as long as more is awaited. *)
Fixpoint receive (F : fec) (t : incoming) (ms : list chunk) : incoming * list message_part :=
  match ms with
  | [] => (t, [])
  | m :: rest =>
      let (t, reply) := receive_one F t m in
      let out := match reply with Some r => [r] | None => [] end in
      if incoming_done t then (t, out)
      else let (t, more) := receive F t rest in (t, out ++ more)
  end.

(** ** Sending *)

(** [WINDOW], [SLICE] (outgoing_transfer.rs:170-171). *)
Definition WINDOW : N := 1000.
Definition SLICE : N := 2000000.

(** [OutgoingTransferState] (123-129). *)
Record out_state := mk_out_state { os_part : N; os_reply : bool; os_out : N; os_in : N }.
Definition out_state_new : out_state := mk_out_state 0 false 0 0.

(** [set_part] (136-140): compare-and-swap; [part - 1] wraps (release build). *)
Definition set_part (s : out_state) (part : N) : out_state :=
  if os_part s =? (part + u32_max - 1) mod u32_max
  then mk_out_state part (os_reply s) (os_out s) (os_in s) else s.

(** [set_reply] (146-148). *)
Definition set_reply (s : out_state) : out_state :=
  mk_out_state (os_part s) true (os_out s) (os_in s).

(** [set_seqno_out] (154-156). *)
Definition set_seqno_out (s : out_state) (seqno : N) : out_state :=
  mk_out_state (os_part s) (os_reply s) (N.max (os_out s) seqno) (os_in s).

(** [set_seqno_in] (162-167). *)
Definition set_seqno_in (s : out_state) (seqno : N) : out_state :=
  if os_out s <? seqno then s
  else mk_out_state (os_part s) (os_reply s) (os_out s) (N.max (os_in s) seqno).

(** Effect of a [Confirm] and of a [Complete] message for this transfer
    (transfers_cache.rs:243-262); [part + 1] wraps (release build). *)
Definition on_confirm (s : out_state) (part seqno : N) : out_state :=
  if os_part s =? part then set_seqno_in s seqno else s.
Definition on_complete (s : out_state) (part : N) : out_state :=
  set_part s ((part + 1) mod u32_max).

(** [OutgoingTransfer] (11-18). *)
Record outgoing := mk_outgoing {
  ot_id : bytes; ot_data : bytes; ot_current : N; ot_encoder : option encoder; ot_state : out_state }.

(** [new] (21-32). *)
Definition outgoing_new (id data : bytes) : outgoing := mk_outgoing id data 0 None out_state_new.

Definition set_state (t : outgoing) (s : out_state) : outgoing :=
  mk_outgoing (ot_id t) (ot_data t) (ot_current t) (ot_encoder t) s.

(** [is_finished] (102-104).  Here and below [slice] is [SLICE]; it is an argument so that the
    theorems do not depend on its value. *)
Definition is_finished (slice : N) (t : outgoing) : bool :=
  os_reply (ot_state t)
  && (N.of_nat (length (ot_data t)) <=? (os_part (ot_state t) + 1) * slice).

(** [start_next_part] (40-65). *)
Definition start_next_part (F : fec) (slice : N) (t : outgoing) : outgoing * option N :=
  if is_finished slice t then (t, None)
  else
    let total := N.of_nat (length (ot_data t)) in
    let part := os_part (ot_state t) in
    let processed := part * slice in
    if total <=? processed then (t, None)
    else
      let size := N.min (total - processed) slice in
      let data := firstn (N.to_nat size) (skipn (N.to_nat processed) (ot_data t)) in
      let t := mk_outgoing (ot_id t) (ot_data t) part (Some (encoder_new data)) (ot_state t) in
      let count := ft_packet_count (fec_params F data) in
      (t, if 0 <? count then Some count else None).

(** Result of [prepare_chunk]: [ChunkOverflow] is the panic of the subtraction at line 81 in
    builds with overflow checks. *)
Inductive prepared :=
| ChunkReady (t : outgoing) (m : chunk)
| EncoderIsNotReady
| ChunkOverflow.

(** [prepare_chunk] (67-100); [checked]: the build has overflow checks. *)
Definition prepare_chunk (F : fec) (checked : bool) (t : outgoing) : prepared :=
  match ot_encoder t with
  | None => EncoderIsNotReady
  | Some e =>
      let s := ot_state t in
      let previous := os_out s in
      let '(seqno, data, e') := encode F e previous in
      if checked && (seqno <? os_in s) then ChunkOverflow
      else
        let ahead := (seqno + u32_max - os_in s) mod u32_max in
        let s' :=
          if ahead <=? WINDOW
          then set_seqno_out s (if previous =? seqno then seqno + 1 else seqno)
          else s in
        ChunkReady
          (mk_outgoing (ot_id t) (ot_data t) (ot_current t) (Some e') s')
          (mk_chunk (fec_params F (en_data e)) (ot_current t) (N.of_nat (length (ot_data t)))
             seqno data)
  end.

(** [is_finished_or_next_part] (106-116); [None]: [PartMismatch]. *)
Definition is_finished_or_next_part (slice : N) (t : outgoing) (part : N) : option bool :=
  if is_finished slice t then Some true
  else if os_part (ot_state t) =? part then Some false
  else if os_part (ot_state t) =? part + 1 then Some true
  else None.

(** Where the sending loop is (transfers_cache.rs:464-520). *)
Inductive send_point :=
| AtStart                    (* before [start_next_part], line 476 *)
| AtPart                     (* before reading the part number, line 479 *)
| AtSend (part : N)          (* before [prepare_chunk], line 490, or the end of a wave *)
| AtCheck (part : N)         (* before [is_finished_or_next_part], lines 493 and 499 *)
| SentAll                    (* returned [Ok((true, _))] *)
| TimedOut                   (* returned [Ok((false, _))] *)
| SendFailed.                (* returned an error, or panicked *)

Record sender := mk_sender { se_transfer : outgoing; se_point : send_point }.
Definition sender_new (id data : bytes) : sender := mk_sender (outgoing_new id data) AtStart.

(** What can happen next: the loop advances, its wait times out, the ADNL layer refuses a
    datagram, or a message for this transfer is handled concurrently (a [Confirm], a [Complete],
    or the first part of the answer, which sets [has_reply]). *)
Inductive send_event :=
| EvStep
| EvTimeout
| EvRefused
| EvConfirm (part seqno : N)
| EvComplete (part : N)
| EvReply.

(** One event; also the chunk handed to the ADNL layer, if any. *)
Definition send_step (F : fec) (slice : N) (checked : bool) (s : sender) (ev : send_event)
  : sender * option chunk :=
  let t := se_transfer s in
  match ev with
  | EvConfirm part seqno => (mk_sender (set_state t (on_confirm (ot_state t) part seqno)) (se_point s), None)
  | EvComplete part => (mk_sender (set_state t (on_complete (ot_state t) part)) (se_point s), None)
  | EvReply => (mk_sender (set_state t (set_reply (ot_state t))) (se_point s), None)
  | EvTimeout =>
      match se_point s with
      | AtSend _ => (mk_sender t TimedOut, None)
      | _ => (s, None)
      end
  | EvRefused =>
      match se_point s with
      | AtCheck _ => (mk_sender t SendFailed, None)
      | _ => (s, None)
      end
  | EvStep =>
      match se_point s with
      | AtStart =>
          match start_next_part F slice t with
          | (t, Some _) => (mk_sender t AtPart, None)
          | (t, None) => (mk_sender t SentAll, None)
          end
      | AtPart => (mk_sender t (AtSend (os_part (ot_state t))), None)
      | AtSend part =>
          match prepare_chunk F checked t with
          | ChunkReady t m => (mk_sender t (AtCheck part), Some m)
          | EncoderIsNotReady | ChunkOverflow => (mk_sender t SendFailed, None)
          end
      | AtCheck part =>
          match is_finished_or_next_part slice t part with
          | Some true => (mk_sender t AtStart, None)
          | Some false => (mk_sender t (AtSend part), None)
          | None => (mk_sender t SendFailed, None)
          end
      | SentAll | TimedOut | SendFailed => (s, None)
      end
  end.

(** A whole run: the final sender and the chunks sent, in order. *)
Fixpoint send_run (F : fec) (slice : N) (checked : bool) (s : sender) (evs : list send_event)
  : sender * list chunk :=
  match evs with
  | [] => (s, [])
  | ev :: rest =>
      let (s, out) := send_step F slice checked s ev in
      let (s, more) := send_run F slice checked s rest in
      (s, match out with Some m => m :: more | None => more end)
  end.
