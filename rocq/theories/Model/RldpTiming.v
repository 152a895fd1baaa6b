(** How long an RLDP query waits (/repo/src/rldp/transfers_cache.rs).  Times are readings of one clock in
    milliseconds; [Instant::elapsed] is the difference to the current reading.  Two readings in a row
    (503-508, 119-121) are taken as one. *)
From Coq Require Import List NArith Bool.
From Verif.Base Require Import Bytes.
From Verif.Model Require Import RldpQuery.
Import ListNotations.
Open Scope N_scope.

(** ** Sending *)

(** The variables of [OutgoingContext::send] (467-485): [roundtrip], [timeout], [start], [incoming_seqno]. *)
Record send_wait := mk_send_wait { sw_roundtrip : N; sw_timeout : N; sw_start : N; sw_seqno : N }.

(** 470-471, and 481-483 for the first part. *)
Definition send_wait_new (o : query_options) (roundtrip : option N) (now : N) : send_wait :=
  mk_send_wait (match roundtrip with Some r => r | None => 0 end) (compute_timeout o roundtrip) now 0.

(** What the loop sees: the end of a wave with the highest confirmed symbol (499-511), the end of the part
    (493-501, then 515, and the next part begins, 476-483), or the end of the last part (519). *)
Inductive send_sight := WaveOver (now seqno : N) | PartOver (now : N) | LastOver (now : N).
Inductive send_end := StillSending (st : send_wait) | NotSent (roundtrip : N) | Sent (roundtrip : N).

Definition send_look (o : query_options) (st : send_wait) (ev : send_sight) : send_end :=
  match ev with
  | WaveOver now seqno =>
      if sw_seqno st <? seqno then
        let (r, t) := update_roundtrip o (sw_roundtrip st) (now - sw_start st) in
        StillSending (mk_send_wait r t now seqno)
      else if is_timed_out (now - sw_start st) (sw_timeout st) (sw_seqno st)
      then NotSent (big_roundtrip o (sw_roundtrip st))
      else StillSending st
  | PartOver now =>
      let (r, t) := update_roundtrip o (sw_roundtrip st) (now - sw_start st) in
      StillSending (mk_send_wait r t now 0)
  | LastOver now => Sent (fst (update_roundtrip o (sw_roundtrip st) (now - sw_start st)))
  end.
Fixpoint send_waits (o : query_options) (st : send_wait) (evs : list send_sight) : send_end :=
  match evs with
  | [] => StillSending st
  | ev :: rest =>
      match send_look o st ev with
      | StillSending st' => send_waits o st' rest
      | done => done
      end
  end.

(** ** Waiting for the answer *)

(** The variables of [TransfersCache::query] (109-111): [roundtrip], [timeout], [start], [updates]. *)
Record answer_wait := mk_answer_wait { aw_roundtrip : N; aw_timeout : N; aw_start : N; aw_updates : N }.
Definition answer_wait_new (o : query_options) (roundtrip now updates : N) : answer_wait :=
  mk_answer_wait roundtrip (compute_timeout o (Some roundtrip)) now updates.

(** One turn (113-132): the clock, the number of messages received so far, and whether the whole answer
    has been received. *)
Record answer_sight := mk_answer_sight { as_now : N; as_updates : N; as_whole : bool }.
Inductive answer_end := StillWaiting (st : answer_wait) | NotAnswered (roundtrip : N) | Answered (roundtrip : N).

Definition answer_look (o : query_options) (st : answer_wait) (ev : answer_sight) : answer_end :=
  let check (st : answer_wait) :=
    if as_whole ev
    then Answered (fst (update_roundtrip o (aw_roundtrip st) (as_now ev - aw_start st)))
    else StillWaiting st in
  if aw_updates st <? as_updates ev then
    let (r, t) := update_roundtrip o (aw_roundtrip st) (as_now ev - aw_start st) in
    check (mk_answer_wait r t (as_now ev) (as_updates ev))
  else if is_timed_out (as_now ev - aw_start st) (aw_timeout st) (aw_updates st)
  then NotAnswered (aw_roundtrip st)
  else check st.
Fixpoint answer_waits (o : query_options) (st : answer_wait) (evs : list answer_sight) : answer_end :=
  match evs with
  | [] => StillWaiting st
  | ev :: rest =>
      match answer_look o st ev with
      | StillWaiting st' => answer_waits o st' rest
      | done => done
      end
  end.
