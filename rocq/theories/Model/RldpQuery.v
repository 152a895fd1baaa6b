(** RLDP queries and answers: /repo/src/rldp/node.rs and the query part of
    /repo/src/rldp/transfers_cache.rs. *)
From Coq Require Import List NArith Bool.
From Verif.Base Require Import Bytes Res.
From Verif.Model Require Import Tl Scheme ProtoRldp Compression Subscribers.
Import ListNotations.
Open Scope N_scope.

(** [make_query] (node.rs:171-186) with the random query id and the wall clock as arguments. *)
Definition make_query (z : zstd) (force_compression : bool) (max_answer_size max_timeout_ms : N)
  (query_id : bytes) (now : N) (data : bytes) : bytes :=
  let data := if force_compression then compress z data else data in
  put_rldp_message
    (RQuery query_id max_answer_size ((now + (max_timeout_ms mod u32_max) / 1000) mod u32_max) data).

(** [OwnedRldpMessageQuery::from_data] (transfers_cache.rs:606-645): reads an [rldp.query] and
    ignores what follows.  Result: query id, maximal answer size, payload. *)
Definition query_from_data (data : bytes) : option (bytes * N * bytes) :=
  match get_rldp_message data with
  | Some (RQuery q max _ d, _) => Some (q, max, d)
  | _ => None
  end.

(** Outcome of [process_rldp_query] (561-598). *)
Inductive rldp_error (E : Type) := QueryError (e : query_error E) | AnswerSizeExceeded.
Arguments QueryError {E} e.
Arguments AnswerSizeExceeded {E}.

(** [process_rldp_query] (561-598); [answer.len() > max as usize].  Also the log of subscribers
    asked. *)
Definition process_rldp_query {E} (z : zstd) (subs : list (subscriber E)) (force_compression : bool)
  (query_id : bytes) (max_answer_size : N) (data : bytes)
  : res (rldp_error E) processed * list (nat * bytes) :=
  let '(data, answer_compression) :=
    match decompress z data with
    | Some d => (d, true)
    | None => (data, force_compression)
    end in
  let (r, log) := process_query subs data in
  (match r with
   | Err e => Err (QueryError e)
   | Ok AllRejected => Ok AllRejected
   | Ok (Processed None) => Ok (Processed None)
   | Ok (Processed (Some answer)) =>
       let answer := if answer_compression then compress z answer else answer in
       if max_answer_size <? N.of_nat (length answer) then Err AnswerSizeExceeded
       else Ok (Processed (Some (put_rldp_message (RAnswer query_id answer))))
   end, log).

(** Outcome of the answer of a query (node.rs:149-168). *)
Inductive answer_error := QueryIdMismatch | UnexpectedAnswer | InvalidPacketContent.
Definition accept_answer (z : zstd) (query_id answer : bytes) : res answer_error bytes :=
  match get_rldp_message answer with
  | Some (RAnswer id data, _) =>
      if bytes_eqb id query_id then Ok (received_payload z data) else Err QueryIdMismatch
  | Some _ => Err UnexpectedAnswer
  | None => Err InvalidPacketContent
  end.

(** [negate_id] (transfers_cache.rs:651-653). *)
Definition negate_id (id : bytes) : bytes := map (fun b => N.lxor b 255) id.

(** [QueryOptions] (523-529), timeouts in milliseconds. *)
Record query_options := mk_query_options { qo_min : N; qo_max : N }.

(** [compute_timeout] (543-549). *)
Definition compute_timeout (o : query_options) (roundtrip : option N) : N :=
  match roundtrip with
  | Some r => if qo_max o <? r then qo_max o else N.max r (qo_min o)
  | None => qo_max o
  end.

(** [update_roundtrip] (533-540): new roundtrip and timeout, for a measured time.  64-bit
    overflow of milliseconds is not modelled. *)
Definition update_roundtrip (o : query_options) (roundtrip elapsed : N) : N * N :=
  let r := if roundtrip =? 0 then elapsed else (roundtrip + elapsed) / 2 in
  (r, compute_timeout o (Some r)).

(** [big_roundtrip] (552-554). *)
Definition big_roundtrip (o : query_options) (roundtrip : N) : N := N.min (roundtrip * 2) (qo_max o).

(** [is_timed_out] (647-649). *)
Definition is_timed_out (elapsed timeout updates : N) : bool :=
  timeout + timeout * updates / 100 <? elapsed.
