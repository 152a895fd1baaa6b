(** A whole RLDP node: the table of transfers with the tasks that run over it,
    /repo/src/rldp/transfers_cache.rs and [query] of /repo/src/rldp/node.rs.

    The tasks are the query task (transfers_cache.rs:44-160), the receiving task of a query (89-98),
    the answering task (306-327) and its timer (330-335), and the sending loop in which the first and
    the third wait.  An event lets one of them run up to its next [await] (one turn of a loop); the
    operations in between are taken to be atomic.  Clocks are not modelled: timeouts, timers and
    clean-ups happen when the event says so. *)
From stdpp Require Import gmap.
From Coq Require Import NArith.
From Verif.Base Require Import Bytes Res.
From Verif.Model Require Import Tl ProtoRldp Compression Subscribers Fec RldpTransfer RldpQuery.
Open Scope N_scope.

(** [RldpTransfer] (342-346): the sender of a channel, and the shared state of an outgoing transfer,
    are the numbers of the receiver and of the sender they belong to. *)
Inductive table_entry := TIncoming (receiver : nat) | TOutgoing (sender : nat) | TDone.

Notation transfer_table := (gmap bytes table_entry).

(** [IncomingContext] (348-355) with the queue of its channel; [rc_notify] is the argument of
    [receive] (359), [rc_finished]: [receive] has returned. *)
Record receiver := mk_receiver {
  rc_peer : bytes; rc_transfer : incoming; rc_queue : list chunk; rc_notify : option nat; rc_finished : bool }.

(** [OutgoingContext] (455-460), in its sending loop. *)
Record out_task := mk_out_task { ou_peer : bytes; ou_sender : sender }.

(** Where a query is (node.rs:125-169, transfers_cache.rs:44-160): sending, polling for the answer, or
    returned.  [None]: an error; [Some None]: no answer; [Some (Some d)]: the data received. *)
Inductive query_stage := QSending | QWaiting | QReturned (r : option (option bytes)) | QCleared (r : option (option bytes)).
Record query_run := mk_query_run {
  qr_peer : bytes; qr_id : bytes; qr_query_id : bytes; qr_sender : nat; qr_receiver : nat; qr_stage : query_stage }.

(** Where the answer to an incoming query is (306-327); [an_timer]: its timer (330-335) is still to
    come. *)
Inductive answer_stage := AReceiving | AProcessing | ASending (sender : nat) | ASleeping (out : option bytes) | AEnded.
Record answer_run := mk_answer_run {
  an_peer : bytes; an_id : bytes; an_receiver : nat; an_stage : answer_stage; an_timer : bool }.

(** The node; [rn_asked]: the calls of subscribers so far, per query: the peer, its transfer id, and who
    was asked what. *)
Record rldp_node := mk_rldp_node {
  rn_table : transfer_table;
  rn_receivers : list receiver;
  rn_senders : list out_task;
  rn_queries : list query_run;
  rn_answers : list answer_run;
  rn_asked : list (bytes * bytes * list (nat * bytes)) }.
Definition rldp_node_new : rldp_node := mk_rldp_node ∅ [] [] [] [] [].

(** [NodeOptions] (node.rs:23-62) as far as they matter here. *)
Record rldp_options := mk_rldp_options { ro_force : bool; ro_max_answer : N; ro_max_timeout : N }.

Definition set_table (n : rldp_node) (t : transfer_table) : rldp_node :=
  mk_rldp_node t (rn_receivers n) (rn_senders n) (rn_queries n) (rn_answers n) (rn_asked n).
Definition set_receivers (n : rldp_node) (l : list receiver) : rldp_node :=
  mk_rldp_node (rn_table n) l (rn_senders n) (rn_queries n) (rn_answers n) (rn_asked n).
Definition set_senders (n : rldp_node) (l : list out_task) : rldp_node :=
  mk_rldp_node (rn_table n) (rn_receivers n) l (rn_queries n) (rn_answers n) (rn_asked n).
Definition set_queries (n : rldp_node) (l : list query_run) : rldp_node :=
  mk_rldp_node (rn_table n) (rn_receivers n) (rn_senders n) l (rn_answers n) (rn_asked n).
Definition set_answers (n : rldp_node) (l : list answer_run) : rldp_node :=
  mk_rldp_node (rn_table n) (rn_receivers n) (rn_senders n) (rn_queries n) l (rn_asked n).
Definition set_asked (n : rldp_node) (l : list (bytes * bytes * list (nat * bytes))) : rldp_node :=
  mk_rldp_node (rn_table n) (rn_receivers n) (rn_senders n) (rn_queries n) (rn_answers n) l.

(** ** Sending *)

(** An event of the sender number [s]: its loop runs, or a message for it is handled. *)
Definition sender_event (F : fec) (slice : N) (checked : bool) (n : rldp_node) (s : nat) (ev : send_event)
  : rldp_node * list (bytes * message_part) :=
  match rn_senders n !! s with
  | None => (n, [])
  | Some o =>
      let (sd, out) := send_step F slice checked (ou_sender o) ev in
      (set_senders n (<[s := mk_out_task (ou_peer o) sd]> (rn_senders n)),
       match out with
       | Some m => [(ou_peer o, MpPart (ot_id (se_transfer (ou_sender o))) (ch_fec m) (ch_part m) (ch_total m)
                                  (ch_seqno m) (ch_data m))]
       | None => []
       end)
  end.

(** ** Handling a message: [handle_message] (167-267). *)

(** A new receiver (61-67 and 77-84, or 279-298). *)
Definition receiver_new (peer id : bytes) (max : N) (notify : option nat) (queue : list chunk) : receiver :=
  mk_receiver peer (incoming_new id max) queue notify false.

(** A chunk (175-242): forwarded to the receiver, answered with [Confirm] and [Complete] when there is
    none any more, or the first one of a query ([create_answer_handler], 270-339).  Chunks for a receiver
    that has finished are lost with its channel. *)
Definition handle_chunk (o : rldp_options) (n : rldp_node) (peer id : bytes) (m : chunk)
  : rldp_node * list (bytes * message_part) :=
  match rn_table n !! id with
  | Some (TIncoming r) =>
      match rn_receivers n !! r with
      | Some rc =>
          (if rc_finished rc then n
           else set_receivers n (<[r := mk_receiver (rc_peer rc) (rc_transfer rc) (rc_queue rc ++ [m])
                                          (rc_notify rc) false]> (rn_receivers n)), [])
      | None => (n, [])
      end
  | Some _ => (n, [(peer, MpConfirm id (ch_part m) (ch_seqno m)); (peer, MpComplete id (ch_part m))])
  | None =>
      let r := length (rn_receivers n) in
      (mk_rldp_node (<[id := TIncoming r]> (rn_table n))
         (rn_receivers n ++ [receiver_new peer id (ro_max_answer o) None [m]])
         (rn_senders n) (rn_queries n)
         (rn_answers n ++ [mk_answer_run peer id r AReceiving true]) (rn_asked n), [])
  end.

(** [Confirm] and [Complete] (243-263): only for outgoing transfers. *)
Definition handle_report (F : fec) (slice : N) (checked : bool) (n : rldp_node) (id : bytes) (ev : send_event)
  : rldp_node * list (bytes * message_part) :=
  match rn_table n !! id with
  | Some (TOutgoing s) => sender_event F slice checked n s ev
  | _ => (n, [])
  end.

Definition handle_message (F : fec) (slice : N) (checked : bool) (o : rldp_options) (n : rldp_node)
  (peer : bytes) (m : message_part) : rldp_node * list (bytes * message_part) :=
  match m with
  | MpPart id fec part total seqno data => handle_chunk o n peer id (mk_chunk fec part total seqno data)
  | MpConfirm id part seqno => handle_report F slice checked n id (EvConfirm part seqno)
  | MpComplete id part => handle_report F slice checked n id (EvComplete part)
  end.

(** ** Receiving: one turn of [receive] (359-401). *)

(** Some entry of the table still holds the sending half of the channel. *)
Definition channel_open (n : rldp_node) (r : nat) : bool :=
  existsb (fun e => match snd e with TIncoming k => Nat.eqb k r | _ => false end) (map_to_list (rn_table n)).

(** The next chunk is processed (361-396); without one, [recv] returns when the channel is closed. *)
Definition receiver_turn (F : fec) (slice : N) (checked : bool) (n : rldp_node) (r : nat)
  : rldp_node * list (bytes * message_part) :=
  match rn_receivers n !! r with
  | None => (n, [])
  | Some rc =>
      if rc_finished rc then (n, [])
      else
        match rc_queue rc with
        | [] =>
            (if channel_open n r then n
             else set_receivers n (<[r := mk_receiver (rc_peer rc) (rc_transfer rc) [] (rc_notify rc) true]>
                                     (rn_receivers n)), [])
        | m :: rest =>
            let (t, reply) := receive_one F (rc_transfer rc) m in
            let done := incoming_done t in
            let n := set_receivers n
                       (<[r := mk_receiver (rc_peer rc) t (if done then [] else rest) None done]> (rn_receivers n)) in
            let n := match rc_notify rc with
                     | Some s => fst (sender_event F slice checked n s EvReply)
                     | None => n
                     end in
            (n, match reply with Some x => [(rc_peer rc, x)] | None => [] end)
        end
  end.

(** ** Queries *)

(** The start of [query] (52-101); [id] and [query_id] are the random ids, [now] the wall clock. *)
Definition start_query (z : zstd) (o : rldp_options) (n : rldp_node) (peer id query_id : bytes) (now : N)
  (payload : bytes) : rldp_node :=
  let data := make_query z (ro_force o) (ro_max_answer o) (ro_max_timeout o) query_id now payload in
  let s := length (rn_senders n) in
  let r := length (rn_receivers n) in
  mk_rldp_node (<[negate_id id := TIncoming r]> (<[id := TOutgoing s]> (rn_table n)))
    (rn_receivers n ++ [receiver_new peer (negate_id id) (ro_max_answer o) (Some s) []])
    (rn_senders n ++ [mk_out_task peer (sender_new id data)])
    (rn_queries n ++ [mk_query_run peer id query_id s r QSending])
    (rn_answers n) (rn_asked n).

Definition put_query (n : rldp_node) (k : nat) (q : query_run) (stage : query_stage) : rldp_node :=
  set_queries n (<[k := mk_query_run (qr_peer q) (qr_id q) (qr_query_id q) (qr_sender q) (qr_receiver q) stage]>
                   (rn_queries n)).

(** How the sending loop has ended: [Ok((true, _))], [Ok((false, _))] or an error. *)
Inductive send_result := SendOk (all : bool) | SendError.
Definition sender_result (n : rldp_node) (s : nat) : option send_result :=
  match rn_senders n !! s with
  | Some o =>
      match se_point (ou_sender o) with
      | SentAll => Some (SendOk true)
      | TimedOut => Some (SendOk false)
      | SendFailed => Some SendError
      | _ => None
      end
  | None => None
  end.

(** The query task goes on: after [send] (101-142), while polling (113-131; [give_up]: the wait has timed
    out), and the clean-up in background (144-156). *)
Definition query_turn (n : rldp_node) (k : nat) (give_up : bool) : rldp_node :=
  match rn_queries n !! k with
  | None => n
  | Some q =>
      let id := qr_id q in
      let in_id := negate_id id in
      match qr_stage q with
      | QSending =>
          match sender_result n (qr_sender q) with
          | None => n
          | Some (SendOk true) => put_query (set_table n (<[id := TDone]> (rn_table n))) k q QWaiting
          | Some (SendOk false) =>
              put_query (set_table n (<[in_id := TDone]> (<[id := TDone]> (rn_table n)))) k q
                (QReturned (Some None))
          | Some SendError =>
              put_query (set_table n (<[in_id := TDone]> (<[id := TDone]> (rn_table n)))) k q
                (QReturned None)
          end
      | QWaiting =>
          let n' := set_table n (<[in_id := TDone]> (rn_table n)) in
          if give_up then put_query n' k q (QReturned (Some None))
          else
            match rn_receivers n !! qr_receiver q with
            | Some rc =>
                if rc_finished rc then put_query n' k q (QReturned (Some (Some (it_data (rc_transfer rc)))))
                else n
            | None => n
            end
      | QReturned r => put_query (set_table n (delete in_id (delete id (rn_table n)))) k q (QCleared r)
      | QCleared _ => n
      end
  end.

(** What [Node::query] (node.rs:148-168) makes of it: [None] while it runs. *)
Inductive rldp_result := RAnswered (answer : bytes) | RNoAnswer | RError.
Definition query_returns (z : zstd) (q : query_run) : option rldp_result :=
  match qr_stage q with
  | QReturned (Some (Some d)) | QCleared (Some (Some d)) =>
      Some (match accept_answer z (qr_query_id q) d with Ok a => RAnswered a | Err _ => RError end)
  | QReturned (Some None) | QCleared (Some None) => Some RNoAnswer
  | QReturned None | QCleared None => Some RError
  | _ => None
  end.

(** ** Answers *)

Definition put_answer (n : rldp_node) (k : nat) (a : answer_run) (stage : answer_stage) : rldp_node :=
  set_answers n (<[k := mk_answer_run (an_peer a) (an_id a) (an_receiver a) stage (an_timer a)]> (rn_answers n)).

(** The answering task goes on (306-327, 404-452); [subs]: how the subscribers react if they are asked
    now. *)
Definition answer_turn {E} (z : zstd) (o : rldp_options) (subs : list (subscriber E)) (n : rldp_node) (k : nat)
  : rldp_node :=
  match rn_answers n !! k with
  | None => n
  | Some a =>
      let id := an_id a in
      match an_stage a with
      | AReceiving =>
          match rn_receivers n !! an_receiver a with
          | Some rc =>
              if rc_finished rc
              then put_answer (set_table n (<[id := TDone]> (rn_table n))) k a AProcessing
              else n
          | None => n
          end
      | AProcessing =>
          match rn_receivers n !! an_receiver a with
          | Some rc =>
              match query_from_data (it_data (rc_transfer rc)) with
              | None => put_answer n k a (ASleeping None)
              | Some (query_id, max, payload) =>
                  let (r, log) := process_rldp_query z subs (ro_force o) query_id max payload in
                  let n := set_asked n (rn_asked n ++ [(an_peer a, id, log)]) in
                  match r with
                  | Ok (Processed (Some answer)) =>
                      let s := length (rn_senders n) in
                      let n := set_table n (<[negate_id id := TOutgoing s]> (rn_table n)) in
                      let n := set_senders n
                                 (rn_senders n ++ [mk_out_task (an_peer a) (sender_new (negate_id id) answer)]) in
                      put_answer n k a (ASending s)
                  | _ => put_answer n k a (ASleeping None)
                  end
              end
          | None => n
          end
      | ASending s =>
          match sender_result n s with
          | None => n
          | Some (SendOk _) => put_answer n k a (ASleeping (Some (negate_id id)))
          | Some SendError => put_answer n k a (ASleeping None)
          end
      | ASleeping out =>
          let t := match out with Some i => delete i (rn_table n) | None => rn_table n end in
          put_answer (set_table n (delete id t)) k a AEnded
      | AEnded => n
      end
  end.

(** The timer of an answer (330-335). *)
Definition timer_fires (n : rldp_node) (k : nat) : rldp_node :=
  match rn_answers n !! k with
  | None => n
  | Some a =>
      if an_timer a
      then set_answers (set_table n (<[an_id a := TDone]> (rn_table n)))
             (<[k := mk_answer_run (an_peer a) (an_id a) (an_receiver a) (an_stage a) false]> (rn_answers n))
      else n
  end.

(** ** Events *)

(** How a sending loop goes on by itself. *)
Inductive loop_event := LoopStep | LoopTimeout | LoopRefused.
Definition loop_send_event (ev : loop_event) : send_event :=
  match ev with LoopStep => EvStep | LoopTimeout => EvTimeout | LoopRefused => EvRefused end.

Inductive rldp_event (E : Type) :=
| NQuery (peer id query_id : bytes) (now : N) (payload : bytes)
| NMessage (peer : bytes) (m : message_part)
| NReceiver (r : nat)
| NSender (s : nat) (ev : loop_event)
| NQueryTurn (k : nat) (give_up : bool)
| NAnswerTurn (k : nat) (subs : list (subscriber E))
| NTimer (k : nat).
Arguments NQuery {E} peer id query_id now payload.
Arguments NMessage {E} peer m.
Arguments NReceiver {E} r.
Arguments NSender {E} s ev.
Arguments NQueryTurn {E} k give_up.
Arguments NAnswerTurn {E} k subs.
Arguments NTimer {E} k.

(** One event: the node and the messages handed to the ADNL layer, with their destinations. *)
Definition rldp_step {E} (F : fec) (slice : N) (checked : bool) (z : zstd) (o : rldp_options)
  (n : rldp_node) (ev : rldp_event E) : rldp_node * list (bytes * message_part) :=
  match ev with
  | NQuery peer id query_id now payload => (start_query z o n peer id query_id now payload, [])
  | NMessage peer m => handle_message F slice checked o n peer m
  | NReceiver r => receiver_turn F slice checked n r
  | NSender s ev => sender_event F slice checked n s (loop_send_event ev)
  | NQueryTurn k give_up => (query_turn n k give_up, [])
  | NAnswerTurn k subs => (answer_turn z o subs n k, [])
  | NTimer k => (timer_fires n k, [])
  end.

(** What the node makes of a custom ADNL message ([try_consume_custom], node.rs:191-207): a message for
    [handle_message], or nothing.  If the constructor is one of RLDP but the rest cannot be read, the error
    also ends the processing of the ADNL packet; that is not modelled. *)
Definition rldp_reads (data : bytes) : option message_part := deserialize get_message_part data.
