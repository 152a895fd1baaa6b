(** Offering queries and custom messages to subscribers: /repo/src/subscriber/mod.rs and
    /repo/src/adnl/node/receiver.rs. *)
From Coq Require Import List NArith.
From Verif.Base Require Import Bytes Res.
From Verif.Model Require Import Tl Scheme ProtoAdnl.
Import ListNotations.
Open Scope N_scope.

(** [QueryConsumingResult] (subscriber/mod.rs:42-47) or an error. *)
Inductive reply (E : Type) := Consumed (answer : option bytes) | Refused (query : bytes) | Failed (e : E).
Arguments Consumed {E} answer.
Arguments Refused {E} query.
Arguments Failed {E} e.

(** A subscriber's reaction to this call ([ctx] is the same for all). *)
Definition subscriber (E : Type) := N -> bytes -> reply E.

(** [QueryProcessingResult] (80-83). *)
Inductive processed := Processed (answer : option bytes) | AllRejected.
Inductive query_error (E : Type) := ShortQuery | SubscriberError (e : E).
Arguments ShortQuery {E}.
Arguments SubscriberError {E} e.

(** The loop of [process_query] (65-77).  The list is the log of calls: who was asked with what. *)
Fixpoint ask {E} (i : nat) (subs : list (subscriber E)) (constructor : N) (query : bytes)
  : res (query_error E) processed * list (nat * bytes) :=
  match subs with
  | [] => (Ok AllRejected, [])
  | s :: r =>
    match s constructor query with
    | Consumed a => (Ok (Processed a), [(i, query)])
    | Failed e => (Err (SubscriberError e), [(i, query)])
    | Refused q => let '(o, log) := ask (S i) r constructor q in (o, (i, query) :: log)
    end
  end.

(** [process_query] (58-78). *)
Definition process_query {E} (subs : list (subscriber E)) (query : bytes)
  : res (query_error E) processed * list (nat * bytes) :=
  match get_u32 query with
  | None => (Err ShortQuery, [])
  | Some (constructor, _) => ask 0 subs constructor query
  end.

(** A message subscriber consumes, refuses or fails. *)
Definition message_subscriber (E : Type) := N -> bytes -> res E bool.

(** [process_message_custom] (receiver.rs:591-606). *)
Fixpoint offer {E} (i : nat) (subs : list (message_subscriber E)) (constructor : N) (data : bytes)
  : res (query_error E) bool * list nat :=
  match subs with
  | [] => (Ok false, [])
  | s :: r =>
    match s constructor data with
    | Ok true => (Ok true, [i])
    | Err e => (Err (SubscriberError e), [i])
    | Ok false => let '(o, log) := offer (S i) r constructor data in (o, i :: log)
    end
  end.
Definition process_message_custom {E} (subs : list (message_subscriber E)) (data : bytes)
  : res (query_error E) bool * list nat :=
  match get_u32 data with
  | None => (Err ShortQuery, [])
  | Some (constructor, _) => offer 0 subs constructor data
  end.

(** [PingSubscriber] (ping_subscriber.rs:11-26), pushed last by [Node::start] (node/mod.rs:251). *)
Definition ping_subscriber {E} (bad : E) : subscriber E :=
  fun constructor query =>
    if constructor =? id_adnl_ping then
      match deserialize get_adnl_ping query with
      | Some v => Consumed (Some (put_adnl_pong v))
      | None => Failed bad
      end
    else Refused query.
