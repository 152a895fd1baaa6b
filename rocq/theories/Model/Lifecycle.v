(** The life of an ADNL node: registration of subscribers, start, the two loops between the queue, the
    socket and the handlers, shutdown, and the references that keep the node alive.
    Subscribers are numbers; the handling of a received datagram is a task whose content is in [AdnlNode]. *)
From Coq Require Import List NArith Bool.
From Verif.Base Require Import Bytes.
From Verif.Model Require Import Tl.
Import ListNotations.
Open Scope N_scope.

(** [RECV_BUFFER_SIZE] (src/adnl/node/receiver.rs:37). *)
Definition RECV_BUFFER_SIZE : N := 2048.

Inductive loop_state := NotStarted | Running | Ended.
Definition running (s : loop_state) : bool := match s with Running => true | _ => false end.
Definition ended (s : loop_state) : bool := match s with Ended => true | _ => false end.

Definition none (k : nat) : bool := match k with O => true | S _ => false end.

(** What the loops share with [Node] (src/adnl/node/mod.rs:112-150) and [InitializationState]
    (mod.rs:568-574): [l_init] holds the subscribers for messages and for queries until the start;
    [l_users]: references the user holds (also through the nodes of the other protocols); [l_tasks]:
    received datagrams being handled, each task refers to the node; [l_active]: the subscribers given to the
    receiving loop; [l_wire], [l_handled]: what was given to the socket and to the handlers, in order. *)
Record life := mk_life
  { l_users : nat;
    l_init : option (list nat * list nat);
    l_cancelled : bool;
    l_queue : list bytes;
    l_sender : loop_state;
    l_receiver : loop_state;
    l_tasks : nat;
    l_active : option (list nat * list nat);
    l_wire : list bytes;
    l_handled : list bytes }.

(** [Node::new] (mod.rs:153-197). *)
Definition life_new : life := mk_life 1 (Some ([], [])) false [] NotStarted NotStarted 0 None [] [].

(** The node is dropped with its last reference; the receiving loop holds one (receiver.rs:31-45). *)
Definition alive (l : life) : bool :=
  negb (none (l_users l)) || running (l_receiver l) || negb (none (l_tasks l)).

(** [PingSubscriber] (mod.rs:251), added last. *)
Definition PING : nat := 0.

Inductive received := Datagram (d : bytes) | Failure.
Inductive life_event :=
| AddMessageSubscriber (s : nat) | AddQuerySubscriber (s : nat) | Start | Shutdown | Clone | Release
| Send (d : bytes)
| SenderTurn (cancel_first : bool)
| ReceiverTurn (cancel_first : bool) (input : option received)
| TaskDone.
Inductive outcome := Done | AlreadyRunning | FailedToSend | Nothing.

(** The last reference is gone: [Drop for Node] (mod.rs:541-546) cancels; the queue of a node that was
    never started goes away with it. *)
Definition settle (l : life) : life :=
  if alive l then l
  else mk_life (l_users l) None true (match l_sender l with NotStarted => [] | _ => l_queue l end)
         (l_sender l) (l_receiver l) (l_tasks l) (l_active l) (l_wire l) (l_handled l).

Definition end_sender (l : life) : life :=
  mk_life (l_users l) (l_init l) (l_cancelled l) [] Ended (l_receiver l) (l_tasks l) (l_active l) (l_wire l) (l_handled l).
Definition end_receiver (l : life) : life :=
  settle (mk_life (l_users l) (l_init l) (l_cancelled l) (l_queue l) (l_sender l) Ended (l_tasks l) (l_active l)
            (l_wire l) (l_handled l)).

(** One turn of the sending loop (src/adnl/node/sender.rs:31-47).  [select] asks the queue and the
    cancellation; [cancel_first]: the cancellation is noticed although the queue has a packet (the queue
    can look empty when the budget of the task is used up).  The result of [send_to] is not looked at. *)
Definition sender_turn (cancel_first : bool) (l : life) : life :=
  if running (l_sender l) then
    if cancel_first && l_cancelled l then end_sender l
    else
      match l_queue l with
      | d :: q =>
        mk_life (l_users l) (l_init l) (l_cancelled l) q (l_sender l) (l_receiver l) (l_tasks l) (l_active l)
          (l_wire l ++ [d]) (l_handled l)
      | [] => if l_cancelled l || negb (alive l) then end_sender l else l
      end
  else l.

(** One turn of the receiving loop (receiver.rs:47-104): a datagram longer than the buffer is cut, an empty
    one and a failure are skipped. *)
Definition receiver_turn (cancel_first : bool) (input : option received) (l : life) : life :=
  if running (l_receiver l) then
    if cancel_first && l_cancelled l then end_receiver l
    else
      match input with
      | Some (Datagram []) | Some Failure => l
      | Some (Datagram d) =>
        mk_life (l_users l) (l_init l) (l_cancelled l) (l_queue l) (l_sender l) (l_receiver l) (S (l_tasks l))
          (l_active l) (l_wire l) (l_handled l ++ [firstn (N.to_nat RECV_BUFFER_SIZE) d])
      | None => if l_cancelled l then end_receiver l else l
      end
  else l.

(** [start] (mod.rs:243-263). *)
Definition start (l : life) : outcome * life :=
  match l_init l with
  | None => (AlreadyRunning, l)
  | Some (ms, qs) =>
    (Done, mk_life (l_users l) None (l_cancelled l) (l_queue l) Running Running (l_tasks l)
             (Some (ms, qs ++ [PING])) (l_wire l) (l_handled l))
  end.

(** The registration of subscribers (mod.rs:217-240). *)
Definition subscribe (query : bool) (s : nat) (l : life) : outcome * life :=
  match l_init l with
  | None => (AlreadyRunning, l)
  | Some (ms, qs) =>
    (Done, mk_life (l_users l) (Some (if query then (ms, qs ++ [s]) else (ms ++ [s], qs))) (l_cancelled l) (l_queue l)
             (l_sender l) (l_receiver l) (l_tasks l) (l_active l) (l_wire l) (l_handled l))
  end.

(** The end of [send_packet] (sender.rs:300-310): the queue is unbounded and refuses only when the sending
    loop is gone. *)
Definition send (d : bytes) (l : life) : outcome * life :=
  if ended (l_sender l) then (FailedToSend, l)
  else (Done, mk_life (l_users l) (l_init l) (l_cancelled l) (l_queue l ++ [d]) (l_sender l) (l_receiver l)
                (l_tasks l) (l_active l) (l_wire l) (l_handled l)).

(** One step.  Calls of the user need a reference; packets are sent by the user or by the handlers. *)
Definition life_step (l : life) (e : life_event) : outcome * life :=
  let user (x : outcome * life) := if none (l_users l) then (Nothing, l) else x in
  match e with
  | AddMessageSubscriber s => user (subscribe false s l)
  | AddQuerySubscriber s => user (subscribe true s l)
  | Start => user (start l)
  (* [shutdown] (mod.rs:266-268) *)
  | Shutdown =>
    user (Done, mk_life (l_users l) (l_init l) true (l_queue l) (l_sender l) (l_receiver l) (l_tasks l) (l_active l)
                  (l_wire l) (l_handled l))
  | Clone =>
    user (Done, mk_life (S (l_users l)) (l_init l) (l_cancelled l) (l_queue l) (l_sender l) (l_receiver l) (l_tasks l)
                  (l_active l) (l_wire l) (l_handled l))
  | Release =>
    user (Done, settle (mk_life (pred (l_users l)) (l_init l) (l_cancelled l) (l_queue l) (l_sender l) (l_receiver l)
                  (l_tasks l) (l_active l) (l_wire l) (l_handled l)))
  | Send d => if negb (none (l_users l)) || negb (none (l_tasks l)) then send d l else (Nothing, l)
  | SenderTurn c => (Nothing, sender_turn c l)
  | ReceiverTurn c i => (Nothing, receiver_turn c i l)
  | TaskDone =>
    (Nothing, settle (mk_life (l_users l) (l_init l) (l_cancelled l) (l_queue l) (l_sender l) (l_receiver l)
                        (pred (l_tasks l)) (l_active l) (l_wire l) (l_handled l)))
  end.
Fixpoint life_run (l : life) (es : list life_event) : list outcome * life :=
  match es with
  | [] => ([], l)
  | e :: r => let '(o, l') := life_step l e in let '(os, l'') := life_run l' r in (o :: os, l'')
  end.
