(** What a user can rely on during the life of a node, in terms of calls, their results, the datagrams
    offered by the socket and those given to it. *)
From Coq Require Import List NArith Bool.
From Verif.Base Require Import Bytes.
From Verif.Model Require Import Lifecycle.
Import ListNotations.

(** The packets accepted for sending. *)
Fixpoint accepted (es : list life_event) (os : list outcome) : list bytes :=
  match es, os with
  | Send d :: es', Done :: os' => d :: accepted es' os'
  | _ :: es', _ :: os' => accepted es' os'
  | _, _ => []
  end.
(** The subscribers accepted. *)
Fixpoint subscribed (query : bool) (es : list life_event) (os : list outcome) : list nat :=
  match es, os with
  | AddMessageSubscriber s :: es', Done :: os' => if query then subscribed query es' os' else s :: subscribed query es' os'
  | AddQuerySubscriber s :: es', Done :: os' => if query then s :: subscribed query es' os' else subscribed query es' os'
  | _ :: es', _ :: os' => subscribed query es' os'
  | _, _ => []
  end.
(** A call with this result. *)
Definition happened (e : life_event) (o : outcome) (es : list life_event) (os : list outcome) : Prop :=
  In (e, o) (combine es os).
(** The datagrams that the socket offers, cut to the size of the buffer, without the empty ones. *)
Fixpoint offered (es : list life_event) : list bytes :=
  match es with
  | [] => []
  | ReceiverTurn _ (Some (Datagram (b :: d))) :: es' => firstn 2048 (b :: d) :: offered es'
  | _ :: es' => offered es'
  end.
Definition is_send (e : life_event) : bool := match e with Send _ => true | _ => false end.
Definition is_sender_turn (e : life_event) : bool := match e with SenderTurn _ => true | _ => false end.
Definition is_registration (e : life_event) : Prop :=
  match e with Start | AddMessageSubscriber _ | AddQuerySubscriber _ => True | _ => False end.

(** A life: two subscribers, a packet before the start, one after, received datagrams, the user leaves. *)
Definition a_life : list life_event :=
  [ AddQuerySubscriber 7; Send [1%N]; SenderTurn false; ReceiverTurn false (Some (Datagram [9%N])); AddMessageSubscriber 8;
    Start; AddQuerySubscriber 5; SenderTurn true; Send [2%N]; ReceiverTurn true (Some (Datagram [3%N; 4%N]));
    ReceiverTurn false (Some Failure); ReceiverTurn false (Some (Datagram [])); TaskDone; Release;
    ReceiverTurn false (Some (Datagram [5%N])); SenderTurn false; Start ].
(** A life that is ended by the user. *)
Definition a_short_life : list life_event := [ Start; Send [1%N]; Send [2%N]; SenderTurn false; Shutdown ].
