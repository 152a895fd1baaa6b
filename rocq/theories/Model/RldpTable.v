(** The transfer table shared by RLDP queries and answers:
    /repo/src/rldp/transfers_cache.rs. *)
From Coq Require Import List NArith Bool.
From Verif.Base Require Import Bytes.
From Verif.Model Require Import RldpQuery.
Import ListNotations.
Open Scope N_scope.

(** [RldpTransfer] (342-346). *)
Inductive entry := EIncoming | EOutgoing | EDone.

(** The atomic operations on the table ([DashMap]). *)
Inductive action := AInsert (id : bytes) (e : entry) | ARemove (id : bytes).

(** Contents of the table after a sequence of operations: what is stored under [id]. *)
Definition act (a : action) (id : bytes) (old : option entry) : option entry :=
  match a with
  | AInsert i e => if bytes_eqb i id then Some e else old
  | ARemove i => if bytes_eqb i id then None else old
  end.
Definition stored (trace : list action) (id : bytes) : option entry :=
  fold_left (fun old a => act a id old) trace None.

(** How the two halves of a query end (107-142). *)
Inductive query_outcome := QAnswered | QNoAnswer | QNotSent | QSendError.

(** What [query] (44-160) and its clean-up task (148-156) do to the table; [id] is the random id
    of the outgoing transfer.  Every outcome replaces the outgoing entry by [Done] (102-105 or
    138-139), then the incoming one (144-145). *)
Definition query_task (id : bytes) (o : query_outcome) : list action :=
  [AInsert id EOutgoing; AInsert (negate_id id) EIncoming]
  ++ match o with
     | QAnswered | QNoAnswer | QNotSent => [AInsert id EDone]
     | QSendError => [AInsert id EDone]
     end
  ++ [AInsert (negate_id id) EDone; ARemove id; ARemove (negate_id id)].

(** How answering an incoming query ends (404-452): nothing to send (malformed query, rejected, no
    answer, too big), the answer transfer returned, or sending it failed. *)
Inductive answer_outcome := ANothing | ASent | ASendError.

(** What the answering task does (279-288 and 305-327); [id] is the transfer id chosen by the
    peer.  [unwrap_or_default] at 319 forgets the outgoing id when sending failed. *)
Definition answer_task (id : bytes) (o : answer_outcome) : list action :=
  [AInsert id EIncoming; AInsert id EDone]
  ++ match o with
     | ANothing => [ARemove id]
     | ASent => [AInsert (negate_id id) EOutgoing; ARemove (negate_id id); ARemove id]
     | ASendError => [AInsert (negate_id id) EOutgoing; ARemove id]
     end.

(** The timer started beside it (330-335). *)
Definition timer_task (id : bytes) : list action := [AInsert id EDone].

(** A transfer handled by the node, with the tasks it spawns. *)
Inductive transfer :=
| TQuery (id : bytes) (o : query_outcome)
| TAnswer (id : bytes) (o : answer_outcome).
Definition transfer_id (t : transfer) : bytes := match t with TQuery id _ | TAnswer id _ => id end.
Definition tasks_of (t : transfer) : list (list action) :=
  match t with
  | TQuery id o => [query_task id o]
  | TAnswer id o => [answer_task id o; timer_task id]
  end.
