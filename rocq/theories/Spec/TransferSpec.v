(** Vocabulary for multipart messages (C10-C12). *)
From stdpp Require Import gmap.
From Coq Require Import NArith.
From Verif.Base Require Import Bytes.
From Verif.Model Require Import Crypto Tl ProtoAdnl Transfer.
Open Scope N_scope.

(** A received [Part] message. *)
Record part := mk_part { pt_hash : bytes; pt_total : N; pt_offset : N; pt_data : bytes }.

(** The parts of a message cut into consecutive pieces, the first one at [offset]. *)
Fixpoint cut_from (hash : bytes) (total offset : N) (pieces : list bytes) : list part :=
  match pieces with
  | [] => []
  | d :: r => mk_part hash total offset d :: cut_from hash total (offset + N.of_nat (length d)) r
  end.
Definition message_of (pieces : list bytes) : bytes := concat pieces.
Definition parts_of (P : prims) (pieces : list bytes) : list part :=
  cut_from (sha256 P (message_of pieces)) (N.of_nat (length (message_of pieces))) 0 pieces.

(** Parts arriving one after the other; what each of them led to. *)
Fixpoint arrive (P : prims) (fuel : nat) (ts : transfers) (l : list part)
  : list (part * part_outcome) * transfers :=
  match l with
  | [] => ([], ts)
  | p :: r =>
    let '(o, ts') := process_part P fuel ts (pt_hash p) (pt_total p) (pt_offset p) (pt_data p) in
    let '(os, ts'') := arrive P fuel ts' r in
    ((p, o) :: os, ts'')
  end.
Definition outcomes (P : prims) (fuel : nat) (ts : transfers) (l : list part) : list (part * part_outcome) :=
  fst (arrive P fuel ts l).

(** Arrivals that complete a message: whatever arrives for other transfers, the parts of this
    one are pieces of the message, and the last arrival brings the last missing piece. *)
Definition completes (P : prims) (pieces : list bytes) (before : list part) (last : part) : Prop :=
  (forall p, In p before -> pt_hash p = sha256 P (message_of pieces) -> In p (parts_of P pieces))
  /\ ~ In last before
  /\ (forall p, In p (parts_of P pieces) <-> (In p before /\ pt_hash p = sha256 P (message_of pieces)) \/ p = last).

(** The parts among the messages of some packets. *)
Definition part_message (p : part) : message := MPart (pt_hash p) (pt_total p) (pt_offset p) (pt_data p).

(** The message a node adds to what it sends while it has no working channel to the peer:
    a proposal for a channel, or a confirmation of the peer's proposal. *)
Inductive extra_kind := NoExtra | Create (key : bytes) (date : N) | Confirm (key peer_key : bytes) (date : N).
Definition extra_messages (x : extra_kind) : list message :=
  match x with
  | NoExtra => [] | Create k d => [MCreateChannel k d] | Confirm k p d => [MConfirmChannel k p d]
  end.
Definition extra_arg (x : extra_kind) : option (N * message) :=
  match x with
  | NoExtra => None
  | Create k d => Some (40, MCreateChannel k d)
  | Confirm k p d => Some (72, MConfirmChannel k p d)
  end.

(** Longest serialized message that gets through. *)
Definition longest (x : extra_kind) : N :=
  match x with NoExtra => 2048 | Create _ _ => 1968 | Confirm _ _ _ => 1936 end.
