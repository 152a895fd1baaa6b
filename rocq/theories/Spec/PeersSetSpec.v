(** What a bounded set with first-in first-out replacement is: a queue of distinct members, oldest
    first, that forgets its oldest member when it is full. *)
From Coq Require Import List NArith Arith.
From Verif.Base Require Import Bytes.
Import ListNotations.

Definition member (p : bytes) (q : list bytes) : bool := existsb (bytes_eqb p) q.

(** The last [n] elements of a list. *)
Definition last_n {A} (n : nat) (l : list A) : list A := skipn (length l - n) l.

(** Adding a peer. *)
Definition fifo_add (c : nat) (q : list bytes) (p : bytes) : bool * list bytes :=
  if member p q then (false, q) else (true, last_n c (q ++ [p])).

(** Adding a list of peers: the answers and the final queue. *)
Fixpoint fifo_adds (c : nat) (q : list bytes) (l : list bytes) : list bool * list bytes :=
  match l with
  | [] => ([], q)
  | p :: r => let '(b, q') := fifo_add c q p in let '(bs, q'') := fifo_adds c q' r in (b :: bs, q'')
  end.

(** The first occurrences of the elements of a list, in order. *)
Fixpoint distinct (seen l : list bytes) : list bytes :=
  match l with
  | [] => []
  | p :: r => if member p seen then distinct seen r else p :: distinct (p :: seen) r
  end.

(** Positions chosen at random without repetition: [k] of [n], or all if there are fewer. *)
Definition sample_of (n k : nat) (picks : list nat) : Prop :=
  NoDup picks /\ (forall i, In i picks -> (i < n)%nat) /\ length picks = Nat.min k n.

(** The peers of a list whose insertion succeeded. *)
Fixpoint accepted (l : list bytes) (answers : list bool) : list bytes :=
  match l, answers with
  | p :: l', b :: bs => if b then p :: accepted l' bs else accepted l' bs
  | _, _ => []
  end.

(** The members that may be selected. *)
Definition eligible (except : list bytes) (l : list bytes) : list bytes :=
  filter (fun p => negb (member p except)) l.
