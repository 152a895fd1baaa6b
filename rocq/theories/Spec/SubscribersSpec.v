(** Offering something to a list of subscribers, in words: the first [n] refuse, each seeing what
    the one before passed on, and the next one, if any, decides. *)
From Coq Require Import List NArith.
From Verif.Base Require Import Bytes.
From Verif.Model Require Import Subscribers.
Import ListNotations.

(** [passed_on subs c q q' n]: the subscribers 0 … n-1 all refuse, starting with [q], and the last of
    them passes [q'] on. *)
Inductive passed_on {E} (subs : list (subscriber E)) (c : N) (q : bytes) : nat -> bytes -> Prop :=
| passed_none : passed_on subs c q 0 q
| passed_next n q1 q2 s :
    passed_on subs c q n q1 -> nth_error subs n = Some s -> s c q1 = Refused q2 -> passed_on subs c q (S n) q2.
