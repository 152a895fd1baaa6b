(** Systems that limit the size of the receive buffer. *)
From Coq Require Import List ZArith Bool.
Import ListNotations.
Open Scope Z_scope.
(** The system refuses what is above its limit, whatever was asked before. *)
Definition limited (limit : Z) (accept : list (Z * bool) -> Z -> bool) : Prop :=
  forall tried size, accept tried size = (size <=? limit).
Definition a_limit : list (Z * bool) -> Z -> bool := fun _ size => size <=? 425984.
