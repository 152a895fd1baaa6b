(** The socket of a node: src/adnl/socket.rs. *)
From Coq Require Import List ZArith Bool.
Import ListNotations.
Open Scope Z_scope.

(** [libc::c_int] arithmetic with overflow checks. *)
Definition c_int (x : Z) : option Z := if (- 2 ^ 31 <=? x) && (x <? 2 ^ 31) then Some x else None.
(** [MAX_UDP_RECV_BUFFER_SIZE] (socket.rs:41). *)
Definition MAX_UDP_RECV_BUFFER_SIZE : Z := 2 ^ 24.

Inductive search_result :=
| Sizes (tried : list (Z * bool))   (* the sizes asked for, in order, and whether the system accepted them *)
| Overflow | NotFinished.

(** The loop of [maximise_recv_buffer] (socket.rs:40-62).  [accept]: whether the system accepts the size (it
    gets the sizes tried before as well, the answer may depend on them); division of non-negative numbers. *)
Fixpoint search (fuel : nat) (accept : list (Z * bool) -> Z -> bool) (tried : list (Z * bool)) (min max : Z) : search_result :=
  if min <=? max then
    match fuel with
    | O => NotFinished
    | S f =>
      match c_int (max - min) with
      | None => Overflow
      | Some d =>
        match c_int (min + Z.quot d 2) with
        | None => Overflow
        | Some avg =>
          if accept tried avg
          then match c_int (avg + 1) with None => Overflow | Some m => search f accept (tried ++ [(avg, true)]) m max end
          else match c_int (avg - 1) with None => Overflow | Some m => search f accept (tried ++ [(avg, false)]) min m end
        end
      end
    end
  else Sizes tried.
Definition maximise_recv_buffer (fuel : nat) (accept : list (Z * bool) -> Z -> bool) (current : Z) : search_result :=
  search fuel accept [] current MAX_UDP_RECV_BUFFER_SIZE.
(** The size of the buffer afterwards: what was accepted last. *)
Definition buffer_size (current : Z) (tried : list (Z * bool)) : Z :=
  fold_left (fun s (t : Z * bool) => if snd t then fst t else s) tried current.
