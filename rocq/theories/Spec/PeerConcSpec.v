(** What is said about packets of one peer that are handled at the same time. *)
From Coq Require Import List NArith Bool.
From Verif.Base Require Import Bytes Res.
From Verif.Model Require Import History Peer PeerConc.
Import ListNotations.
Open Scope N_scope.

(** A packet with a date, one without, or a packet to be sent; not yet looked at. *)
Definition waiting (t : ptask) : Prop :=
  match t with CheckDate _ _ _ | Number _ _ | Send _ => True | _ => False end.
(** The date of the peer's life that is known. *)
Definition known_date (x : peer_system) : N := ss_reinit (p_send (fst x)).
(** All packets that carry a date carry this one. *)
Definition dated (d : N) (t : ptask) : Prop := match t with CheckDate d' _ _ => d' = d | _ => True end.

(** The numbers given to the packets of a kind that were sent, and how many are still to be sent. *)
Definition numbers (pr : bool) (l : list ptask) : list N :=
  flat_map (fun t => match t with Sent pr' n => if Bool.eqb pr' pr then [n] else [] | _ => [] end) l.
Definition to_send (l : list ptask) : N :=
  N.of_nat (length (filter (fun t => match t with Send _ => true | _ => false end) l)).

(** A peer known since second 5, with fresh histories. *)
Definition known_peer (date : N) : peer := mk_peer [] 0 [] (recv_new 3) (mk_send_state 0 0 date).
