(** Sample histories of two RLDP nodes. *)
From stdpp Require Import gmap.
From Coq Require Import NArith.
From Verif.Base Require Import Bytes Res.
From Verif.Model Require Import ProtoRldp Compression Subscribers Fec RldpTransfer RldpQuery RldpNode.
From Verif.Spec Require Import CompressionSpec FecSpec RldpSpec RldpPairSpec.
Open Scope N_scope.

(** What happens next: a message sent to the other node arrives (by its number), or some task runs. *)
Inductive command (E : Type) :=
| ToBob (k : nat)
| ToAlice (k : nat)
| Bob (ev : rldp_event E)
| Alice (ev : rldp_event E).
Arguments ToBob {E} k.
Arguments ToAlice {E} k.
Arguments Bob {E} ev.
Arguments Alice {E} ev.

Section world.
Context {E : Type} (w : rldp_world).

Definition event_of (s : rldp_pair) (c : command E) : option (pair_event E) :=
  match c with
  | ToBob k =>
      match nth_error (rp_from_alice s) k with
      | Some (to, m) => if bytes_eqb to (rw_bob_id w) then Some (AtBob (NMessage (rw_alice_id w) m)) else None
      | None => None
      end
  | ToAlice k =>
      match nth_error (rp_from_bob s) k with
      | Some (to, m) => if bytes_eqb to (rw_alice_id w) then Some (AtAlice (NMessage (rw_bob_id w) m)) else None
      | None => None
      end
  | Bob ev => Some (AtBob ev)
  | Alice ev => Some (AtAlice ev)
  end.
Fixpoint events_of (s : rldp_pair) (cs : list (command E)) : list (pair_event E) :=
  match cs with
  | [] => []
  | c :: r =>
      match event_of s c with
      | Some ev => ev :: events_of (pair_step w s ev) r
      | None => events_of s r
      end
  end.

(** Only tasks run and messages arrive. *)
Definition plain (c : command E) : bool :=
  match c with
  | Bob (NQuery _ _ _ _ _) | Alice (NQuery _ _ _ _ _) | Bob (NMessage _ _) | Alice (NMessage _ _) => false
  | _ => true
  end.
End world.

(** Two nodes; parts have 60 bytes. *)
Definition t_options : rldp_options := mk_rldp_options false 1000 10000.
Definition t_world : rldp_world := mk_rldp_world toy_fec 60 false toy_zstd t_options t_options [1] [2].
Definition t_transfer : bytes := repeat 3 32.
Definition t_query_id : bytes := repeat 4 32.
Definition t_short : bytes := [1; 2; 3; 4].
Definition t_two_parts : bytes := repeat 5 20.

(** Alice asks. *)
Definition t_asked (p : bytes) : rldp_pair :=
  pair_step (E:=unit) t_world rldp_pair_new (AtAlice (NQuery [2] t_transfer t_query_id 100 p)).

(** Bob's only subscriber gives the answer [a]. *)
Definition t_subs (a : bytes) : list (subscriber unit) := [fun _ _ => Consumed (Some a)].

(** The sender number [k] of a node goes on. *)
Definition send_on (k : nat) : rldp_event unit := NSender k LoopStep.

(** The query arrives, the answer is given and sent back. *)
Definition t_answered (a : bytes) : list (command unit) :=
  [Alice (send_on 0); Alice (send_on 0); Alice (send_on 0); ToBob 0; Bob (NReceiver 0); ToAlice 0;
   Alice (send_on 0); Alice (send_on 0); Alice (NQueryTurn 0 false);
   Bob (NAnswerTurn 0 (t_subs a)); Bob (NAnswerTurn 0 (t_subs a));
   Bob (send_on 0); Bob (send_on 0); Bob (send_on 0); ToAlice 1; Alice (NReceiver 0); ToBob 1;
   Bob (send_on 0); Bob (send_on 0); Bob (NAnswerTurn 0 (t_subs a));
   Alice (NQueryTurn 0 false); Alice (NQueryTurn 0 false)].

(** Then Bob forgets the query, and its first message arrives again. *)
Definition t_again (a : bytes) : list (command unit) :=
  t_answered a ++ [Bob (NAnswerTurn 0 (t_subs a)); ToBob 0; Bob (NReceiver 1);
    Bob (NAnswerTurn 1 (t_subs a)); Bob (NAnswerTurn 1 (t_subs a))].

(** A query in two parts: Bob's timer fires after the first message. *)
Definition t_too_late : list (command unit) :=
  [Alice (send_on 0); Alice (send_on 0); Alice (send_on 0); ToBob 0; Bob (NTimer 0);
   ToBob 0; ToAlice 0; ToAlice 1;
   Alice (send_on 0); Alice (send_on 0); Alice (send_on 0); Alice (send_on 0); ToBob 1; ToAlice 2; ToAlice 3;
   Alice (send_on 0); Alice (send_on 0); Alice (NQueryTurn 0 false);
   Bob (NReceiver 0); Bob (NReceiver 0); Bob (NAnswerTurn 0 (t_subs [7])); Bob (NAnswerTurn 0 (t_subs [7]))].

(** The answer [a] in two parts is given up half way, the query arrives again and is answered by [b]. *)
Definition t_mixed (a b : bytes) : list (command unit) :=
  [Alice (send_on 0); Alice (send_on 0); Alice (send_on 0); ToBob 0; Bob (NReceiver 0); ToAlice 0;
   Alice (send_on 0); Alice (send_on 0); Alice (NQueryTurn 0 false);
   Bob (NAnswerTurn 0 (t_subs a)); Bob (NAnswerTurn 0 (t_subs a));
   Bob (send_on 0); Bob (send_on 0); Bob (send_on 0); ToAlice 1; Alice (NReceiver 0); ToBob 1;
   Bob (send_on 0); Bob (send_on 0); Bob (send_on 0); Bob (send_on 0); Bob (send_on 0); Bob (NSender 0 LoopTimeout);
   Bob (NAnswerTurn 0 (t_subs a)); Bob (NAnswerTurn 0 (t_subs a));
   ToBob 0; Bob (NReceiver 1); Bob (NAnswerTurn 1 (t_subs b)); Bob (NAnswerTurn 1 (t_subs b));
   Bob (send_on 1); Bob (send_on 1); Bob (send_on 1); ToAlice 4; Alice (NReceiver 0); ToBob 2;
   Bob (send_on 1); Bob (send_on 1); Bob (send_on 1); Bob (send_on 1); ToAlice 5; Alice (NReceiver 0);
   Alice (NQueryTurn 0 false)].

(** A third node [9], which knows the two ids, pretends to be Bob and gives the answer [a]. *)
Definition t_forged (a : bytes) : list (command unit) :=
  [Alice (send_on 0); Alice (send_on 0); Alice (send_on 0); Alice (NMessage [9] (MpComplete t_transfer 0));
   Alice (send_on 0); Alice (send_on 0); Alice (NQueryTurn 0 false)]
  ++ map (fun m => Alice (NMessage [9] (MpPart (negate_id t_transfer) (ch_fec m) (ch_part m) (ch_total m) (ch_seqno m) (ch_data m))))
       (all_source_chunks toy_fec 60 (put_rldp_message (RAnswer t_query_id a)))
  ++ [Alice (NReceiver 0); Alice (NQueryTurn 0 false)].
