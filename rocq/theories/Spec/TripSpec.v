(** A query of one node to another and its way back, over the network of [TalkSpec]. *)
From stdpp Require Import gmap.
From Coq Require Import NArith.
From Verif.Base Require Import Bytes.
From Verif.Model Require Import Crypto Tl ProtoAdnl Peer AdnlNode Queries NodeQueries.
From Verif.Spec Require Import CryptoSpec PairSpec TalkSpec.

(** The identifier of the query, how its letter is sent and received, and the same for the answer. *)
Record trip := mk_trip { tr_id : bytes; tr_sent : sending; tr_taken : receiving; tr_back : sending; tr_read : receiving }.

Section world.
Context (P : prims) (fuel : nat) (a b : party).

(** The talk after node [w] asked [query], the letter arrived, the other node answered [answer], and the
    letter with it arrived. *)
Definition asked_to (s : talk) (w : who) (t : trip) (query : bytes) : talk :=
  last_arrives P fuel (asks P a b s w (tr_id t) query (tr_sent t)) (tr_taken t).
Definition replied_to (s : talk) (w : who) (t : trip) (query answer : bytes) : talk :=
  replies P a b (asked_to s w t query) (other w) (length (qn_handed (qnode_of s (other w)))) (tr_id t) answer (tr_back t).
Definition after_trip (s : talk) (w : who) (t : trip) (query answer : bytes) : talk :=
  last_arrives P fuel (replied_to s w t query answer) (tr_read t).

(** The identifier is new, both letters are small enough, and they arrive in time. *)
Definition trip_ok (s : talk) (w : who) (t : trip) (query answer : bytes) : Prop :=
  ~ In (tr_id t) (map (fun e => snd (fst e)) (tk_asked s))
  /\ may_say_to P a b s w (MQuery (tr_id t) query) (tr_sent t)
  /\ last_timely a b (asks P a b s w (tr_id t) query (tr_sent t)) (tr_taken t)
  /\ may_say_to P a b (asked_to s w t query) (other w) (MAnswer (tr_id t) answer) (tr_back t)
  /\ last_timely a b (replied_to s w t query answer) (tr_read t).

(** What the query returns. *)
Definition returned (s : talk) (w : who) (t : trip) (query answer : bytes) : option (option bytes) :=
  let q := length (asked_by s w) in result (reads (after_trip s w t query answer) w q) w q.

(** Whenever the other node answers [query] with [answer], it was handed exactly this query, as coming from
    the asker, and the query returns the answer. *)
Definition carried (query answer : bytes) : Prop :=
  forall s w t, talking P fuel a b s -> trip_ok s w t query answer ->
  handed P a b (asked_to s w t query) (other w) (length (qn_handed (qnode_of s (other w)))) (tr_id t) query
  /\ returned s w t query answer = Some (Some answer).
End world.
