(** Two nodes that ask each other queries over the network of [PairSpec]. *)
From stdpp Require Import gmap.
From Coq Require Import NArith.
From Verif.Base Require Import Bytes Res.
From Verif.Model Require Import Crypto ProtoAdnl AdnlNode Queries NodeQueries.
From Verif.Spec Require Import PairSpec.
Open Scope N_scope.

(** The nodes, the letters and who got them as in [PairSpec]; then everything that was asked (who,
    query id, query), in order, and every reply a subscriber gave (who, which of the queries handed
    to it, answer). *)
Record talk := mk_talk
  { tk_alice : qnode; tk_bob : qnode; tk_letters : list letter; tk_seen : list nat;
    tk_asked : list (who * bytes * bytes); tk_replied : list (who * nat * bytes) }.
Definition qnode_of (s : talk) (w : who) : qnode := pick_who w (tk_alice s) (tk_bob s).
Definition pair_of (s : talk) : pair :=
  mk_pair (qn_node (tk_alice s)) (qn_node (tk_bob s)) (tk_letters s) (tk_seen s).
Definition talk_start (P : prims) (a b : party) : talk :=
  let p := pair_start P a b in
  mk_talk (mk_qnode (pr_alice p) queries_new []) (mk_qnode (pr_bob p) queries_new []) [] [] [] [].

(** [w] became [x]; the letters are those of [p]. *)
Definition becomes (s : talk) (w : who) (x : qnode) (p : pair) asked replied : talk :=
  mk_talk (pick_who w x (tk_alice s)) (pick_who w (tk_bob s) x) (pr_letters p) (pr_seen p) asked replied.

(** The queries of [w], in the order they were asked. *)
Definition asked_by (s : talk) (w : who) : list (bytes * bytes) :=
  flat_map (fun e => match e with (v, id, query) =>
    match v, w with Alice, Alice | Bob, Bob => [(id, query)] | _, _ => [] end end) (tk_asked s).

Section talk.
Variables (P : prims) (fuel : nat) (a b : party).
Local Notation idw := (id_of_who P a b).

(** What is needed to describe one sending: the clock, priority and random data. *)
Record sending := mk_sending { sn_now : N; sn_priority : bool; sn_rnd : rnd }.
Record receiving := mk_receiving { rv_now : N; rv_fresh : bytes; rv_rnds : nat -> rnd }.

Definition says_to (s : talk) (w : who) (m : message) (x : sending) : pair :=
  says P a b (pair_of s) w (sn_now x) m (sn_priority x) (sn_rnd x).
Definition may_say_to (s : talk) (w : who) (m : message) (x : sending) : Prop :=
  may_say P a b (pair_of s) w (sn_now x) m (sn_priority x) (sn_rnd x).

(** [w] asks the other one. *)
Definition asks (s : talk) (w : who) (id query : bytes) (x : sending) : talk :=
  becomes s w
    (snd (query_start P (qnode_of s w) (sn_now x) (idw w) (idw (other w)) id query (sn_priority x) (fun _ => sn_rnd x)))
    (says_to s w (MQuery id query) x) (tk_asked s ++ [(w, id, query)]) (tk_replied s).
(** [w] sends something that is not a query. *)
Definition tells (s : talk) (w : who) (data : bytes) (x : sending) : talk :=
  let p := says_to s w (MCustom data) x in
  becomes s w (mk_qnode (node_of p w) (qn_queries (qnode_of s w)) (qn_handed (qnode_of s w))) p
    (tk_asked s) (tk_replied s).
(** Letter [i] arrives. *)
Definition receives (s : talk) (i : nat) (l : letter) (x : receiving) : talk :=
  let v := other (lt_from l) in
  becomes s v (query_receive P fuel (qnode_of s v) (rv_now x) (lt_data l) (rv_fresh x) (rv_rnds x))
    (gets P fuel (pair_of s) i l (rv_now x) (rv_fresh x) (rv_rnds x)) (tk_asked s) (tk_replied s).
(** A subscriber of [w] answers the [k]-th query it was handed. *)
Definition replies (s : talk) (w : who) (k : nat) (id answer : bytes) (x : sending) : talk :=
  becomes s w (snd (query_reply P (qnode_of s w) (sn_now x) k answer (sn_priority x) (fun _ => sn_rnd x)))
    (says_to s w (MAnswer id answer) x) (tk_asked s) (tk_replied s ++ [(w, k, answer)]).
(** The [q]-th query of [w] ends: with what it got, or because it took too long. *)
Definition reads (s : talk) (w : who) (q : nat) : talk :=
  becomes s w (query_wait (qnode_of s w) q) (pair_of s) (tk_asked s) (tk_replied s).
Definition abandons (s : talk) (w : who) (q : nat) : talk :=
  becomes s w (query_abandon (qnode_of s w) q) (pair_of s) (tk_asked s) (tk_replied s).

(** Query [k] handed to [w] came from the other one and is this one. *)
Definition handed (s : talk) (w : who) (k : nat) (id query : bytes) : Prop :=
  nth_error (qn_handed (qnode_of s w)) k = Some (idw w, idw (other w), id, query).

(** Everything that can happen.  Query ids are random: no id is used twice. *)
Inductive talking : talk -> Prop :=
| tk_starts : talking (talk_start P a b)
| tk_asks : forall s w id query x, talking s -> may_say_to s w (MQuery id query) x ->
    ~ In id (map (fun e => snd (fst e)) (tk_asked s)) -> talking (asks s w id query x)
| tk_tells : forall s w data x, talking s -> may_say_to s w (MCustom data) x -> talking (tells s w data x)
| tk_receives : forall s i l x, talking s -> may_get a b (pair_of s) i l (rv_now x) -> talking (receives s i l x)
| tk_replies : forall s w k id query answer x, talking s -> handed s w k id query ->
    may_say_to s w (MAnswer id answer) x -> talking (replies s w k id answer x)
| tk_reads : forall s w q, talking s -> talking (reads s w q)
| tk_abandons : forall s w q, talking s -> (q < length (asked_by s w))%nat -> talking (abandons s w q).

(** The result of the [q]-th query of [w], once it ended. *)
Definition result (s : talk) (w : who) (q : nat) : option (option bytes) := query_returned (qnode_of s w) q.
(** An answer to the query with this id has arrived at [w]. *)
Definition answer_seen (s : talk) (w : who) (id : bytes) : Prop :=
  exists i l answer, In i (tk_seen s) /\ nth_error (tk_letters s) i = Some l
    /\ lt_from l = other w /\ lt_message l = MAnswer id answer.

(** The letter sent last arrives. *)
Definition last_one (s : talk) : option letter := nth_error (tk_letters s) (length (tk_letters s) - 1).
Definition last_arrives (s : talk) (x : receiving) : talk :=
  match last_one s with Some l => receives s (length (tk_letters s) - 1) l x | None => s end.
Definition last_timely (s : talk) (x : receiving) : Prop := forall l, last_one s = Some l -> timely a b l (rv_now x).
(** Both nodes remember the packets they got. *)
Definition both_remember : Prop := o_history_enabled (pa_opts a) = true /\ o_history_enabled (pa_opts b) = true.
End talk.

(** A sample: Alice asks Bob, the letter with Bob's answer arrives twice, then she asks again and
    gives up. *)
Definition sample_sending (now : N) : sending := mk_sending now true (pair_rnd now).
Definition sample_receiving (now : N) : receiving := mk_receiving now (sample_bytes 99) (fun _ => pair_rnd 7).
Definition sample_talk1 (P : prims) : talk := asks P sample_alice sample_bob (talk_start P sample_alice sample_bob) Alice (sample_bytes 3) [2] (sample_sending 1000).
Definition sample_talk2 (P : prims) : talk := last_arrives P 0 (sample_talk1 P) (sample_receiving 1001).
Definition sample_talk3 (P : prims) : talk := replies P sample_alice sample_bob (sample_talk2 P) Bob 0 (sample_bytes 3) [3] (sample_sending 1002).
Definition sample_talk4 (P : prims) : talk := last_arrives P 0 (sample_talk3 P) (sample_receiving 1003).
Definition sample_talk5 (P : prims) : talk := reads (last_arrives P 0 (sample_talk4 P) (sample_receiving 1004)) Alice 0.
Definition sample_talk6 (P : prims) : talk := asks P sample_alice sample_bob (sample_talk5 P) Alice (sample_bytes 4) [5] (sample_sending 1005).
Definition sample_talk7 (P : prims) : talk := abandons (sample_talk6 P) Alice 1.
