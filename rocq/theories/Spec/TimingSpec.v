(** News from the peer during an RLDP query. *)
From Coq Require Import List NArith Bool.
From Verif.Base Require Import Bytes.
From Verif.Model Require Import RldpQuery RldpTiming.
Import ListNotations.
Open Scope N_scope.

(** Since when the sender has heard nothing new, and the highest symbol of the part confirmed until then:
    something new is a higher number, or the end of the part. *)
Fixpoint quiet_since (since best : N) (evs : list send_sight) : N * N :=
  match evs with
  | [] => (since, best)
  | WaveOver now seqno :: r => if best <? seqno then quiet_since now seqno r else quiet_since since best r
  | PartOver now :: r | LastOver now :: r => quiet_since now 0 r
  end.
(** The same for the answer: something new is another message. *)
Fixpoint silent_since (since count : N) (evs : list answer_sight) : N * N :=
  match evs with
  | [] => (since, count)
  | ev :: r => if count <? as_updates ev then silent_since (as_now ev) (as_updates ev) r else silent_since since count r
  end.

(** The longest time a query waits for news: one percent more for each symbol or message. *)
Definition longest (limit count : N) : N := limit + limit * count / 100.

(** A peer that confirms one more symbol every 10 milliseconds, and never a whole part. *)
Definition trickle (n : nat) : list send_sight := map (fun k => WaveOver (10 * N.of_nat k) (N.of_nat k)) (seq 1 n).
(** A peer that sends another useless message every 10 milliseconds. *)
Definition chatter (n : nat) : list answer_sight := map (fun k => mk_answer_sight (10 * N.of_nat k) (N.of_nat k) false) (seq 1 n).

(** A peer that never reacts, [n] queries in a row, each with the estimate the previous one returned:
    the estimate after them. *)
Fixpoint after_failures (o : query_options) (roundtrip : option N) (n : nat) : option N :=
  match n with
  | O => roundtrip
  | S n =>
      let st := send_wait_new o roundtrip 0 in
      match send_waits o st [WaveOver (sw_timeout st + 1) 0] with
      | NotSent r => after_failures o (Some r) n
      | _ => None
      end
  end.

(** The clock readings of a query. *)
Definition sight_time (ev : send_sight) : N := match ev with WaveOver now _ | PartOver now | LastOver now => now end.

(** The times that a query measures: each from one news to the next.  When the answer is complete at a look
    that also brings news, another time of zero is measured. *)
Fixpoint send_measures (since best : N) (evs : list send_sight) : list N :=
  match evs with
  | [] => []
  | WaveOver now seqno :: r =>
      if best <? seqno then (now - since) :: send_measures now seqno r else send_measures since best r
  | PartOver now :: r => (now - since) :: send_measures now 0 r
  | LastOver now :: r => [now - since]
  end.
Fixpoint answer_measures (since count : N) (evs : list answer_sight) : list N :=
  match evs with
  | [] => []
  | ev :: r =>
      if count <? as_updates ev
      then (as_now ev - since) :: (if as_whole ev then [0] else answer_measures (as_now ev) (as_updates ev) r)
      else if as_whole ev then [as_now ev - since] else answer_measures since count r
  end.
(** The estimate from them: the first time, then the mean of the estimate and the next time. *)
Definition averaged (roundtrip : N) (times : list N) : N :=
  fold_left (fun r e => if r =? 0 then e else (r + e) / 2) times roundtrip.
