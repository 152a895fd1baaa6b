(** Streams of values and searches, in words. *)
From stdpp Require Import gmap.
From Verif.Base Require Import Bytes.
From Verif.Model Require Import DhtStream.

(** No new peers became known while the stream ran. *)
Definition no_new_peers {V} (e : stream_event V) : Prop := match e with Completed _ _ (Some _) => False | _ => True end.
(** A query has ended. *)
Definition completed {V} (e : stream_event V) : bool := match e with Completed _ _ _ => true | Waiting => false end.
(** The values among the results of the queries. *)
Definition values_of {V} (l : list (bytes * option V)) : list V :=
  flat_map (fun x => match snd x with Some v => [v] | None => [] end) l.
