(** Transfers, in words. *)
From Coq Require Import List NArith Bool.
From Verif.Base Require Import Bytes.
From Verif.Model Require Import ProtoRldp Fec RldpTransfer RldpQuery RldpTable RldpLimit.
Import ListNotations.
Open Scope N_scope.

(** ** Parts *)

(** Part number [j] of the data: its [slice] bytes from offset [j * slice] on (fewer at the end). *)
Definition part_of (slice : N) (data : bytes) (j : N) : bytes :=
  firstn (N.to_nat slice) (skipn (N.to_nat (j * slice)) data).

(** Number of parts. *)
Definition part_count (slice : N) (data : bytes) : N :=
  (N.of_nat (length data) + slice - 1) / slice.

(** The numbers 0, 1, …, n-1. *)
Definition numbers (n : N) : list N := map N.of_nat (seq 0 (N.to_nat n)).

(** The first [j] parts in a row. *)
Definition first_parts (slice : N) (data : bytes) (j : N) : bytes :=
  concat (map (part_of slice data) (numbers j)).

(** The chunk with symbol [i] of part [j], as an honest sender of [data] builds it. *)
Definition chunk_of (F : fec) (slice : N) (data : bytes) (j i : N) : chunk :=
  mk_chunk (fec_params F (part_of slice data j)) j (N.of_nat (length data)) i
    (fe_symbol F (part_of slice data j) i).

(** A chunk of an honest sender of [data]. *)
Definition honest (F : fec) (slice : N) (data : bytes) (m : chunk) : Prop :=
  exists j i, j < part_count slice data /\ m = chunk_of F slice data j i.

(** All source symbols of all parts, in order. *)
Definition source_chunks (F : fec) (slice : N) (data : bytes) (j : N) : list chunk :=
  map (chunk_of F slice data j) (numbers (fe_count F (part_of slice data j))).
Definition all_source_chunks (F : fec) (slice : N) (data : bytes) : list chunk :=
  flat_map (source_chunks F slice data) (numbers (part_count slice data)).

(** ** Sending one part *)

(** While a part is being sent: the loop sends one more chunk, or a message of the peer is handled. *)
Inductive part_event := PChunk | PConfirm (part seqno : N) | PComplete (part : N) | PReply.

(** The chunks sent; it ends early if [prepare_chunk] fails. *)
Fixpoint part_run (F : fec) (checked : bool) (t : outgoing) (evs : list part_event) : outgoing * list chunk :=
  match evs with
  | [] => (t, [])
  | PConfirm p s :: r => part_run F checked (set_state t (on_confirm (ot_state t) p s)) r
  | PComplete p :: r => part_run F checked (set_state t (on_complete (ot_state t) p)) r
  | PReply :: r => part_run F checked (set_state t (set_reply (ot_state t))) r
  | PChunk :: r =>
      match prepare_chunk F checked t with
      | ChunkReady t' m => let (t'', ms) := part_run F checked t' r in (t'', m :: ms)
      | EncoderIsNotReady | ChunkOverflow => (t, [])
      end
  end.

(** Every chunk sent is at most 1000 symbols ahead of the last confirmed one. *)
Fixpoint window_kept (F : fec) (checked : bool) (t : outgoing) (evs : list part_event) : Prop :=
  match evs with
  | [] => True
  | PConfirm p s :: r => window_kept F checked (set_state t (on_confirm (ot_state t) p s)) r
  | PComplete p :: r => window_kept F checked (set_state t (on_complete (ot_state t) p)) r
  | PReply :: r => window_kept F checked (set_state t (set_reply (ot_state t))) r
  | PChunk :: r =>
      match prepare_chunk F checked t with
      | ChunkReady t' m =>
          os_in (ot_state t) <= ch_seqno m /\ ch_seqno m <= os_in (ot_state t) + 1000
          /\ window_kept F checked t' r
      | EncoderIsNotReady | ChunkOverflow => True
      end
  end.

(** ** Messages and timeouts *)

(** Messages carry 32-bit numbers. *)
Definition event_ok (ev : send_event) : Prop :=
  match ev with
  | EvConfirm part seqno => part < u32_max /\ seqno < u32_max
  | EvComplete part => part < u32_max
  | _ => True
  end.

(** The timeouts in force after each measurement. *)
Fixpoint timeouts (o : query_options) (roundtrip : N) (measured : list N) : list N :=
  match measured with
  | [] => []
  | e :: r => let (rt, t) := update_roundtrip o roundtrip e in t :: timeouts o rt r
  end.

(** ** The transfer table *)

(** [trace] is an interleaving of the given tasks, each running its operations in order. *)
Inductive interleaving : list (list action) -> list action -> Prop :=
| interleaving_done tasks : Forall (eq []) tasks -> interleaving tasks []
| interleaving_step before a rest after trace :
    interleaving (before ++ rest :: after) trace ->
    interleaving (before ++ (a :: rest) :: after) (a :: trace).

(** The ids a transfer registers. *)
Definition ids_of (t : transfer) : list bytes := [transfer_id t; negate_id (transfer_id t)].

(** No other transfer uses these ids. *)
Definition own_ids (t : transfer) (others : list transfer) : Prop :=
  forall t' k, In t' others -> In k (ids_of t) -> ~ In k (ids_of t').

(** ** Parallel queries *)

(** No query of the list is between looking up its semaphore and getting a permit. *)
Definition none_waiting (l : limiter) : Prop :=
  Forall (fun q => match q with Waiting _ => False | _ => True end) (li_queries l).

(** Garbage collection runs only while no query is waiting for its permit. *)
Fixpoint gc_in_peace (max : nat) (l : limiter) (evs : list limit_event) : Prop :=
  match evs with
  | [] => True
  | ev :: r => (ev = LGc -> none_waiting l) /\ gc_in_peace max (limit_step max l ev) r
  end.
