(** Packet history (replay protection): /repo/src/util/packets_history.rs, sequentially. *)
From Coq Require Import List NArith Bool.
From Verif.Base Require Import Bytes.
Import ListNotations.
Open Scope N_scope.

(** packets_history.rs:188-192 *)
Definition HISTORY_SIZE : nat := 8.
Definition HALF : nat := 4.
Definition INDEX_MASK : N := 255.
Definition IN_TRANSIT : N := 2 ^ 64 - 1.

(** [x & !INDEX_MASK] for u64 *)
Definition normalize (x : N) : N := N.ldiff x INDEX_MASK.
Definition masked (x : N) : N := N.land x INDEX_MASK.

(** [HistoryBits] and [PacketsHistory] (packets_history.rs:3-6, 183-186). *)
Record history := mk_history { h_index : N; h_bits : list N; h_seqno : N }.

(** [for_recv] (packets_history.rs:16-21): all zero. *)
Definition history_new : history := mk_history 0 (repeat 0 HISTORY_SIZE) 0.

(** [reset] (packets_history.rs:23-54), run alone. *)
Definition history_reset (h : history) : history :=
  mk_history 0 (map (fun i => if Nat.eqb i HALF then 1 else 0) (seq 0 HISTORY_SIZE)) 0.

(** Result of [deliver_packet]; [Panicked] is an arithmetic overflow in a build with overflow
    checks. *)
Inductive outcome := Accepted | Rejected | Panicked.

(** [a + b] on u64 in a build with (None on overflow) or without (wraps) overflow checks. *)
Definition add_u64 (checks : bool) (a b : N) : option N :=
  if a + b <? 2 ^ 64 then Some (a + b) else if checks then None else Some ((a + b) mod 2 ^ 64).

Definition word (bits : list N) (i : nat) : N := nth i bits 0.

(** [deliver_packet] with a mask (packets_history.rs:81-179), run alone: the loads return what
    was stored last, so no iteration is repeated. *)
Definition deliver (checks : bool) (h : history) (seqno : N) : outcome * history :=
  let seqno_masked := masked seqno in
  let seqno_normalized := normalize seqno in
  let index := h_index h in
  let index_masked := masked index in
  let index_normalized := normalize index in
  match add_u64 checks seqno_normalized (INDEX_MASK + 1) with
  | None => (Panicked, h)
  | Some limit =>
    if limit <? index_normalized then (Rejected, h) else
    let mask_bit := N.shiftl 1 (seqno_masked mod 64) in
    let finish next_index bits :=
      let last := h_seqno h in
      let seqno' := if last <? seqno then seqno else last in
      let index_masked' := normalize (index_masked + 1) in
      (Accepted, mk_history (N.lor next_index index_masked') bits seqno') in
    let in_window (off : nat) :=
      let off := (off + N.to_nat (seqno_masked / 64))%nat in
      let w := word (h_bits h) off in
      if negb (N.land w mask_bit =? 0) then (Rejected, h)
      else finish index (set_nth off (N.lor w mask_bit) (h_bits h)) in
    match index_normalized ?= seqno_normalized with
    | Gt => in_window 0%nat
    | Eq => in_window HALF
    | Lt =>
      match add_u64 checks index_normalized (INDEX_MASK + 1) with
      | None => (Panicked, h)
      | Some next =>
        if next =? seqno_normalized
        then finish index_normalized (skipn HALF (h_bits h) ++ repeat 0 HALF)
        else finish index_normalized (repeat 0 HISTORY_SIZE)
      end
    end
  end.

(** [deliver_packet] without a mask (packets_history.rs:67-78), [for_send] histories. *)
Definition deliver_unmasked (last seqno : N) : bool * N :=
  (true, if last <? seqno then seqno else last).

(** [bump_seqno] (packets_history.rs:60-62): returns the new value; [fetch_add] wraps silently
    but the following [+ 1] does not when overflow checks are on. *)
Definition bump_seqno (checks : bool) (last : N) : option N * N :=
  (add_u64 checks last 1, (last + 1) mod 2 ^ 64).

(** What a peer's history goes through. *)
Inductive event := Deliver (seqno : N) | Reset.
Definition step_event (checks : bool) (h : history) (e : event) : option outcome * history :=
  match e with
  | Deliver s => let (o, h') := deliver checks h s in (Some o, h')
  | Reset => (None, history_reset h)
  end.

(** Runs a sequence of packets, returning the sequence numbers that were accepted, in order. *)
Fixpoint accepted (checks : bool) (h : history) (l : list N) : list N :=
  match l with
  | [] => []
  | s :: r =>
    match deliver checks h s with
    | (Accepted, h') => s :: accepted checks h' r
    | (_, h') => accepted checks h' r
    end
  end.

(** State after a sequence of events. *)
Fixpoint run_events (checks : bool) (h : history) (l : list event) : history :=
  match l with
  | [] => h
  | e :: r => run_events checks (snd (step_event checks h e)) r
  end.
