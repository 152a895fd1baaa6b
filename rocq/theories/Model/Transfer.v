(** Multipart ADNL messages: /repo/src/adnl/transfer.rs, the splitting loop of
    /repo/src/adnl/node/sender.rs and the reassembly table of
    /repo/src/adnl/node/receiver.rs. *)
From stdpp Require Import gmap.
From Coq Require Import NArith.
From Verif.Base Require Import Bytes.
From Verif.Model Require Import Crypto Tl Scheme ProtoAdnl.
Open Scope N_scope.

Definition len (d : bytes) : N := N.of_nat (length d).

(** [Transfer] (transfer.rs:14-23) without the timestamp. *)
Record transfer := mk_transfer { t_parts : gmap N bytes; t_received : N; t_total : N }.

(** [Transfer::new] (transfer.rs:27-34). *)
Definition transfer_new (total : N) : transfer := mk_transfer ∅ 0 total.

Inductive transfer_error := ReceivedTooMuch | PartMissing | InvalidHash.

(** Result of [add_part].  [Spinning]: the combining loop did not finish within the given number
    of iterations. *)
Inductive part_outcome :=
| Pending
| Whole (message : bytes)
| Failed (e : transfer_error)
| Spinning.

(** The loop combining all parts (transfer.rs:82-91), at most [fuel] iterations. *)
Inductive combined := CDone (buffer : bytes) | CMissing | CSpinning.
Fixpoint combine (fuel : nat) (parts : gmap N bytes) (total received : N) (buffer : bytes) : combined :=
  if received <? total then
    match fuel with
    | O => CSpinning
    | S k =>
      match parts !! received with
      | Some d => combine k parts total (received + len d) (buffer ++ d)
      | None => CMissing
      end
    end
  else CDone buffer.

(** [add_part] (transfer.rs:45-115) run alone.  [usize] is taken as unbounded: the received
    length grows by at most 2048 per packet. *)
Definition add_part (P : prims) (fuel : nat) (t : transfer) (offset : N) (data transfer_id : bytes)
  : part_outcome * transfer :=
  let existed := t_parts t !! offset in
  let parts := <[offset := data]> (t_parts t) in
  match existed with
  | Some _ => (Pending, mk_transfer parts (t_received t) (t_total t))
  | None =>
    let received := t_received t + len data in
    let after := if received =? t_total t then t_total t * 2 else received in
    let t' := mk_transfer parts after (t_total t) in
    match received ?= t_total t with
    | Eq =>
      match combine fuel parts (t_total t) 0 [] with
      | CSpinning => (Spinning, t')
      | CMissing => (Failed PartMissing, t')
      | CDone buffer =>
        if bytes_eqb (sha256 P buffer) transfer_id then (Whole buffer, t') else (Failed InvalidHash, t')
      end
    | Gt => (Failed ReceivedTooMuch, t')
    | Lt => (Pending, t')
    end
  end.

(** The table of incoming transfers and its use for one [Part] message (receiver.rs:189-253). *)
Notation transfers := (gmap bytes transfer) (only parsing).
Definition process_part (P : prims) (fuel : nat) (ts : transfers) (hash : bytes)
    (total_size offset : N) (data : bytes) : part_outcome * transfers :=
  let t := match ts !! hash with Some t => t | None => transfer_new total_size end in
  let '(o, t') := add_part P fuel t offset data hash in
  match o with
  | Whole _ | Failed _ => (o, delete hash ts)
  | Pending | Spinning => (o, <[hash := t']> ts)
  end.

(** The task that drops a stale transfer (receiver.rs:215-231): an event at any time. *)
Definition expire_transfer (ts : transfers) (hash : bytes) : transfers := delete hash ts.

(** [build_part_message] (sender.rs:141-162): the message and the new offset. *)
Definition build_part (data hash : bytes) (max_size offset : N) : message * N :=
  let l := N.min (len data) (offset + max_size) in
  let piece := if offset <? l then slice (N.to_nat offset) (N.to_nat l) data else [] in
  (MPart hash (len data mod 2 ^ 32) (offset mod 2 ^ 32) piece, offset + l).

(** The loop sending the remaining parts (sender.rs:185-197); [None] if it has not finished after
    [fuel] iterations. *)
Fixpoint rest_parts (fuel : nat) (data hash : bytes) (max_size offset : N) : option (list message) :=
  if offset <? len data then
    match fuel with
    | O => None
    | S k =>
      let '(m, offset') := build_part data hash max_size offset in
      match rest_parts k data hash max_size offset' with
      | Some l => Some (m :: l)
      | None => None
      end
    end
  else Some [].
