(** Packets of one peer handled by several tasks at once: [try_reinit_sender] and the counters of
    /repo/src/adnl/peer.rs, used by [check_packet] (/repo/src/adnl/node/receiver.rs:430-487) and
    [send_packet] (/repo/src/adnl/node/sender.rs:255-269).  Every datagram is handled by a task of its
    own (receiver.rs:88-100); the tasks share the [Peer] through a read guard of the table.

    One machine step is one access to the shared peer.  A delivery to, or a reset of, a history of
    received numbers is one step here; its own atomic operations are in HistoryConc.  [Peer::reset]
    needs the write guard (node/mod.rs) and is not interleaved.  Memory orderings weaker than
    sequential consistency are not modelled. *)
From Coq Require Import List NArith Bool.
From Verif.Base Require Import Bytes.
From Verif.Model Require Import History Peer.
Import ListNotations.
Open Scope N_scope.

Inductive verdict := Passed | TooOld | Repeated | Overflow.

(** What a task is about to do.  [s] is the number of the packet, [pr] the kind of its channel. *)
Inductive ptask :=
| CheckDate (d s : N) (pr : bool)                       (* peer.rs:42-43: load and compare *)
| StoreDate (loaded d s : N) (pr : bool)                (* 46 *)
| Resets (todo : list (bool * bool)) (d s : N) (pr : bool)  (* 48-51: (receiving side?, priority?) *)
| Number (s : N) (pr : bool)                            (* receiver.rs:478-487 *)
| Handled (d : option N) (s : N) (v : verdict)
| Send (pr : bool)                                      (* sender.rs:259: fetch_add *)
| Sent (pr : bool) (n : N).

Definition all_resets : list (bool * bool) := [(false, false); (false, true); (true, false); (true, true)].
Definition set_recv (p : peer) (r : recv_state) : peer := mk_peer (p_key p) (p_addr p) (p_channel_secret p) r (p_send p).
Definition set_send (p : peer) (s : send_state) : peer := mk_peer (p_key p) (p_addr p) (p_channel_secret p) (p_recv p) s.

(** [reset] of one of the four histories (packets_history.rs:23-54). *)
Definition reset_one (p : peer) (which : bool * bool) : peer :=
  let (receiving, pr) := which in
  if receiving then set_recv p (set_rs_history pr (history_reset (rs_history pr (p_recv p))) (p_recv p))
  else set_send p (set_ss_seqno pr 0 (p_send p)).

(** One step of one task.  [checks]: whether additions are checked for overflow.  [od] of a handled
    packet is its date, if it had one; it is kept for the statements only. *)
Definition peer_step (checks : bool) (p : peer) (t : ptask) : peer * ptask :=
  match t with
  | CheckDate d s pr =>
    let known := ss_reinit (p_send p) in
    match d ?= known with
    | Eq => (p, Resets [] d s pr)
    | Gt => (p, StoreDate known d s pr)
    | Lt => (p, Handled (Some d) s TooOld)
    end
  | StoreDate loaded d s pr =>
    let st := p_send p in
    (set_send p (mk_send_state (ss_ordinary st) (ss_priority st) d),
     Resets (if loaded =? 0 then [] else all_resets) d s pr)
  | Resets (w :: todo) d s pr => (reset_one p w, Resets todo d s pr)
  | Resets [] d s pr =>
    let (o, h) := deliver checks (rs_history pr (p_recv p)) s in
    (set_recv p (set_rs_history pr h (p_recv p)),
     Handled (Some d) s (match o with Accepted => Passed | Rejected => Repeated | Panicked => Overflow end))
  | Number s pr =>
    let (o, h) := deliver checks (rs_history pr (p_recv p)) s in
    (set_recv p (set_rs_history pr h (p_recv p)),
     Handled None s (match o with Accepted => Passed | Rejected => Repeated | Panicked => Overflow end))
  | Send pr =>
    let n := (ss_seqno pr (p_send p) + 1) mod 2 ^ 64 in
    (set_send p (set_ss_seqno pr n (p_send p)), Sent pr n)
  | Handled od s v => (p, Handled od s v)
  | Sent pr n => (p, Sent pr n)
  end.

(** The peer and the tasks; a schedule picks the task that does the next step. *)
Definition peer_system := (peer * list ptask)%type.
Definition peers_step (checks : bool) (x : peer_system) (i : nat) : peer_system :=
  match nth_error (snd x) i with
  | None => x
  | Some t => let (p, t') := peer_step checks (fst x) t in (p, set_nth i t' (snd x))
  end.
Definition peers_run (checks : bool) (x : peer_system) (sched : list nat) : peer_system :=
  fold_left (peers_step checks) sched x.
