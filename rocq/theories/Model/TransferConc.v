(** Multipart messages received by several tasks at once, with the clean-up timers:
    /repo/src/adnl/transfer.rs, /repo/src/adnl/node/receiver.rs:185-253,
    /repo/src/util/updated_at.rs.

    One step is one access to shared state (an operation on a map, an atomic, or the clock).  Tasks
    and timers interleave freely.  Memory is sequentially consistent: [fetch_add] releases what the
    successful [compare_exchange] acquires. *)
From stdpp Require Import gmap.
From Coq Require Import NArith.
From Verif.Base Require Import Bytes.
From Verif.Model Require Import Crypto Transfer.
Open Scope N_scope.

(** [Transfer] (transfer.rs:14-23): parts, received and total length; when it was started (ms) and
    the seconds after which it was updated last ([UpdatedAt]).  [x_hash] is the id under which
    it was put into the table, known to its timer. *)
Record shared_transfer := mk_shared
  { x_hash : bytes; x_parts : gmap N bytes; x_received : N; x_total : N; x_started : N; x_updated : N }.
Definition set_parts (x : shared_transfer) (p : gmap N bytes) : shared_transfer :=
  mk_shared (x_hash x) p (x_received x) (x_total x) (x_started x) (x_updated x).
Definition set_received (x : shared_transfer) (r : N) : shared_transfer :=
  mk_shared (x_hash x) (x_parts x) r (x_total x) (x_started x) (x_updated x).
Definition set_updated (x : shared_transfer) (u : N) : shared_transfer :=
  mk_shared (x_hash x) (x_parts x) (x_received x) (x_total x) (x_started x) u.

(** A task processing one [Part] message, with what it will do next.  [h] is the [Arc<Transfer>]
    it holds. *)
Inductive task :=
| AtEntry (hash : bytes) (total offset : N) (data : bytes)
| AtRefresh (h : nat) (hash : bytes) (offset : N) (data : bytes)
| AtInsert (h : nat) (hash : bytes) (offset : N) (data : bytes)
| AtAdd (h : nat) (hash : bytes) (offset size : N)
| AtExchange (h : nat) (hash : bytes) (offset : N)
| AtCombine (h : nat) (hash : bytes) (received : N) (buffer : bytes)
| AtRemove (h : nat) (hash : bytes) (o : part_outcome)
| Ended (h : nat) (hash : bytes) (o : part_outcome).

(** The task of a transfer's timer: asleep until a time, about to remove the transfer, or over. *)
Inductive timer := Sleeping (due : N) | Expiring | Stopped.

(** The table, all transfers ever made, the time in milliseconds, the tasks, and the timer of each
    transfer. *)
Record receiving_state := mk_receiving
  { c_table : gmap bytes nat; c_heap : list shared_transfer; c_clock : N; c_tasks : list task;
    c_timers : list timer }.
Definition receiving_new (clock : N) : receiving_state := mk_receiving ∅ [] clock [] [].

Inductive receiving_event :=
| PartCame (hash : bytes) (total offset : N) (data : bytes)
| TaskRuns (k : nat)
| TimerRuns (h : nat)
| TimeGoes (ms : N).

Definition elapsed_secs (s : receiving_state) (x : shared_transfer) : N := (c_clock s - x_started x) / 1000.
(** [UpdatedAt::is_expired] (updated_at.rs:21-23). *)
Definition transfer_expired (timeout : N) (s : receiving_state) (x : shared_transfer) : bool :=
  x_updated x + timeout <=? elapsed_secs s x.

Definition with_transfer (s : receiving_state) (h : nat) (f : shared_transfer -> shared_transfer) : receiving_state :=
  mk_receiving (c_table s) (alter f h (c_heap s)) (c_clock s) (c_tasks s) (c_timers s).
Definition without (s : receiving_state) (hash : bytes) : receiving_state :=
  mk_receiving (delete hash (c_table s)) (c_heap s) (c_clock s) (c_tasks s) (c_timers s).

(** One step of a task: the new shared state and what the task does next. *)
Definition task_step (P : prims) (timeout : N) (s : receiving_state) (t : task) : receiving_state * task :=
  match t with
  | AtEntry hash total offset data =>
    (* [incoming_transfers.entry] (receiver.rs:197-237): a new transfer gets its timer *)
    match c_table s !! hash with
    | Some h => (s, AtRefresh h hash offset data)
    | None =>
      let h := length (c_heap s) in
      (mk_receiving (<[hash := h]> (c_table s)) (c_heap s ++ [mk_shared hash ∅ 0 total (c_clock s) 0]) (c_clock s)
         (c_tasks s) (c_timers s ++ [Sleeping (c_clock s + timeout * 1000)]),
       AtRefresh h hash offset data)
    end
  | AtRefresh h hash offset data =>
    (* [transfer.timings().refresh()] (receiver.rs:240) *)
    (match c_heap s !! h with
     | Some x => with_transfer s h (fun x => set_updated x (elapsed_secs s x))
     | None => s
     end, AtInsert h hash offset data)
  | AtInsert h hash offset data =>
    (* [self.parts.insert] (transfer.rs:52-54) *)
    match c_heap s !! h with
    | Some x =>
      (with_transfer s h (fun x => set_parts x (<[offset := data]> (x_parts x))),
       match x_parts x !! offset with
       | Some _ => Ended h hash Pending
       | None => AtAdd h hash offset (len data)
       end)
    | None => (s, Ended h hash Pending)
    end
  | AtAdd h hash offset size =>
    (* [fetch_add] (transfer.rs:58) *)
    (with_transfer s h (fun x => set_received x (x_received x + size)), AtExchange h hash offset)
  | AtExchange h hash _ =>
    (* [compare_exchange] and the comparison (transfer.rs:62-73) *)
    match c_heap s !! h with
    | Some x =>
      match x_received x ?= x_total x with
      | Eq => (with_transfer s h (fun x => set_received x (x_total x * 2)), AtCombine h hash 0 [])
      | Gt => (s, AtRemove h hash (Failed ReceivedTooMuch))
      | Lt => (s, Ended h hash Pending)
      end
    | None => (s, Ended h hash Pending)
    end
  | AtCombine h hash received buffer =>
    (* one iteration of the loop, or what follows it (transfer.rs:84-100) *)
    match c_heap s !! h with
    | Some x =>
      (s, if received <? x_total x then
            match x_parts x !! received with
            | Some d => AtCombine h hash (received + len d) (buffer ++ d)
            | None => AtRemove h hash (Failed PartMissing)
            end
          else if bytes_eqb (sha256 P buffer) hash then AtRemove h hash (Whole buffer)
          else AtRemove h hash (Failed InvalidHash))
    | None => (s, Ended h hash Pending)
    end
  | AtRemove h hash o =>
    (* [incoming_transfers.remove] (receiver.rs:244-251) *)
    (without s hash, Ended h hash o)
  | Ended h hash o => (s, t)
  end.

(** The timer of transfer [h] (receiver.rs:215-230) runs, if it is time. *)
Definition timer_step (timeout : N) (s : receiving_state) (h : nat) (x : shared_transfer) (t : timer) : receiving_state :=
  match t with
  | Sleeping due =>
    if c_clock s <? due then s
    else
      mk_receiving (c_table s) (c_heap s) (c_clock s) (c_tasks s)
        (<[h := if transfer_expired timeout s x then Expiring else Sleeping (c_clock s + timeout * 1000)]> (c_timers s))
  | Expiring =>
    mk_receiving (delete (x_hash x) (c_table s)) (c_heap s) (c_clock s) (c_tasks s) (<[h := Stopped]> (c_timers s))
  | Stopped => s
  end.

(** A packet with a part comes in, a task or timer does one step, or time passes. *)
Definition receiving_step (P : prims) (timeout : N) (s : receiving_state) (e : receiving_event) : receiving_state :=
  match e with
  | PartCame hash total offset data =>
    mk_receiving (c_table s) (c_heap s) (c_clock s) (c_tasks s ++ [AtEntry hash total offset data]) (c_timers s)
  | TaskRuns k =>
    match c_tasks s !! k with
    | None => s
    | Some t =>
      let '(s', t') := task_step P timeout s t in
      mk_receiving (c_table s') (c_heap s') (c_clock s') (<[k := t']> (c_tasks s')) (c_timers s')
    end
  | TimerRuns h =>
    match c_heap s !! h, c_timers s !! h with
    | Some x, Some t => timer_step timeout s h x t
    | _, _ => s
    end
  | TimeGoes ms => mk_receiving (c_table s) (c_heap s) (c_clock s + ms) (c_tasks s) (c_timers s)
  end.
Definition receiving_run (P : prims) (timeout : N) (s : receiving_state) (l : list receiving_event) : receiving_state :=
  fold_left (receiving_step P timeout) l s.
