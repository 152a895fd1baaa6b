(** The queue of received broadcasts, /repo/src/overlay/broadcast_receiver.rs, as callers of [pop] and
    tasks started by [push] that interleave at every shared access. *)
From Coq Require Import List NArith Bool Arith.
Import ListNotations.

(** Where a caller of [pop] (37-53) is.
    CEnter: before [sync_lock.fetch_add]; CTry: before [data.pop]; CGot: before [fetch_sub];
    CPark: the queue was empty, before [barriers.push]; CArrive: before [barrier.wait];
    CParked: suspended in it; CDone: returned; CCancelled: the future was dropped while suspended,
    the only place where it can be. *)
Inductive consumer (T : Type) :=
| CEnter | CTry | CGot (v : T) | CPark | CArrive (b : nat) | CParked (b : nat) | CDone (v : T) | CCancelled.
Arguments CEnter {T}. Arguments CTry {T}. Arguments CGot {T} v. Arguments CPark {T}.
Arguments CArrive {T} b. Arguments CParked {T} b. Arguments CDone {T} v. Arguments CCancelled {T}.

(** Where a task of [push] (24-33) is.
    TCheck: before [sync_lock.load]; TTry: before [barriers.pop]; TArrive: before [barrier.wait];
    TParked: suspended in it; TDone: finished. *)
Inductive task := TCheck | TTry | TArrive (b : nat) | TParked (b : nat) | TDone.

(** [BroadcastReceiver] (7-11) with its callers and tasks.  [rc_arrived]: the barriers one side has
    arrived at; [tokio::sync::Barrier] does not take an arrival back when the waiting future is dropped.
    [sync_lock] is a u32; fewer than 2^32 callers are assumed.  [rc_next]: a supply of fresh barriers.
    [rc_pushed], [rc_log]: everything pushed and everything taken, by which caller. *)
Record rcv (T : Type) := mk_rcv
  { rc_data : list T; rc_barriers : list nat; rc_lock : nat; rc_next : nat; rc_arrived : list nat;
    rc_consumers : list (consumer T); rc_tasks : list task;
    rc_pushed : list T; rc_log : list (nat * T) }.
Arguments mk_rcv {T}. Arguments rc_data {T}. Arguments rc_barriers {T}. Arguments rc_lock {T}.
Arguments rc_next {T}. Arguments rc_arrived {T}. Arguments rc_consumers {T}. Arguments rc_tasks {T}.
Arguments rc_pushed {T}. Arguments rc_log {T}.

(** [default] (56-64). *)
Definition rcv_new (T : Type) : rcv T := mk_rcv [] [] 0 0 [] [] [] [] [].

Section Steps.
Context {T : Type}.

Definition set_nth {A} (l : list A) (i : nat) (x : A) : list A := firstn i l ++ x :: skipn (S i) l.
Definition put_consumer (s : rcv T) (i : nat) (c : consumer T) : rcv T :=
  mk_rcv (rc_data s) (rc_barriers s) (rc_lock s) (rc_next s) (rc_arrived s)
    (set_nth (rc_consumers s) i c) (rc_tasks s) (rc_pushed s) (rc_log s).
Definition put_task (s : rcv T) (j : nat) (t : task) : rcv T :=
  mk_rcv (rc_data s) (rc_barriers s) (rc_lock s) (rc_next s) (rc_arrived s)
    (rc_consumers s) (set_nth (rc_tasks s) j t) (rc_pushed s) (rc_log s).

(** The second arrival at a barrier of two lets both sides go on: the caller loops, the task breaks. *)
Definition wake_consumer (b : nat) (c : consumer T) : consumer T :=
  match c with CParked b' => if b' =? b then CTry else c | _ => c end.
Definition wake_task (b : nat) (t : task) : task :=
  match t with TParked b' => if b' =? b then TDone else t | _ => t end.
Definition release (s : rcv T) (b : nat) : rcv T :=
  mk_rcv (rc_data s) (rc_barriers s) (rc_lock s) (rc_next s) (rc_arrived s)
    (map (wake_consumer b) (rc_consumers s)) (map (wake_task b) (rc_tasks s)) (rc_pushed s) (rc_log s).
Definition first_arrival (s : rcv T) (b : nat) : rcv T :=
  mk_rcv (rc_data s) (rc_barriers s) (rc_lock s) (rc_next s) (b :: rc_arrived s)
    (rc_consumers s) (rc_tasks s) (rc_pushed s) (rc_log s).
Definition has_arrived (s : rcv T) (b : nat) : bool := existsb (Nat.eqb b) (rc_arrived s).

(** One step of a caller of [pop] (37-53). *)
Definition consumer_step (s : rcv T) (i : nat) : rcv T :=
  match nth_error (rc_consumers s) i with
  | Some CEnter =>
    put_consumer (mk_rcv (rc_data s) (rc_barriers s) (S (rc_lock s)) (rc_next s) (rc_arrived s)
                    (rc_consumers s) (rc_tasks s) (rc_pushed s) (rc_log s)) i CTry
  | Some CTry =>
    match rc_data s with
    | v :: rest =>
      put_consumer (mk_rcv rest (rc_barriers s) (rc_lock s) (rc_next s) (rc_arrived s)
                      (rc_consumers s) (rc_tasks s) (rc_pushed s) (rc_log s ++ [(i, v)])) i (CGot v)
    | [] => put_consumer s i CPark
    end
  | Some (CGot v) =>
    put_consumer (mk_rcv (rc_data s) (rc_barriers s) (pred (rc_lock s)) (rc_next s) (rc_arrived s)
                    (rc_consumers s) (rc_tasks s) (rc_pushed s) (rc_log s)) i (CDone v)
  | Some CPark =>
    put_consumer (mk_rcv (rc_data s) (rc_barriers s ++ [rc_next s]) (rc_lock s) (S (rc_next s)) (rc_arrived s)
                    (rc_consumers s) (rc_tasks s) (rc_pushed s) (rc_log s)) i (CArrive (rc_next s))
  | Some (CArrive b) =>
    if has_arrived s b then release (put_consumer s i CTry) b
    else first_arrival (put_consumer s i (CParked b)) b
  | Some (CParked _) | Some (CDone _) | Some CCancelled | None => s
  end.

(** One step of a task (24-33); [yield_now] is a step to the next iteration. *)
Definition task_step (s : rcv T) (j : nat) : rcv T :=
  match nth_error (rc_tasks s) j with
  | Some TCheck => put_task s j (if rc_lock s =? 0 then TDone else TTry)
  | Some TTry =>
    match rc_barriers s with
    | b :: rest =>
      put_task (mk_rcv (rc_data s) rest (rc_lock s) (rc_next s) (rc_arrived s)
                  (rc_consumers s) (rc_tasks s) (rc_pushed s) (rc_log s)) j (TArrive b)
    | [] => put_task s j TCheck
    end
  | Some (TArrive b) =>
    if has_arrived s b then release (put_task s j TDone) b
    else first_arrival (put_task s j (TParked b)) b
  | Some (TParked _) | Some TDone | None => s
  end.

(** What can happen: [push] (21-34), a new call of [pop], a step of a caller or of a task, and the
    cancellation of a suspended caller. *)
Inductive rcv_event := RPush (v : T) | RPop | RConsumer (i : nat) | RTask (j : nat) | RCancel (i : nat).
Definition rcv_step (s : rcv T) (e : rcv_event) : rcv T :=
  match e with
  | RPush v =>
    mk_rcv (rc_data s ++ [v]) (rc_barriers s) (rc_lock s) (rc_next s) (rc_arrived s)
      (rc_consumers s) (rc_tasks s ++ [TCheck]) (rc_pushed s ++ [v]) (rc_log s)
  | RPop =>
    mk_rcv (rc_data s) (rc_barriers s) (rc_lock s) (rc_next s) (rc_arrived s)
      (rc_consumers s ++ [CEnter]) (rc_tasks s) (rc_pushed s) (rc_log s)
  | RConsumer i => consumer_step s i
  | RTask j => task_step s j
  | RCancel i =>
    match nth_error (rc_consumers s) i with
    | Some (CParked _) => put_consumer s i CCancelled
    | _ => s
    end
  end.
Definition rcv_run (s : rcv T) (l : list rcv_event) : rcv T := fold_left rcv_step l s.
End Steps.
Arguments rcv_event T : clear implicits.
