(** The tables of channels under concurrency: [create_channel] (/repo/src/adnl/node/receiver.rs:505-583),
    [reset_peer] (/repo/src/adnl/node/mod.rs:522-539), [remove_peer] (357-368) and [add_peer] (315-349), called
    by tasks that run at the same time, all for one remote peer.

    One machine step is one access to a shared table.  Locks are held as in the code: [create_channel] keeps the
    read guard of the peer and, from the match on, the entry of [channels_by_peers]; [reset_peer] keeps the write
    guard of the peer; [remove_peer] keeps nothing.  A step that needs a lock held by another task changes nothing.
    Guards are per local id and peer here, where the code locks a shard (more waiting, not less).

    Simplified: keys are numbers, the ids of a channel are a function of the local id and the two keys; entries of other peers, with
    other ids, are left out; so is the flag [ready] of a channel (Channel.v). *)
From Coq Require Import List NArith Bool.
From stdpp Require Import gmap.
From Verif.Base Require Import Bytes.
Import ListNotations.
Open Scope N_scope.

(** channel.rs:12-35: the local id, our key, the key of the peer and its date. *)
Record chan := mk_chan { cc_local : N; cc_key : N; cc_remote : N; cc_date : N }.

(** [peers] (the channel key of the peer under each local id), [channels_by_peers] for the peer, [channels_by_id]. *)
Notation id_table := (gmap N (bool * chan)).
Record tables := mk_tables { tb_peers : gmap N N; tb_channel : option chan; tb_by_id : id_table }.

(** A change of [channels_by_id]. *)
Inductive change := Drop (i : N) | Put (i : N) (kind : bool) (c : chan).
Definition apply_change (m : id_table) (x : change) : id_table :=
  match x with Drop i => delete i m | Put i kind c => <[i := (kind, c)]> m end.

(** receiver.rs:543-546, mod.rs:531-532; receiver.rs:548-555 and 568-575. *)
Definition drops (ids : N -> N -> N -> bool -> N) (c : chan) : list change :=
  [Drop (ids (cc_local c) (cc_key c) (cc_remote c) false); Drop (ids (cc_local c) (cc_key c) (cc_remote c) true)].
Definition puts (ids : N -> N -> N -> bool -> N) (c : chan) : list change :=
  [Put (ids (cc_local c) (cc_key c) (cc_remote c) false) false c; Put (ids (cc_local c) (cc_key c) (cc_remote c) true) true c].

(** What a task is about to do. *)
Inductive ctask :=
| Create (l rk d : N)                        (* receiver.rs:515-520: get the peer *)
| CreateEntry (l rk d : N)                   (* 522-541, 558-567: lock the entry, compare, insert *)
| CreateIds (l : N) (todo : list change)     (* 543-555, 568-575; empty: unlock *)
| Reset (l k : N)                            (* mod.rs:524: get the peer for writing *)
| ResetTake (l k : N)                        (* 528-529 *)
| ResetIds (l : N) (todo : list change) (k : N)  (* 531-532; empty: 536, a new key, and unlock *)
| Remove (l : N)                             (* 360-361 *)
| RemoveIds (l : N) (todo : list change)     (* 363-364; empty: 367 *)
| Add (l k : N)                              (* 337-346 *)
| Over (known : bool).

(** Locks held by a task: reading or writing the peer, the entry of the peer's channel. *)
Definition reads (l : N) (t : ctask) : bool :=
  match t with CreateEntry l' _ _ | CreateIds l' _ => l' =? l | _ => false end.
Definition writes (l : N) (t : ctask) : bool :=
  match t with ResetTake l' _ | ResetIds l' _ _ => l' =? l | _ => false end.
Definition locks_entry (t : ctask) : bool := match t with CreateIds _ _ => true | _ => false end.
Definition free_to_read (l : N) (ts : list ctask) : bool := negb (existsb (writes l) ts).
Definition free_to_write (l : N) (ts : list ctask) : bool := negb (existsb (fun t => reads l t || writes l t) ts).
Definition entry_free (ts : list ctask) : bool := negb (existsb locks_entry ts).

(** channel.rs:65-72. *)
Definition chan_valid (c : chan) (rk d : N) : bool := (cc_remote c =? rk) || (d <=? cc_date c).

Definition set_by_id (s : tables) (m : id_table) : tables := mk_tables (tb_peers s) (tb_channel s) m.

(** One step of the task [t], when [ts] are all tasks; [None]: it waits. *)
Definition table_step (ids : N -> N -> N -> bool -> N) (ts : list ctask) (s : tables) (t : ctask) : option (tables * ctask) :=
  match t with
  | Create l rk d =>
    if free_to_read l ts then
      Some (s, match tb_peers s !! l with Some _ => CreateEntry l rk d | None => Over false end)
    else None
  | CreateEntry l rk d =>
    if entry_free ts then
      match tb_channel s, tb_peers s !! l with
      | _, None => Some (s, Over false)            (* does not happen: the guard is held *)
      | Some c, Some k =>
        if chan_valid c rk d then Some (s, Over true)
        else let c' := mk_chan l k rk d in
             Some (mk_tables (tb_peers s) (Some c') (tb_by_id s), CreateIds l (drops ids c ++ puts ids c'))
      | None, Some k =>
        let c' := mk_chan l k rk d in
        Some (mk_tables (tb_peers s) (Some c') (tb_by_id s), CreateIds l (puts ids c'))
      end
    else None
  | CreateIds l (x :: todo) => Some (set_by_id s (apply_change (tb_by_id s) x), CreateIds l todo)
  | CreateIds l [] => Some (s, Over true)
  | Reset l k =>
    if free_to_write l ts then
      Some (s, match tb_peers s !! l with Some _ => ResetTake l k | None => Over false end)
    else None
  | ResetTake l k =>
    if entry_free ts then
      Some (mk_tables (tb_peers s) None (tb_by_id s),
            ResetIds l (match tb_channel s with Some c => drops ids c | None => [] end) k)
    else None
  | ResetIds l (x :: todo) k => Some (set_by_id s (apply_change (tb_by_id s) x), ResetIds l todo k)
  | ResetIds l [] k => Some (mk_tables (<[l := k]> (tb_peers s)) (tb_channel s) (tb_by_id s), Over true)
  | Remove l =>
    if entry_free ts then
      Some (mk_tables (tb_peers s) None (tb_by_id s),
            RemoveIds l (match tb_channel s with Some c => drops ids c | None => [] end))
    else None
  | RemoveIds l (x :: todo) => Some (set_by_id s (apply_change (tb_by_id s) x), RemoveIds l todo)
  | RemoveIds l [] =>
    if free_to_write l ts then
      Some (mk_tables (delete l (tb_peers s)) (tb_channel s) (tb_by_id s),
            Over (match tb_peers s !! l with Some _ => true | None => false end))
    else None
  | Add l k =>
    if free_to_write l ts then
      Some (match tb_peers s !! l with
            | Some _ => s
            | None => mk_tables (<[l := k]> (tb_peers s)) (tb_channel s) (tb_by_id s)
            end, Over true)
    else None
  | Over known => Some (s, Over known)
  end.

(** The tables and the tasks; a schedule picks the task that does the next step. *)
Definition tables_system := (tables * list ctask)%type.
Definition tables_step (ids : N -> N -> N -> bool -> N) (x : tables_system) (i : nat) : tables_system :=
  match nth_error (snd x) i with
  | None => x
  | Some t =>
    match table_step ids (snd x) (fst x) t with
    | None => x
    | Some (s, t') => (s, set_nth i t' (snd x))
    end
  end.
Definition tables_run (ids : N -> N -> N -> bool -> N) (x : tables_system) (sched : list nat) : tables_system :=
  fold_left (tables_step ids) sched x.
