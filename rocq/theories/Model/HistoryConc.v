(** [PacketsHistory::deliver_packet] and [reset] run by any number of tasks at once:
    /repo/src/util/packets_history.rs:23-54, 81-179.  Received packets are processed in
    separate tasks (/repo/src/adnl/node/receiver.rs:88-100), all sharing one history.

    One machine step is one atomic operation of one task.  Memory orderings weaker than
    sequential consistency are not modelled (every load sees the last store). *)
From Coq Require Import List NArith Bool.
From Verif.Base Require Import Bytes.
From Verif.Model Require Import History.
Import ListNotations.
Open Scope N_scope.

(** Operations on the bit words inside the critical section. *)
Inductive uop :=
| UOr (i : nat) (m : N)      (* fetch_or, line 128 *)
| ULoad (i : nat)            (* load, line 144 *)
| UStoreReg (i : nat)        (* store of the loaded value, line 143 *)
| UStore (i : nat) (v : N).  (* store, lines 44, 150, 154 *)

(** lines 141-156 *)
Definition shift_prog : list uop :=
  flat_map (fun i => [ULoad (i + HALF)%nat; UStoreReg i]) (seq 0 HALF)
  ++ map (fun i => UStore i 0) (seq HALF HALF).
Definition clear_prog : list uop := map (fun i => UStore i 0) (seq 0 HISTORY_SIZE).
(** lines 42-45 *)
Definition reset_prog : list uop :=
  map (fun i => UStore i (if Nat.eqb i HALF then 1 else 0)) (seq 0 HISTORY_SIZE).

(** Program counter of a task. *)
Inductive pc :=
| PStart (s : N)                                     (* line 85: load index *)
| PBits (s idx : N) (off : nat)                      (* line 110: load the word *)
| PRecheck (s idx : N) (off : nat) (w : N)           (* line 111: load index again *)
| PCasSet (s idx : N) (off : nat)                    (* line 120-123 *)
| PCasAdvance (s idx : N)                            (* line 133-136 *)
| PCrit (s idx next reg : N) (prog : list uop)       (* lines 128, 141-156 *)
| PSeqLoad (s idx next : N)                          (* line 162 *)
| PSeqStore (s idx next : N)                         (* line 164 *)
| PRelease (s idx next : N)                          (* line 168-173 *)
| PDone (s : N) (o : outcome)
| RStart                                             (* line 26 *)
| RCas (idx : N)                                     (* lines 32-36 *)
| RCrit (prog : list uop)                            (* lines 42-45 *)
| RSeq                                               (* line 48 *)
| RRelease                                           (* lines 50-52 *)
| RDone.

Definition do_uop (u : uop) (reg : N) (bits : list N) : N * list N :=
  match u with
  | UOr i m => (reg, set_nth i (N.lor (word bits i) m) bits)
  | ULoad i => (word bits i, bits)
  | UStoreReg i => (reg, set_nth i reg bits)
  | UStore i v => (reg, set_nth i v bits)
  end.

Definition set_index (h : history) (i : N) : history := mk_history i (h_bits h) (h_seqno h).
Definition set_bits (h : history) (b : list N) : history := mk_history (h_index h) b (h_seqno h).
Definition set_seqno (h : history) (s : N) : history := mk_history (h_index h) (h_bits h) s.

(** One atomic operation of one task. *)
Definition tstep (checks : bool) (h : history) (p : pc) : history * pc :=
  match p with
  | PStart s =>
    let index := h_index h in
    if index =? IN_TRANSIT then (h, PStart s) else
    match add_u64 checks (normalize s) (INDEX_MASK + 1) with
    | None => (h, PDone s Panicked)
    | Some limit =>
      if limit <? normalize index then (h, PDone s Rejected) else
      match normalize index ?= normalize s with
      | Gt => (h, PBits s index (0 + N.to_nat (masked s / 64)))
      | Eq => (h, PBits s index (HALF + N.to_nat (masked s / 64)))
      | Lt => (h, PCasAdvance s index)
      end
    end
  | PBits s idx off => (h, PRecheck s idx off (word (h_bits h) off))
  | PRecheck s idx off w =>
    if negb (h_index h =? idx) then (h, PStart s)
    else if negb (N.land w (N.shiftl 1 (masked s mod 64)) =? 0) then (h, PDone s Rejected)
    else (h, PCasSet s idx off)
  | PCasSet s idx off =>
    if h_index h =? idx
    then (set_index h IN_TRANSIT,
          PCrit s idx idx 0 [UOr off (N.shiftl 1 (masked s mod 64))])
    else (h, PStart s)
  | PCasAdvance s idx =>
    if h_index h =? idx then
      let h' := set_index h IN_TRANSIT in
      match add_u64 checks (normalize idx) (INDEX_MASK + 1) with
      | None => (h', PDone s Panicked)
      | Some next =>
        (h', PCrit s idx (normalize idx) 0
               (if next =? normalize s then shift_prog else clear_prog))
      end
    else (h, PStart s)
  | PCrit s idx next reg [] => (h, PSeqLoad s idx next)
  | PCrit s idx next reg (u :: prog) =>
    let (reg', bits') := do_uop u reg (h_bits h) in
    (set_bits h bits', PCrit s idx next reg' prog)
  | PSeqLoad s idx next =>
    (h, if h_seqno h <? s then PSeqStore s idx next else PRelease s idx next)
  | PSeqStore s idx next => (set_seqno h s, PRelease s idx next)
  | PRelease s idx next =>
    ((if h_index h =? IN_TRANSIT
      then set_index h (N.lor next (normalize (masked idx + 1))) else h), PDone s Accepted)
  | PDone s o => (h, PDone s o)
  | RStart => if h_index h =? IN_TRANSIT then (h, RStart) else (h, RCas (h_index h))
  | RCas idx =>
    if h_index h =? idx then (set_index h IN_TRANSIT, RCrit reset_prog) else (h, RStart)
  | RCrit [] => (h, RSeq)
  | RCrit (u :: prog) =>
    let (_, bits') := do_uop u 0 (h_bits h) in (set_bits h bits', RCrit prog)
  | RSeq => (set_seqno h 0, RRelease)
  | RRelease => ((if h_index h =? IN_TRANSIT then set_index h 0 else h), RDone)
  | RDone => (h, RDone)
  end.

(** The whole system: the shared history and the tasks. *)
Definition system := (history * list pc)%type.
Definition sys_step (checks : bool) (x : system) (i : nat) : system :=
  let (h, ts) := x in
  match nth_error ts i with
  | None => x
  | Some p => let (h', p') := tstep checks h p in (h', set_nth i p' ts)
  end.
(** A schedule picks the task that performs the next operation. *)
Definition sys_run (checks : bool) (x : system) (sched : list nat) : system :=
  fold_left (sys_step checks) sched x.
(** Tasks checking the given sequence numbers on a fresh history. *)
Definition sys_init (seqnos : list N) : system := (history_new, map PStart seqnos).

(** One task running alone for [n] steps. *)
Fixpoint alone (checks : bool) (n : nat) (x : history * pc) : history * pc :=
  match n with O => x | S k => alone checks k (tstep checks (fst x) (snd x)) end.
