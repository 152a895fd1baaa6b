(** Concurrent packet history. *)
From Coq Require Import List NArith ZArith Lia Bool Arith.
From Coq Require Import ZifyBool ZifyNat ZifyN.
From Verif.Base Require Import Bytes BytesFacts.
From Verif.Model Require Import History HistoryConc.
From Verif.Spec Require Import HistorySpec.
From Verif.Proof Require Import HistoryFacts.
Import ListNotations.
Open Scope N_scope.

(** ** The race *)
Definition race_schedule : list nat := [0; 0; 0; 1; 1; 1; 1; 1; 1; 1; 1; 1; 0; 0; 0; 0; 0; 0; 0]%nat.
Lemma race_double_accept :
  snd (sys_run true (sys_init [5; 5]) race_schedule) = [PDone 5 Accepted; PDone 5 Accepted].
Proof. vm_compute. reflexivity. Qed.

(** ** A task alone behaves like the sequential model *)
Lemma alone_add : forall checks a b x, alone checks (a + b) x = alone checks b (alone checks a x).
Proof. intros checks a. induction a; intros; cbn; auto. Qed.

Definition finished (o : outcome) (s : N) : pc := PDone s o.

Lemma alone_tail : forall checks s idx next reg h, h_index h = IN_TRANSIT ->
  exists n, alone checks n (h, PCrit s idx next reg [])
  = (mk_history (N.lor next (normalize (masked idx + 1))) (h_bits h)
       (if h_seqno h <? s then s else h_seqno h), PDone s Accepted).
Proof.
  intros checks s idx next reg [i b q] Hi. cbn in Hi. subst i.
  destruct (q <? s) eqn:E.
  - exists 4%nat. cbn -[N.lor normalize masked IN_TRANSIT N.add]. rewrite E.
    cbn -[N.lor normalize masked IN_TRANSIT N.add]. now rewrite N.eqb_refl.
  - exists 3%nat. cbn -[N.lor normalize masked IN_TRANSIT N.add]. rewrite E.
    cbn -[N.lor normalize masked IN_TRANSIT N.add]. now rewrite N.eqb_refl.
Qed.

Fixpoint run_prog (prog : list uop) (reg : N) (bits : list N) : N * list N :=
  match prog with
  | [] => (reg, bits)
  | u :: r => let (reg', bits') := do_uop u reg bits in run_prog r reg' bits'
  end.

Lemma alone_crit : forall checks prog s idx next reg h,
  alone checks (length prog) (h, PCrit s idx next reg prog)
  = (set_bits h (snd (run_prog prog reg (h_bits h))),
     PCrit s idx next (fst (run_prog prog reg (h_bits h))) []).
Proof.
  intros checks prog. induction prog as [|u prog IH]; intros s idx next reg [i b q]; cbn.
  - reflexivity.
  - destruct (do_uop u reg b) as [reg' b'] eqn:E. rewrite IH. reflexivity.
Qed.

Lemma shift_prog_ok : forall reg bits, length bits = HISTORY_SIZE ->
  snd (run_prog shift_prog reg bits) = skipn HALF bits ++ repeat 0 HALF.
Proof.
  intros reg bits H.
  do 8 (destruct bits as [|? bits]; [discriminate|]). destruct bits; [|discriminate]. reflexivity.
Qed.
Lemma clear_prog_ok : forall reg bits, length bits = HISTORY_SIZE ->
  snd (run_prog clear_prog reg bits) = repeat 0 HISTORY_SIZE.
Proof.
  intros reg bits H.
  do 8 (destruct bits as [|? bits]; [discriminate|]). destruct bits; [|discriminate]. reflexivity.
Qed.

Lemma alone_crit_tail : forall checks prog s idx next reg h, h_index h = IN_TRANSIT ->
  exists n, alone checks n (h, PCrit s idx next reg prog)
  = (mk_history (N.lor next (normalize (masked idx + 1))) (snd (run_prog prog reg (h_bits h)))
       (if h_seqno h <? s then s else h_seqno h), PDone s Accepted).
Proof.
  intros checks prog s idx next reg h Hi.
  destruct (alone_tail checks s idx next (fst (run_prog prog reg (h_bits h)))
    (set_bits h (snd (run_prog prog reg (h_bits h)))) Hi) as [n Hn].
  exists (length prog + n)%nat. rewrite alone_add, alone_crit, Hn. reflexivity.
Qed.

Lemma alone_reset_crit : forall checks prog h,
  alone checks (length prog) (h, RCrit prog) = (set_bits h (fold_left (fun b u => snd (do_uop u 0 b)) prog (h_bits h)), RCrit []).
Proof.
  intros checks prog. induction prog as [|u prog IH]; intros [i b q]; cbn.
  - reflexivity.
  - destruct (do_uop u 0 b) as [reg' b'] eqn:E. rewrite IH. reflexivity.
Qed.
Lemma reset_prog_ok : forall bits, length bits = HISTORY_SIZE ->
  fold_left (fun b u => snd (do_uop u 0 b)) reset_prog bits
  = map (fun i => if Nat.eqb i HALF then 1 else 0) (seq 0 HISTORY_SIZE).
Proof.
  intros bits H. unfold HISTORY_SIZE in H.
  repeat (destruct bits as [|? bits]; [cbn in H; discriminate|]; cbn [length] in H; apply Nat.succ_inj in H || idtac).
  all: try (destruct bits; [|cbn in H; discriminate]). all: try reflexivity.
Qed.
Lemma alone_reset : forall checks h, length (h_bits h) = HISTORY_SIZE -> h_index h <> IN_TRANSIT ->
  exists n, alone checks n (h, RStart) = (history_reset h, RDone).
Proof.
  intros checks [i b q] Hl Hi. cbn in Hl, Hi. apply N.eqb_neq in Hi.
  exists (2 + (length reset_prog + 3))%nat. rewrite alone_add.
  replace (alone checks 2 (mk_history i b q, RStart)) with (mk_history IN_TRANSIT b q, RCrit reset_prog)
    by (cbn -[IN_TRANSIT reset_prog]; rewrite Hi; cbn -[IN_TRANSIT reset_prog]; now rewrite N.eqb_refl).
  rewrite alone_add, alone_reset_crit. cbn [h_bits]. rewrite reset_prog_ok by exact Hl. reflexivity.
Qed.

Lemma alone_deliver : forall checks h s,
  length (h_bits h) = HISTORY_SIZE -> normalize (h_index h) + 256 < 2 ^ 64 ->
  exists n, alone checks n (h, PStart s)
    = (snd (deliver checks h s), PDone s (fst (deliver checks h s))).
Proof.
  intros checks h s Hlen Hidx.
  assert (Hnt : h_index h =? IN_TRANSIT = false).
  { apply N.eqb_neq. intros H. rewrite H in Hidx. vm_compute in Hidx. discriminate. }
  unfold deliver.
  destruct (add_u64 checks (normalize s) (INDEX_MASK + 1)) as [l|] eqn:Ea.
  2:{ exists 1%nat. cbn -[IN_TRANSIT normalize masked N.add]. now rewrite Hnt, Ea. }
  destruct (l <? normalize (h_index h)) eqn:El.
  { exists 1%nat. cbn -[IN_TRANSIT normalize masked N.add]. now rewrite Hnt, Ea, El. }
  assert (Hwin : forall off,
    (normalize (h_index h) ?= normalize s) <> Lt ->
    tstep checks h (PStart s) = (h, PBits s (h_index h) off) ->
    exists n, alone checks n (h, PStart s) =
     (let w := word (h_bits h) off in
      let r := if negb (N.land w (N.shiftl 1 (masked s mod 64)) =? 0) then (Rejected, h)
      else (Accepted, mk_history (N.lor (h_index h) (normalize (masked (h_index h) + 1)))
              (set_nth off (N.lor w (N.shiftl 1 (masked s mod 64))) (h_bits h))
              (if h_seqno h <? s then s else h_seqno h)) in
      (snd r, PDone s (fst r)))).
  { intros off _ Hst. cbv zeta.
    destruct (negb (N.land (word (h_bits h) off) (N.shiftl 1 (masked s mod 64)) =? 0)) eqn:Ew.
    - exists 3%nat. cbn [alone fst snd]. rewrite Hst. cbn [fst snd tstep].
      rewrite N.eqb_refl, Ew. reflexivity.
    - destruct (alone_crit_tail checks [UOr off (N.shiftl 1 (masked s mod 64))] s (h_index h)
        (h_index h) 0 (set_index h IN_TRANSIT) eq_refl) as [n Hn].
      exists (4 + n)%nat. rewrite alone_add. cbn [alone fst snd]. rewrite Hst. cbn [fst snd tstep].
      rewrite N.eqb_refl, Ew. cbn [negb fst snd tstep]. rewrite N.eqb_refl. rewrite Hn.
      reflexivity. }
  assert (Hstart : tstep checks h (PStart s) =
    match normalize (h_index h) ?= normalize s with
    | Gt => (h, PBits s (h_index h) (0 + N.to_nat (masked s / 64)))
    | Eq => (h, PBits s (h_index h) (HALF + N.to_nat (masked s / 64)))
    | Lt => (h, PCasAdvance s (h_index h))
    end) by (cbn -[IN_TRANSIT normalize masked N.add N.compare]; rewrite Hnt, Ea, El; reflexivity).
  destruct (normalize (h_index h) ?= normalize s) eqn:Ec.
  - apply Hwin; [congruence | exact Hstart].
  - assert (Hadd : add_u64 checks (normalize (h_index h)) (INDEX_MASK + 1)
       = Some (normalize (h_index h) + 256)).
    { unfold add_u64. change (INDEX_MASK + 1) with 256.
      replace (_ <? _) with true by (symmetry; apply N.ltb_lt; exact Hidx). reflexivity. }
    rewrite Hadd.
    set (prog := if normalize (h_index h) + 256 =? normalize s then shift_prog else clear_prog).
    destruct (alone_crit_tail checks prog s (h_index h)
        (normalize (h_index h)) 0 (set_index h IN_TRANSIT) eq_refl) as [n Hn].
    exists (2 + n)%nat. rewrite alone_add. cbn [alone fst snd]. rewrite Hstart.
    cbn [fst snd tstep]. rewrite N.eqb_refl, Hadd. fold prog. rewrite Hn.
    cbn [h_bits h_seqno set_index]. subst prog.
    destruct (_ =? normalize s); cbn [fst snd];
      [rewrite shift_prog_ok by exact Hlen | rewrite clear_prog_ok by exact Hlen]; reflexivity.
  - apply Hwin; [congruence | exact Hstart].
Qed.

(** ** Mutual exclusion and remembering *)
(** What the index values held by a task can be: always zero. *)
Definition zero_idx (p : pc) : Prop :=
  match p with
  | PBits _ idx _ | PRecheck _ idx _ _ | PCasSet _ idx _ | PCasAdvance _ idx | RCas idx => idx = 0
  | PCrit _ idx next _ _ | PSeqLoad _ idx next | PSeqStore _ idx next | PRelease _ idx next =>
      idx = 0 /\ next = 0
  | _ => True
  end.

Record sinv (x : system) : Prop := mk_sinv
  { si_idx : forall p, In p (snd x) -> zero_idx p;
    si_index : h_index (fst x) = 0 \/ h_index (fst x) = IN_TRANSIT;
    si_free : h_index (fst x) = 0 -> forall p, In p (snd x) -> critical p = false;
    si_one : forall i j p q, nth_error (snd x) i = Some p -> nth_error (snd x) j = Some q ->
      critical p = true -> critical q = true -> i = j }.

Lemma in_set_nth : forall A (l : list A) i v x, In x (set_nth i v l) -> x = v \/ In x l.
Proof.
  intros A l. induction l as [|y l IH]; intros [|i] v x H; cbn in *; auto.
  - destruct H; auto.
  - destruct H as [->|H]; auto. apply IH in H as [|]; auto.
Qed.

Lemma nth_error_set_nth : forall A (l : list A) i j v, (i < length l)%nat ->
  nth_error (set_nth i v l) j = if Nat.eqb j i then Some v else nth_error l j.
Proof.
  intros A l i j v H. destruct (Nat.eqb j i) eqn:E.
  - apply Nat.eqb_eq in E. subst. now apply nth_error_set_nth_eq.
  - apply Nat.eqb_neq in E. apply nth_error_set_nth_neq. congruence.
Qed.

Lemma in_transit_nz : IN_TRANSIT <> 0.
Proof. vm_compute. discriminate. Qed.

(** Effect of one step on index and criticality. *)
Inductive step_kind (h h' : history) (p p' : pc) : Prop :=
| SkSame : h_index h' = h_index h -> critical p' = critical p -> step_kind h h' p p'
| SkEnter : h_index h = 0 -> h_index h' = IN_TRANSIT -> critical p = false ->
    step_kind h h' p p'
| SkLeave : critical p = true -> h_index h' = 0 -> critical p' = false -> step_kind h h' p p'.

Lemma tstep_kind : forall checks h p h' p',
  tstep checks h p = (h', p') -> zero_idx p -> (h_index h = 0 \/ h_index h = IN_TRANSIT) ->
  (critical p = true -> h_index h = IN_TRANSIT) ->
  zero_idx p' /\ step_kind h h' p p'.
Proof.
  intros checks h p h' p' Hst Hz Hi Hc.
  destruct p; cbn -[IN_TRANSIT normalize masked N.add N.compare shift_prog clear_prog reset_prog] in Hst.
  - destruct (h_index h =? IN_TRANSIT) eqn:E.
    { inversion Hst; subst. split; [exact I | now apply SkSame]. }
    apply N.eqb_neq in E. assert (H0 : h_index h = 0) by tauto. rewrite H0 in Hst.
    destruct (add_u64 _ _ _); [|inversion Hst; subst; split; [exact I | now apply SkSame]].
    destruct (_ <? _); [inversion Hst; subst; split; [exact I | now apply SkSame]|].
    destruct (_ ?= _); inversion Hst; subst; (split; [reflexivity | now apply SkSame]).
  - inversion Hst; subst. split; [exact Hz | now apply SkSame].
  - destruct (negb (h_index h =? idx)); [inversion Hst; subst; split; [exact I | now apply SkSame]|].
    destruct (negb _); inversion Hst; subst; (split; [first [exact I | exact Hz] | now apply SkSame]).
  - destruct (h_index h =? idx) eqn:E; inversion Hst; subst.
    + cbn in Hz. subst. apply N.eqb_eq in E. split; [split; reflexivity|]. now apply SkEnter.
    + split; [exact I | now apply SkSame].
  - destruct (h_index h =? idx) eqn:E.
    + cbn in Hz. subst idx. apply N.eqb_eq in E.
      change (add_u64 checks (normalize 0) (INDEX_MASK + 1)) with (Some 256) in Hst.
      inversion Hst; subst. split; [split; reflexivity|]. now apply SkEnter.
    + inversion Hst; subst. split; [exact I | now apply SkSame].
  - destruct prog as [|u prog]; [inversion Hst; subst; split; [exact Hz | now apply SkSame]|].
    destruct (do_uop u reg (h_bits h)) as [r b]. inversion Hst; subst.
    split; [exact Hz | now apply SkSame].
  - destruct (_ <? _); inversion Hst; subst; (split; [exact Hz | now apply SkSame]).
  - inversion Hst; subst. split; [exact Hz | now apply SkSame].
  - rewrite (Hc eq_refl), N.eqb_refl in Hst. destruct Hz as [-> ->]. inversion Hst; subst.
    split; [exact I | now apply SkLeave].
  - inversion Hst; subst. split; [exact I | now apply SkSame].
  - destruct (h_index h =? IN_TRANSIT) eqn:E; inversion Hst; subst.
    + split; [exact I | now apply SkSame].
    + apply N.eqb_neq in E. split; [cbn; tauto | now apply SkSame].
  - destruct (h_index h =? idx) eqn:E; inversion Hst; subst.
    + cbn in Hz. subst. apply N.eqb_eq in E. split; [exact I|]. now apply SkEnter.
    + split; [exact I | now apply SkSame].
  - destruct prog as [|u prog]; [inversion Hst; subst; split; [exact I | now apply SkSame]|].
    destruct (do_uop u 0 (h_bits h)) as [r b]. inversion Hst; subst.
    split; [exact I | now apply SkSame].
  - inversion Hst; subst. split; [exact I | now apply SkSame].
  - rewrite (Hc eq_refl), N.eqb_refl in Hst. inversion Hst; subst.
    split; [exact I | now apply SkLeave].
  - inversion Hst; subst. split; [exact I | now apply SkSame].
Qed.

Lemma sinv_step : forall checks x i, sinv x -> sinv (sys_step checks x i).
Proof.
  intros checks [h ts] i [Hz Hi Hf Ho]. cbn [fst snd] in *. unfold sys_step.
  destruct (nth_error ts i) as [p|] eqn:Ep; [|now split].
  destruct (tstep checks h p) as [h' p'] eqn:Est.
  assert (Hil : (i < length ts)%nat) by (apply nth_error_Some; congruence).
  assert (Hin : In p ts) by (eapply nth_error_In; eauto).
  assert (Hcp : critical p = true -> h_index h = IN_TRANSIT).
  { intros Hc. destruct Hi as [H0|H1]; [|exact H1]. rewrite (Hf H0 p Hin) in Hc. discriminate. }
  destruct (tstep_kind checks h p h' p' Est (Hz p Hin) Hi Hcp) as [Hz' Hk].
  assert (Hzall : forall q, In q (set_nth i p' ts) -> zero_idx q).
  { intros q Hq. apply in_set_nth in Hq as [->|Hq]; auto. }
  destruct Hk as [Hsi Hsc | H0 H1 Hnc | Hcr H0 Hnc].
  - split; cbn [fst snd]; [exact Hzall | rewrite Hsi; exact Hi | |].
    + rewrite Hsi. intros H0 q Hq. apply in_set_nth in Hq as [->|Hq]; [rewrite Hsc|]; now apply Hf.
    + intros a b pa pb Ha Hb Hca Hcb. rewrite !nth_error_set_nth in * by exact Hil.
      destruct (Nat.eqb a i) eqn:Ea, (Nat.eqb b i) eqn:Eb;
        repeat match goal with
        | H : Nat.eqb _ _ = true |- _ => apply Nat.eqb_eq in H; subst
        end; try reflexivity.
      * inversion Ha; subst. rewrite Hsc in Hca. eapply Ho; eauto.
      * inversion Hb; subst. rewrite Hsc in Hcb. eapply Ho; eauto.
      * eapply Ho; eauto.
  - split; cbn [fst snd]; [exact Hzall | now right | |].
    + rewrite H1. intros H. now apply in_transit_nz in H.
    + intros a b pa pb Ha Hb Hca Hcb. rewrite !nth_error_set_nth in * by exact Hil.
      assert (Hfree : forall k q, nth_error ts k = Some q -> critical q = true -> False).
      { intros k q Hk Hc. rewrite (Hf H0 q) in Hc; [discriminate | eapply nth_error_In; eauto]. }
      destruct (Nat.eqb a i) eqn:Ea, (Nat.eqb b i) eqn:Eb;
        repeat match goal with
        | H : Nat.eqb _ _ = true |- _ => apply Nat.eqb_eq in H; subst
        end; try reflexivity; exfalso; eapply Hfree; eauto.
  - assert (Hoth : forall k q, nth_error ts k = Some q -> k <> i -> critical q = false).
    { intros k q Hk Hne. destruct (critical q) eqn:Ec; [|reflexivity].
      exfalso. apply Hne. eapply Ho; eauto. }
    split; cbn [fst snd]; [exact Hzall | now left | |].
    + intros _ q Hq. apply In_nth_error in Hq as [k Hk]. rewrite nth_error_set_nth in Hk by exact Hil.
      destruct (Nat.eqb k i) eqn:E; [congruence|]. apply Nat.eqb_neq in E. eauto.
    + intros a b pa pb Ha Hb Hca Hcb. rewrite !nth_error_set_nth in * by exact Hil.
      destruct (Nat.eqb a i) eqn:Ea; [congruence|]. apply Nat.eqb_neq in Ea.
      rewrite (Hoth _ _ Ha Ea) in Hca. discriminate.
Qed.

Lemma sinv_run : forall checks sched x, sinv x -> sinv (sys_run checks x sched).
Proof.
  intros checks sched. induction sched as [|i sched IH]; intros x H; cbn; [exact H|].
  apply IH. now apply sinv_step.
Qed.

Lemma sinv_init : forall ts, Forall initial_task ts -> sinv (history_new, ts).
Proof.
  intros ts H. rewrite Forall_forall in H.
  assert (Hc : forall p, In p ts -> critical p = false /\ zero_idx p).
  { intros p Hp. specialize (H p Hp). destruct p; cbn in *; try contradiction; auto. }
  split; cbn [fst snd].
  - intros p Hp. now apply Hc.
  - now left.
  - intros _ p Hp. now apply Hc.
  - intros i j p q Hi Hj Hcp. apply nth_error_In in Hi. apply Hc in Hi as [Hi _]. congruence.
Qed.

Lemma mutual_exclusion : forall checks ts sched i j p q,
  Forall initial_task ts ->
  nth_error (snd (sys_run checks (history_new, ts) sched)) i = Some p ->
  nth_error (snd (sys_run checks (history_new, ts) sched)) j = Some q ->
  critical p = true -> critical q = true -> i = j.
Proof. intros * H. apply (si_one _ (sinv_run checks sched _ (sinv_init ts H))). Qed.

(** ** Sequence numbers below the window *)
Definition at_word (s : N) (off : nat) : Prop := off = (HALF + N.to_nat (s / 64))%nat.
Definition small_pc (bits : list N) (p : pc) : Prop :=
  match p with
  | PStart s => s < 256
  | PBits s _ off => s < 256 /\ at_word s off
  | PRecheck s _ off w => s < 256 /\ at_word s off /\ (N.testbit w (s mod 64) = true -> cur_bit bits s = true)
  | PCasSet s _ off => s < 256 /\ at_word s off
  | PCrit s _ _ _ prog =>
      s < 256 /\ (prog = [UOr (HALF + N.to_nat (s / 64)) (N.shiftl 1 (s mod 64))]
                  \/ (prog = [] /\ cur_bit bits s = true))
  | PSeqLoad s _ _ | PSeqStore s _ _ | PRelease s _ _ => s < 256 /\ cur_bit bits s = true
  | PDone s Accepted | PDone s Rejected => s < 256 /\ cur_bit bits s = true
  | _ => False
  end.

Definition seqno_of (p : pc) : N :=
  match p with
  | PStart s | PBits s _ _ | PRecheck s _ _ _ | PCasSet s _ _ | PCasAdvance s _ | PCrit s _ _ _ _
  | PSeqLoad s _ _ | PSeqStore s _ _ | PRelease s _ _ | PDone s _ => s
  | _ => 0
  end.

(** The task has taken sequence number [s] for itself. *)
Definition takes (p : pc) (s : N) : Prop :=
  match p with
  | PCrit k _ _ _ [] | PSeqLoad k _ _ | PSeqStore k _ _ | PRelease k _ _ | PDone k Accepted => k = s
  | _ => False
  end.

Lemma or_cur_bit : forall bits s k, length bits = HISTORY_SIZE -> s < 256 -> k < 256 ->
  cur_bit (set_nth (HALF + N.to_nat (s / 64))
             (N.lor (word bits (HALF + N.to_nat (s / 64))) (N.shiftl 1 (s mod 64))) bits) k
  = cur_bit bits k || (s =? k).
Proof.
  intros bits s k Hl Hs Hk. unfold cur_bit.
  destruct (N.eq_dec (k / 64) (s / 64)) as [E|E].
  - rewrite E, word_set_nth_eq by (rewrite Hl; now apply word_lt).
    rewrite lor_bit. f_equal. lia.
  - rewrite word_set_nth_neq by lia.
    replace (s =? k) with false by lia. now rewrite orb_false_r.
Qed.

Lemma small_mono : forall bits bits' p,
  (forall k, k < 256 -> cur_bit bits k = true -> cur_bit bits' k = true) ->
  small_pc bits p -> small_pc bits' p.
Proof.
  intros bits bits' p Hm H.
  destruct p; cbn in *; intuition (auto; fail || idtac).
  - destruct o; try contradiction; intuition.
Qed.

Lemma tstep_small : forall checks h p h' p',
  tstep checks h p = (h', p') -> zero_idx p ->
  (h_index h = 0 \/ h_index h = IN_TRANSIT) -> (critical p = true -> h_index h = IN_TRANSIT) ->
  length (h_bits h) = HISTORY_SIZE -> small_pc (h_bits h) p ->
  small_pc (h_bits h') p'
  /\ length (h_bits h') = HISTORY_SIZE
  /\ seqno_of p' = seqno_of p
  /\ (forall k, k < 256 -> cur_bit (h_bits h') k = true -> cur_bit (h_bits h) k = true \/ takes p' k)
  /\ (forall k, k < 256 -> cur_bit (h_bits h) k = true -> cur_bit (h_bits h') k = true)
  /\ (forall k, takes p k -> takes p' k).
Proof.
  intros checks h p h' p' Hst Hz Hi Hc Hl Hs.
  destruct p; cbn [small_pc] in Hs; try contradiction;
    cbn [tstep] in Hst.
  - assert (Hn : normalize s = 0) by (rewrite normalize_div; lia).
    assert (Hm : masked s = s) by (rewrite masked_mod; lia).
    destruct (h_index h =? IN_TRANSIT) eqn:E.
    { inversion Hst; subst. cbn. intuition. }
    apply N.eqb_neq in E. assert (H0 : h_index h = 0) by tauto. rewrite H0, Hn, Hm in Hst.
    change (add_u64 checks 0 (INDEX_MASK + 1)) with (Some 256) in Hst.
    change (normalize 0) with 0 in Hst. change (256 <? 0) with false in Hst.
    change (0 ?= 0) with Eq in Hst. inversion Hst; subst. cbn. unfold at_word. intuition.
  - inversion Hst; subst. destruct Hs as [Hs ->]. cbn. unfold at_word, cur_bit. intuition.
  - destruct Hs as (Hs & -> & Hw).
    assert (Hm : masked s = s) by (rewrite masked_mod; lia).
    rewrite Hm, land_bit, negb_involutive in Hst.
    destruct (negb (h_index h =? idx)); [inversion Hst; subst; cbn; intuition|].
    destruct (N.testbit w (s mod 64)) eqn:Eb; inversion Hst; subst; cbn; unfold at_word; intuition.
  - destruct Hs as [Hs ->].
    assert (Hm : masked s = s) by (rewrite masked_mod; lia). rewrite Hm in Hst.
    destruct (h_index h =? idx); inversion Hst; subst; cbn; intuition.
  - destruct Hs as [Hs [->|[-> Hb]]].
    + unfold do_uop in Hst. apply pair_equal_spec in Hst as [<- <-]. cbn [small_pc h_bits set_bits seqno_of takes].
      rewrite set_nth_length. split; [|split; [exact Hl|split; [reflexivity|split; [|split]]]].
      * split; [exact Hs|]. right. split; [reflexivity|].
        rewrite or_cur_bit by assumption. rewrite N.eqb_refl. apply orb_true_r.
      * intros k Hk. rewrite or_cur_bit by assumption. intros H. apply orb_true_iff in H as [H|H]; [now left|].
        right. now apply N.eqb_eq.
      * intros k Hk H. rewrite or_cur_bit by assumption. now rewrite H.
      * intros k [].
    + inversion Hst; subst. cbn. intuition.
  - destruct (_ <? _); inversion Hst; subst; cbn; intuition.
  - inversion Hst; subst. cbn. intuition.
  - rewrite (Hc eq_refl), N.eqb_refl in Hst. inversion Hst; subst. cbn. intuition.
  - inversion Hst; subst. destruct o; cbn in *; intuition.
Qed.

Record rinv (x : system) : Prop := mk_rinv
  { ri_s : sinv x;
    ri_len : length (h_bits (fst x)) = HISTORY_SIZE;
    ri_small : forall p, In p (snd x) -> small_pc (h_bits (fst x)) p;
    ri_owner : forall k, k < 256 -> cur_bit (h_bits (fst x)) k = true ->
       exists i p, nth_error (snd x) i = Some p /\ takes p k }.

(** What one machine step does to an [rinv] state. *)
Lemma rinv_step : forall checks x i, rinv x ->
  rinv (sys_step checks x i)
  /\ map seqno_of (snd (sys_step checks x i)) = map seqno_of (snd x)
  /\ (forall k, k < 256 -> cur_bit (h_bits (fst x)) k = true ->
        cur_bit (h_bits (fst (sys_step checks x i))) k = true).
Proof.
  intros checks [h ts] i [Hs Hl Hsm Ho]. cbn [fst snd] in *.
  pose proof (sinv_step checks _ i Hs) as Hs'. revert Hs'.
  unfold sys_step.
  destruct (nth_error ts i) as [p|] eqn:Ep; [|intros _; cbn; split; [now split | auto]].
  destruct (tstep checks h p) as [h' p'] eqn:Est. intros Hs'.
  destruct Hs as [Hz Hi Hf Hone]. cbn [fst snd] in *.
  assert (Hil : (i < length ts)%nat) by (apply nth_error_Some; congruence).
  assert (Hin : In p ts) by (eapply nth_error_In; eauto).
  assert (Hcp : critical p = true -> h_index h = IN_TRANSIT).
  { intros Hc. destruct Hi as [H0|H1]; [|exact H1]. rewrite (Hf H0 p Hin) in Hc. discriminate. }
  destruct (tstep_small checks h p h' p' Est (Hz p Hin) Hi Hcp Hl (Hsm p Hin))
    as (Hp' & Hl' & Hsq & Hnew & Hmono & Htk).
  split; [|split].
  - split; cbn [fst snd]; [exact Hs' | exact Hl' | |].
    + intros q Hq. apply in_set_nth in Hq as [->|Hq]; [exact Hp'|].
      eapply small_mono; [exact Hmono | now apply Hsm].
    + intros k Hk Hb. apply Hnew in Hb as [Hb|Hb]; [|exists i, p'|exact Hk].
      * destruct (Ho k Hk Hb) as (j & q & Hj & Hq).
        destruct (Nat.eq_dec j i) as [->|Hne].
        -- exists i, p'. rewrite nth_error_set_nth, Nat.eqb_refl by exact Hil.
           split; [reflexivity|]. apply Htk. congruence.
        -- exists j, q. rewrite nth_error_set_nth by exact Hil.
           destruct (Nat.eqb j i) eqn:E; [apply Nat.eqb_eq in E; congruence|]. auto.
      * rewrite nth_error_set_nth, Nat.eqb_refl by exact Hil. auto.
  - cbn [snd]. clear -Ep Hsq. revert i Ep. induction ts as [|q ts IH]; intros [|i] Ep; cbn in *; try discriminate.
    + inversion Ep; subst. now rewrite Hsq.
    + rewrite IH by exact Ep. reflexivity.
  - exact Hmono.
Qed.

Lemma rinv_init : forall seqnos, Forall (fun s => s < 256) seqnos -> rinv (sys_init seqnos).
Proof.
  intros seqnos H. split.
  - apply sinv_init. apply Forall_forall. intros p Hp. apply in_map_iff in Hp as (s & <- & _). exact I.
  - reflexivity.
  - intros p Hp. apply in_map_iff in Hp as (s & <- & Hin). rewrite Forall_forall in H. now apply H.
  - intros k Hk Hb. cbn [fst sys_init] in Hb; change (fst (sys_init seqnos)) with history_new in Hb; rewrite (inv_bits _ _ inv_new k Hk) in Hb. discriminate.
Qed.

Lemma rinv_run : forall checks sched x, rinv x ->
  rinv (sys_run checks x sched)
  /\ map seqno_of (snd (sys_run checks x sched)) = map seqno_of (snd x)
  /\ (forall k, k < 256 -> cur_bit (h_bits (fst x)) k = true ->
        cur_bit (h_bits (fst (sys_run checks x sched))) k = true).
Proof.
  intros checks sched. induction sched as [|i sched IH]; intros x H; cbn; [auto|].
  destruct (rinv_step checks x i H) as (H1 & H2 & H3).
  destruct (IH _ H1) as (H4 & H5 & H6). split; [exact H4|]. split; [exact (eq_trans H5 H2)|]. intros k Hk Hb. apply H6; auto.
Qed.

(** A task that starts after [k] has been recorded can only be rejecting. *)
Definition rejecting (k : N) (p : pc) : Prop :=
  match p with
  | PStart s => s = k
  | PBits s _ off => s = k /\ at_word s off
  | PRecheck s _ _ w => s = k /\ N.testbit w (s mod 64) = true
  | PDone s Rejected => s = k
  | _ => False
  end.

Lemma rejecting_step : forall checks x i j k, rinv x -> k < 256 ->
  cur_bit (h_bits (fst x)) k = true ->
  (exists p, nth_error (snd x) j = Some p /\ rejecting k p) ->
  exists p, nth_error (snd (sys_step checks x i)) j = Some p /\ rejecting k p.
Proof.
  intros checks [h ts] i j k [Hs Hl Hsm Ho] Hk Hb (p & Hp & Hr). cbn [fst snd] in *.
  unfold sys_step. destruct (nth_error ts i) as [q|] eqn:Eq; [|eauto].
  destruct (tstep checks h q) as [h' q'] eqn:Est. cbn [snd].
  assert (Hil : (i < length ts)%nat) by (apply nth_error_Some; congruence).
  destruct (Nat.eq_dec j i) as [->|Hne].
  2:{ exists p. rewrite nth_error_set_nth by exact Hil.
      destruct (Nat.eqb j i) eqn:E; [apply Nat.eqb_eq in E; congruence | auto]. }
  exists q'. rewrite nth_error_set_nth, Nat.eqb_refl by exact Hil. split; [reflexivity|].
  assert (q = p) by congruence. subst q. clear Eq.
  destruct Hs as [_ Hi _ _]. cbn [fst] in Hi.
  destruct p; cbn [rejecting] in Hr; try contradiction;
    cbn [tstep] in Est.
  - subst s. assert (Hn : normalize k = 0) by (rewrite normalize_div; lia).
    assert (Hm : masked k = k) by (rewrite masked_mod; lia).
    destruct (h_index h =? IN_TRANSIT) eqn:E; [inversion Est; subst; reflexivity|].
    apply N.eqb_neq in E. assert (H0 : h_index h = 0) by tauto. rewrite H0, Hn, Hm in Est.
    change (add_u64 checks 0 (INDEX_MASK + 1)) with (Some 256) in Est.
    change (normalize 0) with 0 in Est. change (256 <? 0) with false in Est.
    change (0 ?= 0) with Eq in Est. inversion Est; subst. split; reflexivity.
  - inversion Est; subst. destruct Hr as [-> ->]. split; [reflexivity | exact Hb].
  - destruct Hr as [-> Hw]. assert (Hm : masked k = k) by (rewrite masked_mod; lia).
    rewrite Hm, land_bit, negb_involutive, Hw in Est.
    destruct (negb _); inversion Est; subst; reflexivity.
  - inversion Est; subst. exact Hr.
Qed.

Lemma rejecting_run : forall checks sched x j k, rinv x -> k < 256 ->
  cur_bit (h_bits (fst x)) k = true ->
  (exists p, nth_error (snd x) j = Some p /\ rejecting k p) ->
  exists p, nth_error (snd (sys_run checks x sched)) j = Some p /\ rejecting k p.
Proof.
  intros checks sched. induction sched as [|i sched IH]; intros x j k Hx Hk Hb Hp; cbn; [exact Hp|].
  destruct (rinv_step checks x i Hx) as (H1 & _ & H3).
  apply IH; auto. eapply rejecting_step; eauto.
Qed.

Lemma later_duplicate_rejected : forall checks seqnos before after i j s p,
  Forall (fun s => s < 256) seqnos ->
  nth_error (snd (sys_run checks (sys_init seqnos) before)) i = Some (PDone s Accepted) ->
  nth_error (snd (sys_run checks (sys_init seqnos) before)) j = Some (PStart s) ->
  nth_error (snd (sys_run checks (sys_init seqnos) (before ++ after))) j = Some p ->
  p <> PDone s Accepted.
Proof.
  intros checks seqnos before after i j s p Hsm Hi Hj Hp.
  destruct (rinv_run checks before _ (rinv_init _ Hsm)) as (Hr & _ & _).
  unfold sys_run in *. rewrite fold_left_app in Hp.
  pose proof (ri_small _ Hr _ (nth_error_In _ _ Hi)) as Hd. cbn in Hd. destruct Hd as [Hs Hb].
  destruct (rejecting_run checks after _ j s Hr Hs Hb) as (q & Hq & Hrej).
  { exists (PStart s). split; [exact Hj | reflexivity]. }
  unfold sys_run in Hq. rewrite Hq in Hp. inversion Hp; subst.
  intros ->. contradiction.
Qed.

Lemma none_lost : forall checks seqnos sched s,
  Forall (fun s => s < 256) seqnos -> In s seqnos ->
  (forall p, In p (snd (sys_run checks (sys_init seqnos) sched)) -> exists k o, p = PDone k o) ->
  In (PDone s Accepted) (snd (sys_run checks (sys_init seqnos) sched)).
Proof.
  intros checks seqnos sched s Hsm Hin Hdone.
  destruct (rinv_run checks sched _ (rinv_init _ Hsm)) as (Hr & Hsq & _).
  set (x := sys_run checks (sys_init seqnos) sched) in *.
  assert (Hin' : In s (map seqno_of (snd x))).
  { rewrite Hsq. cbn. rewrite map_map. cbn. now rewrite map_id. }
  apply in_map_iff in Hin' as (p & Hps & Hp).
  destruct (Hdone p Hp) as (k & o & ->). cbn in Hps. subst k.
  pose proof (ri_small _ Hr _ Hp) as Hd.
  assert (Hs : s < 256 /\ cur_bit (h_bits (fst x)) s = true) by (destruct o; cbn in Hd; tauto).
  destruct Hs as [Hs Hb].
  destruct (ri_owner _ Hr s Hs Hb) as (i & q & Hi & Hq).
  pose proof (nth_error_In _ _ Hi) as Hq'.
  destruct (Hdone q Hq') as (k & o' & ->). destruct o'; cbn in Hq; try contradiction. now subst.
Qed.
