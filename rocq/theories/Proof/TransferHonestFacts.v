(** Concurrent reassembly when only pieces of one message come under its id. *)
From stdpp Require Import gmap.
From Coq Require Import NArith ZArith Lia.
From Coq Require Import ZifyBool ZifyNat ZifyN.
From Verif.Base Require Import Bytes BytesFacts.
From Verif.Model Require Import Crypto Tl ProtoAdnl Transfer TransferConc.
From Verif.Spec Require Import TransferSpec TransferConcSpec.
From Verif.Proof Require Import TransferFacts TransferConcFacts.
Open Scope N_scope.

Lemma exchange_dec : forall t h i o, t = AtExchange h i o \/ t <> AtExchange h i o.
Proof.
  intros t h i o. destruct t as [| | | |h' i' o'| | |]; try (right; discriminate).
  destruct (decide (h' = h)) as [->|N1]; [|right; congruence].
  destruct (decide (i' = i)) as [->|N2]; [|right; congruence].
  destruct (decide (o' = o)) as [->|N3]; [left; reflexivity|right; congruence].
Qed.

Lemma task_step_shape : forall P timeout s t,
  let '(s', t') := task_step P timeout s t in
  task_id t' = task_id t /\ c_tasks s' = c_tasks s /\ c_clock s' = c_clock s
  /\ (length (c_timers s) = length (c_heap s) -> length (c_timers s') = length (c_heap s'))
  /\ forall h x', c_heap s' !! h = Some x' ->
       (exists x, c_heap s !! h = Some x /\ x_hash x' = x_hash x)
       \/ (h = length (c_heap s) /\ x_hash x' = task_id t
           /\ c_timers s' = c_timers s ++ [Sleeping (c_clock s + timeout * 1000)]).
Proof.
  intros P timeout s t.
  assert (Hid : forall h x', c_heap s !! h = Some x' -> (exists x, c_heap s !! h = Some x /\ x_hash x' = x_hash x)
     \/ (h = length (c_heap s) /\ x_hash x' = task_id t /\ c_timers s = c_timers s ++ [Sleeping (c_clock s + timeout * 1000)])).
  { intros h x' H. left. exists x'. split; [exact H|reflexivity]. }
  assert (Halt : forall f h0, (forall x, x_hash (f x) = x_hash x) ->
     forall h x', alter f h0 (c_heap s) !! h = Some x' -> (exists x, c_heap s !! h = Some x /\ x_hash x' = x_hash x)
     \/ (h = length (c_heap s) /\ x_hash x' = task_id t /\ c_timers s = c_timers s ++ [Sleeping (c_clock s + timeout * 1000)])).
  { intros f h0 Hf h x' H. left. destruct (decide (h = h0)) as [->|Hn].
    - rewrite list_lookup_alter in H. destruct (c_heap s !! h0) as [x|]; [|discriminate H]. injection H as <-.
      exists x. split; [reflexivity|apply Hf].
    - rewrite list_lookup_alter_ne in H by congruence. exists x'. split; [exact H|reflexivity]. }
  destruct t as [hash tot offset data|h hash offset data|h hash offset data|h hash offset size|h hash offset|h hash received buffer|h hash o|h hash o]; cbn [task_step].
  - destruct (c_table s !! hash) as [h|]; cbn [c_tasks c_heap c_timers c_clock task_id]; (split; [reflexivity|]); (split; [reflexivity|]); (split; [reflexivity|]).
    + split; [tauto|exact Hid].
    + split; [intros E; rewrite !app_length; cbn [length]; lia|]. intros h x' H.
      apply lookup_app_Some in H as [H|[H1 H2]]; [left; exists x'; split; [exact H|reflexivity]|].
      apply list_lookup_singleton_Some in H2 as [H2 <-]. right. split; [lia|]. split; reflexivity.
  - split; [reflexivity|]. destruct (c_heap s !! h); (split; [reflexivity|]); (split; [reflexivity|]).
    + cbn [with_transfer c_heap c_timers]. split; [rewrite alter_length; tauto|]. apply Halt. reflexivity.
    + split; [tauto|exact Hid].
  - destruct (c_heap s !! h) as [x|]; [|split; [reflexivity|]; split; [reflexivity|]; split; [reflexivity|]; split; [tauto|exact Hid]].
    split; [destruct (x_parts x !! offset); reflexivity|]. cbn [with_transfer c_tasks c_heap c_timers c_clock].
    split; [reflexivity|]. split; [reflexivity|]. split; [rewrite alter_length; tauto|]. apply Halt. reflexivity.
  - split; [reflexivity|]. cbn [with_transfer c_tasks c_heap c_timers c_clock].
    split; [reflexivity|]. split; [reflexivity|]. split; [rewrite alter_length; tauto|]. apply Halt. reflexivity.
  - destruct (c_heap s !! h) as [x|]; [|split; [reflexivity|]; split; [reflexivity|]; split; [reflexivity|]; split; [tauto|exact Hid]].
    destruct (x_received x ?= x_total x); (split; [reflexivity|]); (split; [reflexivity|]); (split; [reflexivity|]).
    + cbn [with_transfer c_heap c_timers]. split; [rewrite alter_length; tauto|]. apply Halt. reflexivity.
    + split; [tauto|exact Hid].
    + split; [tauto|exact Hid].
  - destruct (c_heap s !! h) as [x|]; [|split; [reflexivity|]; split; [reflexivity|]; split; [reflexivity|]; split; [tauto|exact Hid]].
    split; [|split; [reflexivity|]; split; [reflexivity|]; split; [tauto|exact Hid]].
    destruct (received <? x_total x); [destruct (x_parts x !! received)|destruct (bytes_eqb _ _)]; reflexivity.
  - split; [reflexivity|]. split; [reflexivity|]. split; [reflexivity|]. split; [tauto|exact Hid].
  - split; [reflexivity|]. split; [reflexivity|]. split; [reflexivity|]. split; [tauto|exact Hid].
Qed.

Section Honest.
Context (P : prims) (pieces : list bytes).
Context (Hne : Forall (fun d => d <> []) pieces) (Hsome : pieces <> []).
Let id : bytes := sha256 P (concat pieces).
Let total : N := len (concat pieces).
Let cut : list part := cut_from id total 0 pieces.

Lemma total_pos : 0 < total.
Proof.
  unfold total. destruct pieces as [|d r]; [congruence|]. inversion Hne; subst. cbn [concat].
  unfold len. rewrite app_length. destruct d; [congruence|]. cbn [length]. lia.
Qed.

(** How much of the message a transfer holds. *)
Definition held (x : shared_transfer) : N := got (fun o => bool_decide (is_Some (x_parts x !! o))) cut.
Lemma held_le : forall x, held x <= total.
Proof. intros x. apply got_le. Qed.

(** What a task is going to add to its transfer. *)
Definition adds (h : nat) (t : task) : N :=
  match t with AtAdd h' _ _ size => if Nat.eqb h' h then size else 0 | _ => 0 end.
(** A task that is going to put the piece at offset [o]. *)
Definition brings (o : N) (t : task) : N :=
  match t with
  | AtEntry i _ o' _ | AtRefresh _ i o' _ | AtInsert _ i o' _ => if bytes_eqb i id && (o' =? o) then 1 else 0
  | _ => 0
  end.
Definition has (o : N) (x : shared_transfer) : N :=
  if bytes_eqb (x_hash x) id && bool_decide (is_Some (x_parts x !! o)) then 1 else 0.

Definition won (x : shared_transfer) : Prop := held x = total /\ x_received x = total * 2.
Definition won_handle (heap : list shared_transfer) (h : nat) : Prop :=
  exists x, heap !! h = Some x /\ x_hash x = id /\ won x.

Definition task_good (heap : list shared_transfer) (t : task) : Prop :=
  match t with
  | AtEntry _ tot o d => tot = total /\ In (mk_part id total o d) cut
  | AtRefresh _ _ o d | AtInsert _ _ o d => In (mk_part id total o d) cut
  | AtAdd _ _ _ size => 0 < size
  | AtExchange _ _ _ => True
  | AtCombine _ _ r buf => exists pre post, pieces = pre ++ post /\ buf = concat pre /\ r = len buf
  | AtRemove h _ o => won_handle heap h /\ (o = Whole (concat pieces) \/ o = Failed ReceivedTooMuch)
  | Ended _ _ o => o = Whole (concat pieces) \/ o = Failed ReceivedTooMuch \/ o = Pending
  end.

Definition transfer_good (tasks : list task) (h : nat) (x : shared_transfer) : Prop :=
  (won x /\ sum (adds h) tasks = 0 /\ 0 < sum (wins h) tasks)
  \/ (x_received x + sum (adds h) tasks = held x /\ sum (wins h) tasks = 0
      /\ (x_received x = total -> exists o, In (AtExchange h id o) tasks)).

Record good (table : gmap bytes nat) (heap : list shared_transfer) (tasks : list task) (cl : list part) : Prop := mk_good
  { gd_shape : forall h x, heap !! h = Some x -> x_hash x = id ->
      x_total x = total /\ forall o d, x_parts x !! o = Some d -> In (mk_part id total o d) cut;
    gd_tasks : forall t, In t tasks -> task_id t = id -> task_good heap t;
    gd_trans : forall h x, heap !! h = Some x -> x_hash x = id -> transfer_good tasks h x;
    gd_table : (exists h, won_handle heap h)
      \/ (forall h x, heap !! h = Some x -> x_hash x = id -> table !! id = Some h);
    gd_cover : forall p, In p cl -> pt_hash p = id ->
      0 < sum (brings (pt_offset p)) tasks + sum (has (pt_offset p)) heap;
    gd_count : forall o, sum (has o) heap + sum (brings o) tasks
      <= N.of_nat (length (List.filter (fun p => bytes_eqb (pt_hash p) id && (pt_offset p =? o)) cl)) }.

(** Two heaps that agree about the transfers of this id. *)
Definition agree (heap heap' : list shared_transfer) : Prop :=
  forall h x, heap !! h = Some x -> x_hash x = id -> exists x', heap' !! h = Some x' /\ x_hash x' = id
    /\ x_parts x' = x_parts x /\ x_received x' = x_received x /\ x_total x' = x_total x.

Lemma agree_refl : forall heap, agree heap heap.
Proof. intros heap h x H E. exists x. repeat split; assumption. Qed.
Lemma agree_won : forall heap heap' h, agree heap heap' -> won_handle heap h -> won_handle heap' h.
Proof.
  intros heap heap' h HA (x & H1 & H2 & H3). destruct (HA h x H1 H2) as (x' & H4 & H5 & H6 & H7 & H8).
  exists x'. split; [exact H4|]. split; [exact H5|]. unfold won, held in *. rewrite H6, H7. exact H3.
Qed.
Lemma agree_task : forall heap heap' t, agree heap heap' -> task_good heap t -> task_good heap' t.
Proof.
  intros heap heap' t HA H. destruct t; try exact H. cbn [task_good] in *. destruct H as [H1 H2].
  split; [exact (agree_won _ _ _ HA H1)|exact H2].
Qed.

(** A step of one task that leaves the transfers of this id as they are. *)
Lemma good_move : forall table heap tasks cl table' heap' k t t',
  good table heap tasks cl -> tasks !! k = Some t ->
  agree heap heap' -> agree heap' heap ->
  (forall o, sum (has o) heap' = sum (has o) heap) ->
  (table' !! id = table !! id \/ exists h, won_handle heap h) ->
  (task_id t' = id -> task_good heap' t') ->
  (forall h x, heap !! h = Some x -> x_hash x = id ->
     adds h t' = adds h t /\ wins h t' = wins h t
     /\ (x_received x = total -> ~ won x -> forall o, t = AtExchange h id o -> t' = AtExchange h id o)) ->
  (forall o, brings o t' = brings o t) ->
  good table' heap' (<[k := t']> tasks) cl.
Proof.
  intros table heap tasks cl table' heap' k t t' HG Hk HA HB Hhas Htab Hgood Hsame Hbr.
  assert (Hsb : forall o, sum (brings o) (<[k:=t']> tasks) = sum (brings o) tasks).
  { intros o. pose proof (sum_insert (brings o) tasks k t t' Hk). rewrite Hbr in H. lia. }
  split.
  - intros h x Hx Hi. destruct (HB h x Hx Hi) as (x0 & H1 & H2 & H3 & H4 & H5).
    destruct (gd_shape _ _ _ _ HG h x0 H1 H2) as [H6 H7]. rewrite <- H5, <- H3. split; [exact H6|exact H7].
  - intros u Hu Hi. apply In_insert in Hu as [->|Hu]; [exact (Hgood Hi)|].
    apply (agree_task heap); [exact HA|]. exact (gd_tasks _ _ _ _ HG u Hu Hi).
  - intros h x Hx Hi. destruct (HB h x Hx Hi) as (x0 & H1 & H2 & H3 & H4 & H5).
    destruct (Hsame h x0 H1 H2) as (Ea & Ew & Ee).
    pose proof (sum_insert (adds h) tasks k t t' Hk) as Sa. pose proof (sum_insert (wins h) tasks k t t' Hk) as Sw.
    destruct (gd_trans _ _ _ _ HG h x0 H1 H2) as [(W1 & W2 & W3)|(W1 & W2 & W3)].
    + left. unfold won, held in *. rewrite <- H3, <- H4. split; [exact W1|]. split; lia.
    + right. unfold held in *. rewrite <- H3, <- H4. split; [lia|]. split; [lia|]. intros Hr.
      destruct (W3 Hr) as [o Ho].
      assert (Hnw : ~ won x0). { intros [Hw1 Hw2]. pose proof total_pos. lia. }
      destruct (exchange_dec t h id o) as [E|E].
      * exists o. rewrite <- (Ee Hr Hnw o E). apply (In_insert_new _ _ _ _ Hk).
      * exists o. apply (In_insert_old _ _ _ _ _ Hk Ho). congruence.
  - destruct (gd_table _ _ _ _ HG) as [[h Hw]|Hone].
    + left. exists h. exact (agree_won _ _ _ HA Hw).
    + destruct Htab as [Ht|[h Hw]]; [|left; exists h; exact (agree_won _ _ _ HA Hw)].
      right. intros h x Hx Hi. destruct (HB h x Hx Hi) as (x0 & H1 & H2 & _). rewrite Ht. exact (Hone h x0 H1 H2).
  - intros p Hp Hi. rewrite Hsb, Hhas. exact (gd_cover _ _ _ _ HG p Hp Hi).
  - intros o. rewrite Hsb, Hhas. exact (gd_count _ _ _ _ HG o).
Qed.

(** Sums over tasks of transfers that do not exist. *)
Lemma no_adds_beyond : forall table heap tasks h, sane P table heap tasks -> heap !! h = None -> sum (adds h) tasks = 0.
Proof.
  intros table heap tasks h HS Hn. apply sum_zero. intros t Ht. destruct t as [| | |h' i o size| | | |]; try reflexivity.
  cbn [adds]. destruct (Nat.eqb_spec h' h) as [->|]; [|reflexivity].
  destruct (sn_tasks _ _ _ _ HS _ h Ht eq_refl) as (x & Hx & _). congruence.
Qed.

(** Tasks of other ids have nothing to do with transfers of this one. *)
Lemma other_task : forall table heap tasks t h x, sane P table heap tasks -> In t tasks -> task_id t <> id ->
  heap !! h = Some x -> x_hash x = id -> task_handle t <> Some h.
Proof.
  intros table heap tasks t h x HS Ht Hi Hx Hxi E. destruct (sn_tasks _ _ _ _ HS t h Ht E) as (y & H1 & H2). congruence.
Qed.
Lemma handle_adds : forall t h, task_handle t <> Some h -> adds h t = 0 /\ wins h t = 0.
Proof.
  intros t h H. split.
  - destruct t as [| | |h' i o size| | | |]; try reflexivity. cbn [adds task_handle] in *.
    destruct (Nat.eqb_spec h' h) as [->|]; congruence.
  - unfold wins. rewrite bool_decide_false by exact H. destruct (won_by t); reflexivity.
Qed.
Lemma other_brings : forall t o, task_id t <> id -> brings o t = 0.
Proof.
  intros t o H. destruct t; try reflexivity; cbn [brings task_id] in *; apply bytes_eqb_neq in H; rewrite H; reflexivity.
Qed.

(** A step of a task of another id. *)
Lemma good_other : forall table heap tasks cl table' heap' k t t',
  good table heap tasks cl -> sane P table heap tasks -> tasks !! k = Some t ->
  task_id t <> id -> task_id t' = task_id t ->
  agree heap heap' -> agree heap' heap -> (forall o, sum (has o) heap' = sum (has o) heap) ->
  table' !! id = table !! id ->
  (forall h, task_handle t' = Some h -> task_handle t = Some h \/ exists x, heap' !! h = Some x /\ x_hash x <> id) ->
  good table' heap' (<[k := t']> tasks) cl.
Proof.
  intros table heap tasks cl table' heap' k t t' HG HS Hk Hi Hi' HA HB Hhas Htab Hh.
  apply (good_move _ _ _ _ _ _ _ _ _ HG Hk HA HB Hhas (or_introl Htab)).
  - intros E. congruence.
  - intros h x Hx Hxi.
    assert (N1 : task_handle t <> Some h) by exact (other_task _ _ _ _ _ _ HS (lookup_In _ _ _ Hk) Hi Hx Hxi).
    assert (N2 : task_handle t' <> Some h).
    { intros E. destruct (Hh h E) as [E2|(y & Hy & Hyi)]; [contradiction|].
      destruct (HA h x Hx Hxi) as (x' & H1 & H2 & _). congruence. }
    destruct (handle_adds _ _ N1) as [A1 A2]. destruct (handle_adds _ _ N2) as [B1 B2].
    split; [congruence|]. split; [congruence|]. intros _ _ o E. exfalso. apply N1. rewrite E. reflexivity.
  - intros o. rewrite !other_brings; congruence.
Qed.

(** The first part of a new transfer of this id. *)
Lemma good_new_transfer : forall table heap tasks cl k o d clock,
  good table heap tasks cl -> sane P table heap tasks -> tasks !! k = Some (AtEntry id total o d) ->
  table !! id = None ->
  let h := length heap in
  good (<[id := h]> table) (heap ++ [mk_shared id ∅ 0 total clock 0]) (<[k := AtRefresh h id o d]> tasks) cl.
Proof.
  intros table heap tasks cl k o d clock HG HS Hk Htab h. set (x0 := mk_shared id ∅ 0 total clock 0).
  assert (Hnew : (heap ++ [x0]) !! h = Some x0) by (apply list_lookup_middle; reflexivity).
  assert (Hold : forall h' x, (heap ++ [x0]) !! h' = Some x -> heap !! h' = Some x \/ (h' = h /\ x = x0)).
  { intros h' x H. apply lookup_app_Some in H as [H|[H1 H2]]; [left; exact H|right].
    apply list_lookup_singleton_Some in H2 as [H2 H3]. split; [lia|congruence]. }
  assert (HA : forall h', won_handle heap h' -> won_handle (heap ++ [x0]) h').
  { intros h' (x & H1 & H2). exists x. split; [apply lookup_app_l_Some; exact H1|exact H2]. }
  assert (Hnone : heap !! h = None) by (apply lookup_ge_None; lia).
  assert (Hx0 : forall o', has o' x0 = 0).
  { intros o'. unfold has, x0. cbn [x_hash x_parts]. rewrite lookup_empty, bool_decide_false by apply is_Some_None.
    rewrite andb_false_r. reflexivity. }
  assert (Hb : forall o', sum (brings o') (<[k := AtRefresh h id o d]> tasks) = sum (brings o') tasks).
  { intros o'. pose proof (sum_insert (brings o') tasks k _ (AtRefresh h id o d) Hk) as S. cbn [brings] in S. lia. }
  assert (Ha : forall h', sum (adds h') (<[k := AtRefresh h id o d]> tasks) = sum (adds h') tasks).
  { intros h'. pose proof (sum_insert (adds h') tasks k _ (AtRefresh h id o d) Hk) as S. cbn [adds] in S. lia. }
  assert (Hw : forall h', sum (wins h') (<[k := AtRefresh h id o d]> tasks) = sum (wins h') tasks).
  { intros h'. pose proof (sum_insert (wins h') tasks k _ (AtRefresh h id o d) Hk) as S.
    rewrite !wins_none in S by reflexivity. lia. }
  split.
  - intros h' x Hx Hi. destruct (Hold h' x Hx) as [H|[-> ->]]; [exact (gd_shape _ _ _ _ HG h' x H Hi)|].
    unfold x0. cbn [x_total x_parts]. split; [reflexivity|]. intros o' d' E. rewrite lookup_empty in E. discriminate E.
  - intros u Hu Hi. apply In_insert in Hu as [->|Hu].
    + pose proof (gd_tasks _ _ _ _ HG _ (lookup_In _ _ _ Hk) eq_refl) as [_ Hin]. exact Hin.
    + pose proof (gd_tasks _ _ _ _ HG u Hu Hi) as H. destruct u; try exact H. cbn [task_good] in *.
      destruct H as [H1 H2]. split; [exact (HA _ H1)|exact H2].
  - intros h' x Hx Hi. unfold transfer_good. rewrite Ha, Hw. destruct (Hold h' x Hx) as [H|[-> ->]].
    + destruct (gd_trans _ _ _ _ HG h' x H Hi) as [W|(W1 & W2 & W3)]; [left; exact W|right].
      split; [exact W1|]. split; [exact W2|]. intros E. destruct (W3 E) as [o' Ho]. exists o'.
      apply (In_insert_old _ _ _ _ _ Hk Ho). discriminate.
    + right. rewrite (no_adds_beyond _ _ _ _ HS Hnone), (no_wins_beyond _ _ _ _ _ HS Hnone).
      split; [|split; [reflexivity|]].
      * unfold x0, held. cbn [x_received x_parts]. symmetry. apply got_none. intros p _.
        rewrite bool_decide_false; [reflexivity|]. rewrite lookup_empty. apply is_Some_None.
      * unfold x0. cbn [x_received]. intros E. pose proof total_pos. lia.
  - destruct (gd_table _ _ _ _ HG) as [[h' H]|Hone]; [left; exists h'; exact (HA _ H)|right].
    intros h' x Hx Hi. destruct (Hold h' x Hx) as [H|[-> ->]].
    + pose proof (Hone h' x H Hi) as E. congruence.
    + apply lookup_insert.
  - intros p Hp Hi. rewrite Hb, sum_app. cbn [sum]. rewrite Hx0. pose proof (gd_cover _ _ _ _ HG p Hp Hi). lia.
  - intros o'. rewrite Hb, sum_app. cbn [sum]. rewrite Hx0. pose proof (gd_count _ _ _ _ HG o'). lia.
Qed.

(** A piece that is already there. *)
Lemma good_again : forall table heap tasks cl k h o d x,
  good table heap tasks cl -> tasks !! k = Some (AtInsert h id o d) ->
  heap !! h = Some x -> x_hash x = id -> is_Some (x_parts x !! o) ->
  good table heap (<[k := Ended h id Pending]> tasks) cl.
Proof.
  intros table heap tasks cl k h o d x HG Hk Hx Hi Ho.
  assert (Hb : forall o', sum (brings o') (<[k := Ended h id Pending]> tasks) + (if o =? o' then 1 else 0) = sum (brings o') tasks).
  { intros o'. pose proof (sum_insert (brings o') tasks k _ (Ended h id Pending) Hk) as S. cbn [brings] in S.
    rewrite bytes_eqb_refl in S. cbn [andb] in S. lia. }
  assert (Ha : forall h', sum (adds h') (<[k := Ended h id Pending]> tasks) = sum (adds h') tasks).
  { intros h'. pose proof (sum_insert (adds h') tasks k _ (Ended h id Pending) Hk) as S. cbn [adds] in S. lia. }
  assert (Hw : forall h', sum (wins h') (<[k := Ended h id Pending]> tasks) = sum (wins h') tasks).
  { intros h'. pose proof (sum_insert (wins h') tasks k _ (Ended h id Pending) Hk) as S.
    rewrite !wins_none in S by reflexivity. lia. }
  destruct HG as [G1 G2 G3 G4 G5 G6]. split; try assumption.
  - intros u Hu Hui. apply In_insert in Hu as [->|Hu]; [right; right; reflexivity|exact (G2 u Hu Hui)].
  - intros h' y Hy Hyi. unfold transfer_good. rewrite Ha, Hw.
    destruct (G3 h' y Hy Hyi) as [W|(W1 & W2 & W3)]; [left; exact W|right].
    split; [exact W1|]. split; [exact W2|]. intros E. destruct (W3 E) as [o' Ho']. exists o'.
    apply (In_insert_old _ _ _ _ _ Hk Ho'). discriminate.
  - intros p Hp Hpi. specialize (Hb (pt_offset p)). specialize (G5 p Hp Hpi).
    destruct (N.eqb_spec o (pt_offset p)) as [->|]; [|lia].
    pose proof (sum_in (has (pt_offset p)) heap x (lookup_In _ _ _ Hx)) as Hh. unfold has in Hh at 1.
    rewrite Hi, bytes_eqb_refl, bool_decide_true in Hh by exact Ho. cbn [andb] in Hh. lia.
  - intros o'. specialize (Hb o'). specialize (G6 o'). destruct (o =? o'); lia.
Qed.

Lemma held_add : forall x o d, In (mk_part id total o d) cut -> x_parts x !! o = None ->
  held (set_parts x (<[o := d]> (x_parts x))) = held x + len d.
Proof.
  intros x o d Hin Hno. unfold held. cbn [set_parts x_parts].
  assert (Hf : bool_decide (is_Some (x_parts x !! o)) = false) by (apply bool_decide_false; rewrite Hno; apply is_Some_None).
  pose proof (got_add id total pieces 0 (fun o => bool_decide (is_Some (x_parts x !! o))) (mk_part id total o d) Hne Hin Hf) as E.
  cbn [pt_offset pt_data] in E. fold cut in E. rewrite <- E. apply got_ext. intros q _.
  destruct (N.eqb_spec (pt_offset q) o) as [->|Hn].
  - rewrite lookup_insert. cbn [orb]. apply bool_decide_true. eexists; reflexivity.
  - rewrite lookup_insert_ne by congruence. reflexivity.
Qed.
Lemma held_missing : forall x p, In p cut -> x_parts x !! pt_offset p = None -> held x < total.
Proof.
  intros x p Hin Hno. apply got_missing with p; [exact Hne|exact Hin|].
  apply bool_decide_false. rewrite Hno. apply is_Some_None.
Qed.

(** A new piece is put into a transfer. *)
Lemma good_piece : forall table heap tasks cl k h o d x,
  good table heap tasks cl -> tasks !! k = Some (AtInsert h id o d) ->
  heap !! h = Some x -> x_hash x = id -> x_parts x !! o = None ->
  good table (alter (fun x => set_parts x (<[o := d]> (x_parts x))) h heap) (<[k := AtAdd h id o (len d)]> tasks) cl.
Proof.
  intros table heap tasks cl k h o d x HG Hk Hx Hi Ho. set (f := fun x => set_parts x (<[o := d]> (x_parts x))).
  assert (Hin : In (mk_part id total o d) cut) by exact (gd_tasks _ _ _ _ HG _ (lookup_In _ _ _ Hk) eq_refl).
  pose proof (held_missing x _ Hin Ho) as Hlt. cbn [pt_offset] in Hlt.
  assert (Hd : 0 < len d).
  { pose proof (cut_nonempty _ _ _ _ _ Hne Hin) as Hn. cbn [pt_data] in Hn. unfold len. destruct d; [congruence|cbn [length]; lia]. }
  assert (Hnw : ~ won x) by (intros [W _]; lia).
  assert (Hnew : alter f h heap !! h = Some (f x)) by (rewrite list_lookup_alter, Hx; reflexivity).
  assert (Hoth : forall h', h' <> h -> alter f h heap !! h' = heap !! h') by (intros h' Hn; apply list_lookup_alter_ne; congruence).
  assert (HA : forall h', won_handle heap h' -> won_handle (alter f h heap) h').
  { intros h' (y & H1 & H2 & H3). destruct (decide (h' = h)) as [->|Hn].
    - exfalso. apply Hnw. congruence.
    - exists y. rewrite Hoth by exact Hn. repeat split; [exact H1|exact H2|apply H3|apply H3]. }
  assert (Hb : forall o', sum (brings o') (<[k := AtAdd h id o (len d)]> tasks) + (if o =? o' then 1 else 0) = sum (brings o') tasks).
  { intros o'. pose proof (sum_insert (brings o') tasks k _ (AtAdd h id o (len d)) Hk) as S. cbn [brings] in S.
    rewrite bytes_eqb_refl in S. cbn [andb] in S. lia. }
  assert (Hh : forall o', sum (has o') (alter f h heap) = sum (has o') heap + (if o =? o' then 1 else 0)).
  { intros o'. pose proof (sum_alter (has o') f heap h x Hx) as S.
    assert (E1 : has o' x = if bool_decide (is_Some (x_parts x !! o')) then 1 else 0)
      by (unfold has; rewrite Hi, bytes_eqb_refl; reflexivity).
    assert (E2 : has o' (f x) = if bool_decide (is_Some (<[o:=d]> (x_parts x) !! o')) then 1 else 0)
      by (unfold has, f; cbn [set_parts x_hash x_parts]; rewrite Hi, bytes_eqb_refl; reflexivity).
    rewrite E1, E2 in S. clear E1 E2.
    destruct (N.eqb_spec o o') as [<-|Hn].
    - rewrite lookup_insert, Ho in S. rewrite bool_decide_false in S by apply is_Some_None.
      rewrite bool_decide_true in S by (eexists; reflexivity). lia.
    - rewrite lookup_insert_ne in S by congruence. lia. }
  assert (Hw : forall h', sum (wins h') (<[k := AtAdd h id o (len d)]> tasks) = sum (wins h') tasks).
  { intros h'. pose proof (sum_insert (wins h') tasks k _ (AtAdd h id o (len d)) Hk) as S.
    rewrite !wins_none in S by reflexivity. lia. }
  split.
  - intros h' y Hy Hyi. destruct (decide (h' = h)) as [->|Hn].
    + rewrite Hnew in Hy. injection Hy as <-. unfold f. cbn [set_parts x_total x_parts].
      destruct (gd_shape _ _ _ _ HG h x Hx Hi) as [S1 S2]. split; [exact S1|]. intros o' d' E.
      apply lookup_insert_Some in E as [[<- <-]|[_ E]]; [exact Hin|exact (S2 o' d' E)].
    + rewrite Hoth in Hy by exact Hn. exact (gd_shape _ _ _ _ HG h' y Hy Hyi).
  - intros u Hu Hui. apply In_insert in Hu as [->|Hu]; [exact Hd|].
    pose proof (gd_tasks _ _ _ _ HG u Hu Hui) as H. destruct u; try exact H. cbn [task_good] in *.
    destruct H as [H1 H2]. split; [exact (HA _ H1)|exact H2].
  - intros h' y Hy Hyi. unfold transfer_good. rewrite Hw.
    pose proof (sum_insert (adds h') tasks k _ (AtAdd h id o (len d)) Hk) as Sa. cbn [adds] in Sa.
    destruct (decide (h' = h)) as [->|Hn].
    + rewrite Hnew in Hy. injection Hy as <-. rewrite Nat.eqb_refl in Sa.
      destruct (gd_trans _ _ _ _ HG h x Hx Hi) as [(W & _)|(W1 & W2 & W3)]; [contradiction|right].
      change (x_received (f x)) with (x_received x). unfold f. rewrite (held_add x o d Hin Ho).
      split; [lia|]. split; [exact W2|]. intros E. lia.
    + rewrite Hoth in Hy by exact Hn. replace (Nat.eqb h h') with false in Sa by (symmetry; apply Nat.eqb_neq; congruence).
      destruct (gd_trans _ _ _ _ HG h' y Hy Hyi) as [(W1 & W2 & W3)|(W1 & W2 & W3)].
      * left. split; [exact W1|]. split; [lia|exact W3].
      * right. split; [lia|]. split; [exact W2|]. intros E. destruct (W3 E) as [o' Ho']. exists o'.
        apply (In_insert_old _ _ _ _ _ Hk Ho'). discriminate.
  - destruct (gd_table _ _ _ _ HG) as [[h' H]|Hone]; [left; exists h'; exact (HA _ H)|right].
    intros h' y Hy Hyi. destruct (decide (h' = h)) as [->|Hn]; [exact (Hone h x Hx Hi)|].
    rewrite Hoth in Hy by exact Hn. exact (Hone h' y Hy Hyi).
  - intros p Hp Hpi. specialize (Hb (pt_offset p)). rewrite Hh. pose proof (gd_cover _ _ _ _ HG p Hp Hpi).
    destruct (o =? pt_offset p); lia.
  - intros o'. specialize (Hb o'). rewrite Hh. pose proof (gd_count _ _ _ _ HG o'). destruct (o =? o'); lia.
Qed.

(** The length of a piece is added. *)
Lemma good_add : forall table heap tasks cl k h o size x,
  good table heap tasks cl -> tasks !! k = Some (AtAdd h id o size) ->
  heap !! h = Some x -> x_hash x = id ->
  good table (alter (fun x => set_received x (x_received x + size)) h heap) (<[k := AtExchange h id o]> tasks) cl.
Proof.
  intros table heap tasks cl k h o size x HG Hk Hx Hi. set (f := fun x => set_received x (x_received x + size)).
  assert (Hsz : 0 < size) by exact (gd_tasks _ _ _ _ HG _ (lookup_In _ _ _ Hk) eq_refl).
  assert (Hge : size <= sum (adds h) tasks).
  { pose proof (sum_in (adds h) tasks _ (lookup_In _ _ _ Hk)) as H. cbn [adds] in H. now rewrite Nat.eqb_refl in H. }
  assert (Hun : x_received x + sum (adds h) tasks = held x /\ sum (wins h) tasks = 0).
  { destruct (gd_trans _ _ _ _ HG h x Hx Hi) as [(_ & W & _)|(W1 & W2 & _)]; [lia|split; assumption]. }
  destruct Hun as [Hsum Hwin].
  assert (Hnw : ~ won x).
  { intros [W1 W2]. pose proof (held_le x). pose proof total_pos. lia. }
  assert (Hnew : alter f h heap !! h = Some (f x)) by (rewrite list_lookup_alter, Hx; reflexivity).
  assert (Hoth : forall h', h' <> h -> alter f h heap !! h' = heap !! h') by (intros h' Hn; apply list_lookup_alter_ne; congruence).
  assert (HA : forall h', won_handle heap h' -> won_handle (alter f h heap) h').
  { intros h' (y & H1 & H2 & H3). destruct (decide (h' = h)) as [->|Hn].
    - exfalso. apply Hnw. congruence.
    - exists y. rewrite Hoth by exact Hn. repeat split; [exact H1|exact H2|apply H3|apply H3]. }
  assert (Hb : forall o', sum (brings o') (<[k := AtExchange h id o]> tasks) = sum (brings o') tasks).
  { intros o'. pose proof (sum_insert (brings o') tasks k _ (AtExchange h id o) Hk) as S. cbn [brings] in S. lia. }
  assert (Hh : forall o', sum (has o') (alter f h heap) = sum (has o') heap).
  { intros o'. pose proof (sum_alter (has o') f heap h x Hx) as S. change (has o' (f x)) with (has o' x) in S. lia. }
  assert (Hw : forall h', sum (wins h') (<[k := AtExchange h id o]> tasks) = sum (wins h') tasks).
  { intros h'. pose proof (sum_insert (wins h') tasks k _ (AtExchange h id o) Hk) as S.
    rewrite !wins_none in S by reflexivity. lia. }
  split.
  - intros h' y Hy Hyi. destruct (decide (h' = h)) as [->|Hn].
    + rewrite Hnew in Hy. injection Hy as <-. exact (gd_shape _ _ _ _ HG h x Hx Hi).
    + rewrite Hoth in Hy by exact Hn. exact (gd_shape _ _ _ _ HG h' y Hy Hyi).
  - intros u Hu Hui. apply In_insert in Hu as [->|Hu]; [exact I|].
    pose proof (gd_tasks _ _ _ _ HG u Hu Hui) as H. destruct u; try exact H. cbn [task_good] in *.
    destruct H as [H1 H2]. split; [exact (HA _ H1)|exact H2].
  - intros h' y Hy Hyi. unfold transfer_good. rewrite Hw.
    pose proof (sum_insert (adds h') tasks k _ (AtExchange h id o) Hk) as Sa. cbn [adds] in Sa.
    destruct (decide (h' = h)) as [->|Hn].
    + rewrite Hnew in Hy. injection Hy as <-. rewrite Nat.eqb_refl in Sa. right.
      change (held (f x)) with (held x). unfold f. cbn [set_received x_received].
      split; [lia|]. split; [exact Hwin|]. intros _. exists o. apply (In_insert_new _ _ _ _ Hk).
    + rewrite Hoth in Hy by exact Hn. replace (Nat.eqb h h') with false in Sa by (symmetry; apply Nat.eqb_neq; congruence).
      destruct (gd_trans _ _ _ _ HG h' y Hy Hyi) as [(W1 & W2 & W3)|(W1 & W2 & W3)].
      * left. split; [exact W1|]. split; [lia|exact W3].
      * right. split; [lia|]. split; [exact W2|]. intros E. destruct (W3 E) as [o' Ho']. exists o'.
        apply (In_insert_old _ _ _ _ _ Hk Ho'). discriminate.
  - destruct (gd_table _ _ _ _ HG) as [[h' H]|Hone]; [left; exists h'; exact (HA _ H)|right].
    intros h' y Hy Hyi. destruct (decide (h' = h)) as [->|Hn]; [exact (Hone h x Hx Hi)|].
    rewrite Hoth in Hy by exact Hn. exact (Hone h' y Hy Hyi).
  - intros p Hp Hpi. rewrite Hb, Hh. exact (gd_cover _ _ _ _ HG p Hp Hpi).
  - intros o'. rewrite Hb, Hh. exact (gd_count _ _ _ _ HG o').
Qed.

(** The exchange is won. *)
Lemma good_win : forall table heap tasks cl k h o x,
  good table heap tasks cl -> tasks !! k = Some (AtExchange h id o) ->
  heap !! h = Some x -> x_hash x = id -> x_received x = x_total x ->
  good table (alter (fun x => set_received x (x_total x * 2)) h heap) (<[k := AtCombine h id 0 []]> tasks) cl.
Proof.
  intros table heap tasks cl k h o x HG Hk Hx Hi Hr. set (f := fun x => set_received x (x_total x * 2)).
  assert (Ht : x_total x = total) by exact (proj1 (gd_shape _ _ _ _ HG h x Hx Hi)).
  pose proof total_pos as Hpos. pose proof (held_le x) as Hle.
  assert (Hun : x_received x + sum (adds h) tasks = held x /\ sum (wins h) tasks = 0).
  { destruct (gd_trans _ _ _ _ HG h x Hx Hi) as [([_ W] & _)|(W1 & W2 & _)]; [lia|split; assumption]. }
  destruct Hun as [Hsum Hwin].
  assert (Hnw : ~ won x) by (intros [W1 W2]; lia).
  assert (Hnew : alter f h heap !! h = Some (f x)) by (rewrite list_lookup_alter, Hx; reflexivity).
  assert (Hoth : forall h', h' <> h -> alter f h heap !! h' = heap !! h') by (intros h' Hn; apply list_lookup_alter_ne; congruence).
  assert (Hwon : won (f x)).
  { split; [change (held (f x)) with (held x); lia|]. unfold f. cbn [set_received x_received]. lia. }
  assert (HA : forall h', won_handle heap h' -> won_handle (alter f h heap) h').
  { intros h' (y & H1 & H2 & H3). destruct (decide (h' = h)) as [->|Hn].
    - exfalso. apply Hnw. congruence.
    - exists y. rewrite Hoth by exact Hn. repeat split; [exact H1|exact H2|apply H3|apply H3]. }
  assert (Hb : forall o', sum (brings o') (<[k := AtCombine h id 0 []]> tasks) = sum (brings o') tasks).
  { intros o'. pose proof (sum_insert (brings o') tasks k _ (AtCombine h id 0 []) Hk) as S. cbn [brings] in S. lia. }
  assert (Hh : forall o', sum (has o') (alter f h heap) = sum (has o') heap).
  { intros o'. pose proof (sum_alter (has o') f heap h x Hx) as S. change (has o' (f x)) with (has o' x) in S. lia. }
  assert (Ha : forall h', sum (adds h') (<[k := AtCombine h id 0 []]> tasks) = sum (adds h') tasks).
  { intros h'. pose proof (sum_insert (adds h') tasks k _ (AtCombine h id 0 []) Hk) as S. cbn [adds] in S. lia. }
  split.
  - intros h' y Hy Hyi. destruct (decide (h' = h)) as [->|Hn].
    + rewrite Hnew in Hy. injection Hy as <-. exact (gd_shape _ _ _ _ HG h x Hx Hi).
    + rewrite Hoth in Hy by exact Hn. exact (gd_shape _ _ _ _ HG h' y Hy Hyi).
  - intros u Hu Hui. apply In_insert in Hu as [->|Hu].
    { exists [], pieces. repeat split. }
    pose proof (gd_tasks _ _ _ _ HG u Hu Hui) as H. destruct u; try exact H. cbn [task_good] in *.
    destruct H as [H1 H2]. split; [exact (HA _ H1)|exact H2].
  - intros h' y Hy Hyi. unfold transfer_good. rewrite Ha.
    pose proof (sum_insert (wins h') tasks k _ (AtCombine h id 0 []) Hk) as Sw.
    rewrite (wins_none h' (AtExchange h id o)) in Sw by reflexivity.
    unfold wins in Sw at 3. cbn [won_by task_handle andb] in Sw.
    destruct (decide (h' = h)) as [->|Hn].
    + rewrite Hnew in Hy. injection Hy as <-. left. split; [exact Hwon|]. split; [lia|].
      rewrite bool_decide_true in Sw by reflexivity. lia.
    + rewrite Hoth in Hy by exact Hn. rewrite bool_decide_false in Sw by congruence.
      destruct (gd_trans _ _ _ _ HG h' y Hy Hyi) as [(W1 & W2 & W3)|(W1 & W2 & W3)].
      * left. split; [exact W1|]. split; [exact W2|lia].
      * right. split; [exact W1|]. split; [lia|]. intros E. destruct (W3 E) as [o' Ho']. exists o'.
        apply (In_insert_old _ _ _ _ _ Hk Ho'). congruence.
  - left. exists h, (f x). split; [exact Hnew|]. split; [exact Hi|exact Hwon].
  - intros p Hp Hpi. rewrite Hb, Hh. exact (gd_cover _ _ _ _ HG p Hp Hpi).
  - intros o'. rewrite Hb, Hh. exact (gd_count _ _ _ _ HG o').
Qed.

Lemma cut_inhabited : forall (h : bytes) (t off : N) (l : list bytes), l <> [] -> exists p, In p (cut_from h t off l).
Proof. intros h t off [|d r] H; [congruence|]. exists (mk_part h t off d). left. reflexivity. Qed.

(** A winner always finds the next piece. *)
Lemma cut_middle : forall (h : bytes) (t : N) (pre post : list bytes) (d : bytes) (off : N),
  In (mk_part h t (off + len (concat pre)) d) (cut_from h t off (pre ++ d :: post)).
Proof.
  intros h t pre post d. induction pre as [|a pre IH]; intros off.
  - left. cbn [concat]. f_equal. unfold len. cbn [length]. lia.
  - right. cbn [concat app]. specialize (IH (off + N.of_nat (length a))). rewrite len_app.
    replace (off + (len a + len (concat pre))) with (off + N.of_nat (length a) + len (concat pre)) by (unfold len; lia).
    exact IH.
Qed.

Lemma winner_of : forall table heap tasks cl t h x, good table heap tasks cl -> In t tasks -> won_by t = true ->
  task_handle t = Some h -> heap !! h = Some x -> x_hash x = id -> won x.
Proof.
  intros table heap tasks cl t h x HG Ht Hw Hh Hx Hi.
  destruct (gd_trans _ _ _ _ HG h x Hx Hi) as [(W & _)|(_ & W & _)]; [exact W|].
  pose proof (sum_in (wins h) tasks t Ht) as S. unfold wins in S at 1. rewrite Hw, bool_decide_true in S by exact Hh.
  cbn [andb] in S. lia.
Qed.

Lemma agree_alter_other : forall heap h f x, heap !! h = Some x -> x_hash x <> id -> x_hash (f x) <> id ->
  agree heap (alter f h heap) /\ agree (alter f h heap) heap /\ forall o, sum (has o) (alter f h heap) = sum (has o) heap.
Proof.
  intros heap h f x Hx Hi Hf. split; [|split].
  - intros h' y Hy Hyi. destruct (decide (h' = h)) as [->|Hn]; [congruence|].
    exists y. rewrite list_lookup_alter_ne by congruence. repeat split; assumption.
  - intros h' y Hy Hyi. destruct (decide (h' = h)) as [->|Hn].
    + rewrite list_lookup_alter, Hx in Hy. injection Hy as <-. contradiction.
    + rewrite list_lookup_alter_ne in Hy by congruence. exists y. repeat split; assumption.
  - intros o. pose proof (sum_alter (has o) f heap h x Hx) as S. unfold has in S at 2.
    apply bytes_eqb_neq in Hi, Hf. rewrite Hi in S. cbn [andb] in S.
    assert (E : has o (f x) = 0) by (unfold has; rewrite Hf; reflexivity). lia.
Qed.
Lemma agree_alter_same : forall heap h f x, heap !! h = Some x ->
  x_hash (f x) = x_hash x -> x_parts (f x) = x_parts x -> x_received (f x) = x_received x -> x_total (f x) = x_total x ->
  agree heap (alter f h heap) /\ agree (alter f h heap) heap /\ forall o, sum (has o) (alter f h heap) = sum (has o) heap.
Proof.
  intros heap h f x Hx H1 H2 H3 H4. split; [|split].
  - intros h' y Hy Hyi. destruct (decide (h' = h)) as [->|Hn].
    + assert (y = x) by congruence. subst y. exists (f x). rewrite list_lookup_alter, Hx. repeat split; congruence.
    + exists y. rewrite list_lookup_alter_ne by congruence. repeat split; assumption.
  - intros h' y Hy Hyi. destruct (decide (h' = h)) as [->|Hn].
    + rewrite list_lookup_alter, Hx in Hy. injection Hy as <-. exists x. repeat split; congruence.
    + rewrite list_lookup_alter_ne in Hy by congruence. exists y. repeat split; assumption.
  - intros o. pose proof (sum_alter (has o) f heap h x Hx) as S.
    assert (E : has o (f x) = has o x) by (unfold has; rewrite H1, H2; reflexivity). lia.
Qed.

(** One step of any task. *)
Lemma good_task_step : forall timeout s cl k t,
  sane_state P s -> good (c_table s) (c_heap s) (c_tasks s) cl -> c_tasks s !! k = Some t ->
  let '(s', t') := task_step P timeout s t in
  good (c_table s') (c_heap s') (<[k := t']> (c_tasks s')) cl.
Proof.
  intros timeout s cl k t HS HG Hk. unfold sane_state in HS.
  pose proof (lookup_In _ _ _ Hk) as Hin.
  assert (Hold : forall h, task_handle t = Some h -> exists x, c_heap s !! h = Some x /\ x_hash x = task_id t).
  { intros h E. exact (sn_tasks _ _ _ _ HS t h Hin E). }
  assert (Hrefl : forall o, sum (has o) (c_heap s) = sum (has o) (c_heap s)) by reflexivity.
  destruct (decide (task_id t = id)) as [Hi|Hi].
  - (* this id *)
    pose proof (gd_tasks _ _ _ _ HG t Hin Hi) as Htg.
    destruct t as [hash tot offset data|h hash offset data|h hash offset data|h hash offset size|h hash offset|h hash received buffer|h hash o|h hash o];
      cbn [task_id] in Hi; subst hash; cbn [task_step].
    + cbn [task_good] in Htg. destruct Htg as [-> Hp]. destruct (c_table s !! id) as [h|] eqn:Et; cbn [c_table c_heap c_tasks].
      * apply (good_move _ _ _ _ _ _ _ _ _ HG Hk (agree_refl _) (agree_refl _) Hrefl (or_introl eq_refl)).
        -- intros _. exact Hp.
        -- intros h' x Hx Hxi. split; [reflexivity|]. split; [reflexivity|]. intros _ _ o E. discriminate E.
        -- reflexivity.
      * exact (good_new_transfer _ _ _ _ _ _ _ (c_clock s) HG HS Hk Et).
    + destruct (Hold h eq_refl) as (x & Hx & Hxi). rewrite Hx. cbn [with_transfer c_table c_heap c_tasks].
      destruct (agree_alter_same (c_heap s) h (fun x => set_updated x (elapsed_secs s x)) x Hx eq_refl eq_refl eq_refl eq_refl) as (A1 & A2 & A3).
      apply (good_move _ _ _ _ _ _ _ _ _ HG Hk A1 A2 A3 (or_introl eq_refl)).
      * intros _. exact Htg.
      * intros h' y Hy Hyi. split; [reflexivity|]. split; [reflexivity|]. intros _ _ o E. discriminate E.
      * reflexivity.
    + destruct (Hold h eq_refl) as (x & Hx & Hxi). cbn [task_id] in Hxi. rewrite Hx. cbn [with_transfer c_table c_heap c_tasks].
      destruct (x_parts x !! offset) as [d|] eqn:Ep.
      * assert (E : alter (fun x => set_parts x (<[offset:=data]> (x_parts x))) h (c_heap s) = c_heap s).
        { apply list_eq. intros h'. destruct (decide (h' = h)) as [->|Hn].
          - rewrite list_lookup_alter, Hx. cbn [fmap option_fmap option_map]. f_equal.
            assert (d = data).
            { pose proof (proj2 (gd_shape _ _ _ _ HG h x Hx Hxi) offset d Ep) as H1. cbn [task_good] in Htg.
              pose proof (cut_unique _ _ _ _ _ _ Hne H1 Htg eq_refl) as E. injection E as ->. reflexivity. }
            subst d. unfold set_parts. rewrite insert_id by exact Ep. destruct x; reflexivity.
          - apply list_lookup_alter_ne. congruence. }
        rewrite E. apply (good_again _ _ _ _ _ _ _ _ x HG Hk Hx Hxi). rewrite Ep. eexists; reflexivity.
      * exact (good_piece _ _ _ _ _ _ _ _ x HG Hk Hx Hxi Ep).
    + destruct (Hold h eq_refl) as (x & Hx & Hxi). cbn [with_transfer c_table c_heap c_tasks].
      exact (good_add _ _ _ _ _ _ _ _ x HG Hk Hx Hxi).
    + destruct (Hold h eq_refl) as (x & Hx & Hxi). cbn [task_id] in Hxi. rewrite Hx.
      destruct (N.compare_spec (x_received x) (x_total x)) as [E|E|E].
      * cbn [with_transfer c_table c_heap c_tasks]. exact (good_win _ _ _ _ _ _ _ x HG Hk Hx Hxi E).
      * apply (good_move _ _ _ _ _ _ _ _ _ HG Hk (agree_refl _) (agree_refl _) Hrefl (or_introl eq_refl)).
        -- intros _. cbn [task_good]. right. right. reflexivity.
        -- intros h' y Hy Hyi. split; [reflexivity|]. split; [reflexivity|]. intros Er _ o Eo. injection Eo as <- <-.
           exfalso. assert (y = x) by congruence. subst y. pose proof (proj1 (gd_shape _ _ _ _ HG h x Hx Hxi)). lia.
        -- reflexivity.
      * assert (Hw : won x).
        { destruct (gd_trans _ _ _ _ HG h x Hx Hxi) as [(W & _)|(W & _)]; [exact W|].
          pose proof (held_le x). pose proof (proj1 (gd_shape _ _ _ _ HG h x Hx Hxi)). lia. }
        apply (good_move _ _ _ _ _ _ _ _ _ HG Hk (agree_refl _) (agree_refl _) Hrefl (or_introl eq_refl)).
        -- intros _. cbn [task_good]. split; [|right; reflexivity]. exists x. split; [exact Hx|]. split; [exact Hxi|exact Hw].
        -- intros h' y Hy Hyi. split; [reflexivity|]. split; [reflexivity|]. intros _ Hnw o Eo. injection Eo as <- <-.
           exfalso. apply Hnw. assert (y = x) by congruence. subst y. exact Hw.
        -- reflexivity.
    + destruct (Hold h eq_refl) as (x & Hx & Hxi). cbn [task_id] in Hxi. rewrite Hx. cbn [c_table c_heap c_tasks].
      assert (Hw : won x) by exact (winner_of _ _ _ _ _ h x HG Hin eq_refl eq_refl Hx Hxi).
      destruct (gd_shape _ _ _ _ HG h x Hx Hxi) as [Ht Hpt].
      cbn [task_good] in Htg. destruct Htg as (pre & post & Epp & Eb & Er).
      assert (Hlen : total = len (concat pre) + len (concat post)).
      { unfold total. rewrite Epp, concat_app, len_app. reflexivity. }
      set (t' := if received <? x_total x then _ else _).
      assert (Hgood : task_good (c_heap s) t' /\ won_by t' = true /\ task_handle t' = Some h
                      /\ (forall o, brings o t' = 0) /\ (forall h', adds h' t' = 0)).
      { unfold t'. rewrite Ht. destruct (N.ltb_spec received total) as [Hlt|Hge].
        - destruct post as [|d post].
          { exfalso. change (len (concat [])) with 0 in Hlen. rewrite Er, Eb in Hlt. lia. }
          assert (Hp : In (mk_part id total received d) cut).
          { pose proof (cut_middle id total pre post d 0) as H. rewrite N.add_0_l in H.
            rewrite Er, Eb. unfold cut. rewrite Epp. exact H. }
          assert (Ed : x_parts x !! received = Some d).
          { destruct (x_parts x !! received) as [d'|] eqn:Ed.
            - pose proof (Hpt _ _ Ed) as H1. pose proof (cut_unique _ _ _ _ _ _ Hne H1 Hp eq_refl) as E. injection E as ->. reflexivity.
            - exfalso. pose proof (held_missing x _ Hp Ed). destruct Hw as [Hw _]. lia. }
          rewrite Ed. split; [|repeat split].
          exists (pre ++ [d]), post. split; [rewrite <- app_assoc; exact Epp|].
          split; [rewrite concat_app; cbn [concat]; rewrite app_nil_r; congruence|].
          rewrite len_app. congruence.
        - assert (post = []).
          { destruct post as [|d post]; [reflexivity|]. exfalso.
            assert (Hd : d <> []) by (rewrite Epp in Hne; apply Forall_app in Hne as [_ Hn]; inversion Hn; assumption).
            assert (0 < len d) by (unfold len; destruct d; [congruence|cbn [length]; lia]).
            cbn [concat] in Hlen. rewrite len_app in Hlen. rewrite Er, Eb in Hge. lia. }
          subst post. rewrite app_nil_r in Epp. rewrite Eb, <- Epp. fold id. rewrite bytes_eqb_refl.
          split; [|repeat split]. cbn [task_good]. split; [|left; reflexivity].
          exists x. split; [exact Hx|]. split; [exact Hxi|exact Hw]. }
      destruct Hgood as (G1 & G2 & G3 & G4 & G5).
      apply (good_move _ _ _ _ _ _ _ _ _ HG Hk (agree_refl _) (agree_refl _) Hrefl (or_introl eq_refl)).
      * intros _. exact G1.
      * intros h' y Hy Hyi. split; [rewrite G5; reflexivity|]. split.
        -- unfold wins. rewrite G2, G3. reflexivity.
        -- intros _ _ o E. discriminate E.
      * intros o. rewrite G4. reflexivity.
    + cbn [without c_table c_heap c_tasks]. cbn [task_good] in Htg. destruct Htg as [Hw Ho].
      apply (good_move _ _ _ _ _ _ _ _ _ HG Hk (agree_refl _) (agree_refl _) Hrefl (or_intror (ex_intro _ h Hw))).
      * intros _. cbn [task_good]. destruct Ho as [Ho|Ho]; [left; exact Ho|right; left; exact Ho].
      * intros h' y Hy Hyi. split; [reflexivity|]. split; [reflexivity|]. intros _ _ o' E. discriminate E.
      * reflexivity.
    + cbn [c_table c_heap c_tasks]. rewrite list_insert_id by exact Hk. exact HG.
  - (* another id *)
    destruct t as [hash tot offset data|h hash offset data|h hash offset data|h hash offset size|h hash offset|h hash received buffer|h hash o|h hash o];
      cbn [task_id] in Hi; cbn [task_step].
    + destruct (c_table s !! hash) as [h|] eqn:Et; cbn [c_table c_heap c_tasks].
      * refine (good_other _ _ _ _ _ _ _ _ _ HG HS Hk Hi _ (agree_refl _) (agree_refl _) Hrefl eq_refl _); [reflexivity|].
        intros h' [= <-]. right. destruct (sn_table _ _ _ _ HS _ _ Et) as (x & H1 & H2). exists x. split; [exact H1|congruence].
      * set (x0 := mk_shared hash ∅ 0 tot (c_clock s) 0).
        assert (Hnew : (c_heap s ++ [x0]) !! length (c_heap s) = Some x0) by (apply list_lookup_middle; reflexivity).
        apply (good_other _ _ _ _ _ _ _ _ _ HG HS Hk Hi).
        -- reflexivity.
        -- intros h' y Hy Hyi. exists y. repeat split; [apply lookup_app_l_Some; exact Hy|exact Hyi].
        -- intros h' y Hy Hyi. exists y. apply lookup_app_Some in Hy as [Hy|[_ Hy]]; [repeat split; assumption|].
           apply list_lookup_singleton_Some in Hy as [_ <-]. exfalso. apply Hi. exact Hyi.
        -- intros o. rewrite sum_app. cbn [sum]. unfold has at 2. cbn [x0 x_hash]. apply bytes_eqb_neq in Hi.
           change (x_hash x0) with hash. rewrite Hi. cbn [andb]. lia.
        -- apply lookup_insert_ne. exact Hi.
        -- intros h' [= <-]. right. exists x0. split; [exact Hnew|exact Hi].
    + destruct (Hold h eq_refl) as (x & Hx & Hxi). cbn [task_id] in Hxi. rewrite Hx. cbn [with_transfer c_table c_heap c_tasks].
      destruct (agree_alter_other (c_heap s) h (fun x => set_updated x (elapsed_secs s x)) x Hx) as (A1 & A2 & A3);
        [congruence|cbn; congruence|].
      refine (good_other _ _ _ _ _ _ _ _ _ HG HS Hk Hi _ A1 A2 A3 eq_refl _); [reflexivity|]. intros h' E. left. exact E.
    + destruct (Hold h eq_refl) as (x & Hx & Hxi). cbn [task_id] in Hxi. rewrite Hx. cbn [with_transfer c_table c_heap c_tasks].
      destruct (agree_alter_other (c_heap s) h (fun x => set_parts x (<[offset:=data]> (x_parts x))) x Hx) as (A1 & A2 & A3);
        [congruence|cbn; congruence|].
      apply (good_other _ _ _ _ _ _ _ _ _ HG HS Hk Hi).
      * destruct (x_parts x !! offset); reflexivity.
      * exact A1.
      * exact A2.
      * exact A3.
      * reflexivity.
      * intros h' E. left. destruct (x_parts x !! offset); exact E.
    + destruct (Hold h eq_refl) as (x & Hx & Hxi). cbn [task_id] in Hxi. cbn [with_transfer c_table c_heap c_tasks].
      destruct (agree_alter_other (c_heap s) h (fun x => set_received x (x_received x + size)) x Hx) as (A1 & A2 & A3);
        [congruence|cbn; congruence|].
      refine (good_other _ _ _ _ _ _ _ _ _ HG HS Hk Hi _ A1 A2 A3 eq_refl _); [reflexivity|]. intros h' E. left. exact E.
    + destruct (Hold h eq_refl) as (x & Hx & Hxi). cbn [task_id] in Hxi. rewrite Hx.
      destruct (x_received x ?= x_total x); cbn [with_transfer c_table c_heap c_tasks].
      * destruct (agree_alter_other (c_heap s) h (fun x => set_received x (x_total x * 2)) x Hx) as (A1 & A2 & A3);
          [congruence|cbn; congruence|].
        refine (good_other _ _ _ _ _ _ _ _ _ HG HS Hk Hi _ A1 A2 A3 eq_refl _); [reflexivity|]. intros h' E. left. exact E.
      * refine (good_other _ _ _ _ _ _ _ _ _ HG HS Hk Hi _ (agree_refl _) (agree_refl _) Hrefl eq_refl _); [reflexivity|].
        intros h' E. left. exact E.
      * refine (good_other _ _ _ _ _ _ _ _ _ HG HS Hk Hi _ (agree_refl _) (agree_refl _) Hrefl eq_refl _); [reflexivity|].
        intros h' E. left. exact E.
    + destruct (Hold h eq_refl) as (x & Hx & Hxi). rewrite Hx. cbn [c_table c_heap c_tasks].
      apply (good_other _ _ _ _ _ _ _ _ _ HG HS Hk Hi); try exact (agree_refl _); try reflexivity.
      * destruct (received <? x_total x); [destruct (x_parts x !! received)|destruct (bytes_eqb _ _)]; reflexivity.
      * intros h' E. left. destruct (received <? x_total x); [destruct (x_parts x !! received)|destruct (bytes_eqb _ _)]; exact E.
    + cbn [without c_table c_heap c_tasks].
      refine (good_other _ _ _ _ _ _ _ _ _ HG HS Hk Hi _ (agree_refl _) (agree_refl _) Hrefl _ _); [reflexivity| |].
      * apply lookup_delete_ne. exact Hi.
      * intros h' E. left. exact E.
    + cbn [c_table c_heap c_tasks]. rewrite list_insert_id by exact Hk. exact HG.
Qed.

(** A part comes in. *)
Lemma good_came : forall table heap tasks cl p,
  good table heap tasks cl -> (pt_hash p = id -> In p cut) ->
  good table heap (tasks ++ [AtEntry (pt_hash p) (pt_total p) (pt_offset p) (pt_data p)]) (cl ++ [p]).
Proof.
  intros table heap tasks cl p HG Hp. set (t := AtEntry (pt_hash p) (pt_total p) (pt_offset p) (pt_data p)).
  assert (Ha : forall h, sum (adds h) (tasks ++ [t]) = sum (adds h) tasks).
  { intros h. rewrite sum_app. cbn [sum]. change (adds h t) with 0. lia. }
  assert (Hw : forall h, sum (wins h) (tasks ++ [t]) = sum (wins h) tasks).
  { intros h. rewrite sum_app. cbn [sum]. rewrite wins_none by reflexivity. lia. }
  assert (Hb : forall o, sum (brings o) (tasks ++ [t]) = sum (brings o) tasks + (if bytes_eqb (pt_hash p) id && (pt_offset p =? o) then 1 else 0)).
  { intros o. rewrite sum_app. cbn [sum]. change (brings o t) with (if bytes_eqb (pt_hash p) id && (pt_offset p =? o) then 1 else 0). lia. }
  destruct HG as [G1 G2 G3 G4 G5 G6]. split; try assumption.
  - intros u Hu Hi. apply in_app_iff in Hu as [Hu|[<-|[]]]; [exact (G2 u Hu Hi)|].
    cbn [t task_id] in Hi. specialize (Hp Hi). pose proof (cut_offset_ge _ _ _ _ _ Hp) as (_ & E1 & E2).
    cbn [task_good t]. split; [exact E2|]. destruct p as [a b c e]. cbn [pt_hash pt_total pt_offset pt_data] in *. now subst.
  - intros h x Hx Hi. unfold transfer_good. rewrite Ha, Hw. destruct (G3 h x Hx Hi) as [W|(W1 & W2 & W3)]; [left; exact W|right].
    split; [exact W1|]. split; [exact W2|]. intros E. destruct (W3 E) as [o Ho]. exists o. apply in_app_iff. left. exact Ho.
  - intros q Hq Hi. rewrite Hb. apply in_app_iff in Hq as [Hq|[<-|[]]].
    + specialize (G5 q Hq Hi). lia.
    + rewrite Hi, bytes_eqb_refl, N.eqb_refl. cbn [andb]. lia.
  - intros o. rewrite Hb. rewrite List.filter_app, app_length. cbn [List.filter]. specialize (G6 o).
    destruct (bytes_eqb (pt_hash p) id && (pt_offset p =? o)); cbn [length]; lia.
Qed.

(** Before the first part of this id. *)
Definition clean (s : receiving_state) : Prop :=
  (forall t, In t (c_tasks s) -> task_id t <> id) /\ (forall h x, c_heap s !! h = Some x -> x_hash x <> id).

Lemma clean_step : forall timeout s e, clean s ->
  (forall p, In p (came [e]) -> pt_hash p <> id) -> clean (receiving_step P timeout s e).
Proof.
  intros timeout s e [H1 H2] He. destruct e as [hash tot offset data|k|h|ms]; cbn [receiving_step].
  - split; cbn [c_tasks c_heap]; [|exact H2]. intros t Ht. apply in_app_iff in Ht as [Ht|[<-|[]]]; [exact (H1 t Ht)|].
    exact (He (mk_part hash tot offset data) (or_introl eq_refl)).
  - destruct (c_tasks s !! k) as [t|] eqn:Hk; [|split; assumption].
    pose proof (task_step_shape P timeout s t) as HT. destruct (task_step P timeout s t) as [s' t'].
    destruct HT as (T1 & T2 & _ & _ & T3). cbn [c_tasks c_heap]. rewrite T2.
    assert (Hti : task_id t <> id) by exact (H1 t (lookup_In _ _ _ Hk)). split; cbn [c_tasks c_heap].
    + intros u Hu. apply In_insert in Hu as [->|Hu]; [congruence|exact (H1 u Hu)].
    + intros h x Hx. destruct (T3 h x Hx) as [(y & Hy & E)|(_ & E & _)]; [rewrite E; exact (H2 h y Hy)|congruence].
  - destruct (c_heap s !! h) as [x|]; [|split; assumption]. destruct (c_timers s !! h) as [[due| |]|]; try (split; assumption).
    cbn [timer_step]. destruct (c_clock s <? due); split; assumption.
  - split; assumption.
Qed.

Definition timers_match (s : receiving_state) : Prop := length (c_timers s) = length (c_heap s).
Lemma timers_match_step : forall timeout s e, timers_match s -> timers_match (receiving_step P timeout s e).
Proof.
  intros timeout s e H. unfold timers_match in *. destruct e as [hash tot offset data|k|h|ms]; cbn [receiving_step].
  - exact H.
  - destruct (c_tasks s !! k) as [t|]; [|exact H].
    pose proof (task_step_shape P timeout s t) as HT. destruct (task_step P timeout s t) as [s' t'].
    destruct HT as (_ & _ & _ & T & _). exact (T H).
  - destruct (c_heap s !! h) as [x|]; [|exact H]. destruct (c_timers s !! h) as [[due| |]|]; try exact H; cbn [timer_step].
    + destruct (c_clock s <? due); [exact H|]. cbn [c_timers c_heap]. rewrite insert_length. exact H.
    + cbn [c_timers c_heap]. rewrite insert_length. exact H.
  - exact H.
Qed.

(** While the parts of this id come in. *)
Definition in_time (limit : N) (s : receiving_state) : Prop :=
  forall h x, c_heap s !! h = Some x -> x_hash x = id ->
    exists due, c_timers s !! h = Some (Sleeping due) /\ limit <= due.

Lemma good_step : forall timeout start s cl e,
  sane_state P s -> timers_match s -> in_time (start + timeout * 1000) s ->
  good (c_table s) (c_heap s) (c_tasks s) cl ->
  start <= c_clock s -> c_clock s < start + timeout * 1000 ->
  (forall p, In p (came [e]) -> pt_hash p = id -> In p cut) ->
  let s' := receiving_step P timeout s e in
  good (c_table s') (c_heap s') (c_tasks s') (cl ++ came [e])
  /\ in_time (start + timeout * 1000) s' /\ c_clock s' = c_clock s + passed [e].
Proof.
  intros timeout start s cl e HS HM HI HG Hc1 Hc2 He. cbv zeta. destruct e as [hash tot offset data|k|h|ms]; cbn [receiving_step].
  - split; [|split; [exact HI|cbn [passed fold_right]; cbn [c_clock]; lia]].
    exact (good_came _ _ _ _ (mk_part hash tot offset data) HG (He _ (or_introl eq_refl))).
  - cbn [came flat_map passed fold_right]. rewrite app_nil_r, N.add_0_r.
    destruct (c_tasks s !! k) as [t|] eqn:Hk; [|split; [exact HG|split; [exact HI|reflexivity]]].
    pose proof (good_task_step timeout s cl k t HS HG Hk) as HT.
    pose proof (task_step_shape P timeout s t) as HT2. 
    assert (Htm : forall h x, c_heap (fst (task_step P timeout s t)) !! h = Some x -> x_hash x = id ->
       exists due, c_timers (fst (task_step P timeout s t)) !! h = Some (Sleeping due) /\ start + timeout * 1000 <= due).
    { intros h x Hx Hxi. destruct (task_step P timeout s t) as [s' t'] eqn:E. cbn [fst] in *.
      destruct HT2 as (_ & _ & _ & _ & T3). destruct (T3 h x Hx) as [(y & Hy & E1)|(E1 & E2 & E3)].
      - destruct (HI h y Hy) as (due & D1 & D2); [congruence|]. exists due. split; [|exact D2].
        clear -E D1. destruct t as [hash tot offset data|h0 hash offset data|h0 hash offset data|h0 hash offset size|h0 hash offset|h0 hash received buffer|h0 hash o|h0 hash o]; cbn [task_step] in E.
        + destruct (c_table s !! hash); injection E as <- _; [exact D1|]. apply lookup_app_l_Some. exact D1.
        + destruct (c_heap s !! h0); injection E as <- _; exact D1.
        + destruct (c_heap s !! h0); injection E as <- _; exact D1.
        + injection E as <- _. exact D1.
        + destruct (c_heap s !! h0) as [y|]; [destruct (x_received y ?= x_total y)|]; injection E as <- _; exact D1.
        + destruct (c_heap s !! h0); injection E as <- _; exact D1.
        + injection E as <- _. exact D1.
        + injection E as <- _. exact D1.
      - rewrite E3. exists (c_clock s + timeout * 1000). split; [|lia]. subst h. unfold timers_match in HM. rewrite <- HM.
        apply list_lookup_middle. reflexivity. }
    destruct (task_step P timeout s t) as [s' t']. cbn [fst] in Htm. destruct HT2 as (_ & _ & T3 & _).
    cbn [c_table c_heap c_tasks c_clock]. split; [exact HT|]. split; [|exact T3].
    intros h x Hx Hxi. exact (Htm h x Hx Hxi).
  - cbn [came flat_map passed fold_right]. rewrite app_nil_r, N.add_0_r.
    destruct (c_heap s !! h) as [x|] eqn:Hx; [|split; [exact HG|split; [exact HI|reflexivity]]].
    destruct (c_timers s !! h) as [tm|] eqn:Ht; [|split; [exact HG|split; [exact HI|reflexivity]]].
    destruct (decide (x_hash x = id)) as [Hi|Hi].
    + destruct (HI h x Hx Hi) as (due & D1 & D2). assert (tm = Sleeping due) by congruence. subst tm. cbn [timer_step].
      replace (c_clock s <? due) with true by lia. split; [exact HG|split; [exact HI|reflexivity]].
    + assert (HI' : forall tm', in_time (start + timeout * 1000)
         (mk_receiving (c_table s) (c_heap s) (c_clock s) (c_tasks s) (<[h:=tm']> (c_timers s)))).
      { intros tm' h' y Hy Hyi. destruct (HI h' y Hy Hyi) as (due & D1 & D2). exists due. split; [|exact D2].
        cbn [c_timers]. rewrite list_lookup_insert_ne; [exact D1|]. intros ->. cbn [c_heap] in Hy. congruence. }
      destruct tm as [due| |]; cbn [timer_step].
      * destruct (c_clock s <? due); [split; [exact HG|split; [exact HI|reflexivity]]|].
        cbn [c_table c_heap c_tasks c_clock]. split; [exact HG|]. split; [exact (HI' _)|reflexivity].
      * cbn [c_table c_heap c_tasks c_clock]. split; [|split; [exact (HI' _)|reflexivity]].
        destruct HG as [G1 G2 G3 G4 G5 G6]. split; try assumption.
        destruct G4 as [G4|G4]; [left; exact G4|right]. intros h' y Hy Hyi. rewrite lookup_delete_ne by congruence. exact (G4 h' y Hy Hyi).
      * split; [exact HG|split; [exact HI|reflexivity]].
  - cbn [came flat_map passed fold_right]. rewrite app_nil_r. split; [exact HG|]. split; [exact HI|]. cbn [c_clock]. lia.
Qed.

Lemma came_app : forall l1 l2, came (l1 ++ l2) = came l1 ++ came l2.
Proof. intros. unfold came. apply flat_map_app. Qed.

Lemma good_run : forall timeout start l s cl,
  sane_state P s -> timers_match s -> in_time (start + timeout * 1000) s ->
  good (c_table s) (c_heap s) (c_tasks s) cl ->
  start <= c_clock s -> c_clock s + passed l < start + timeout * 1000 ->
  (forall p, In p (came l) -> pt_hash p = id -> In p cut) ->
  let s' := receiving_run P timeout s l in
  good (c_table s') (c_heap s') (c_tasks s') (cl ++ came l) /\ sane_state P s'.
Proof.
  intros timeout start l. induction l as [|e l IH]; intros s cl HS HM HI HG Hc1 Hc2 He.
  - cbn [receiving_run fold_left came flat_map]. rewrite app_nil_r. split; assumption.
  - change (e :: l) with ([e] ++ l) in He, Hc2 |- *. rewrite came_app in *.
    assert (Hp : passed ([e] ++ l) = passed [e] + passed l).
    { destruct e; cbn [app passed fold_right]; unfold passed; lia. }
    rewrite Hp in Hc2.
    destruct (good_step timeout start s cl e HS HM HI HG Hc1) as (S1 & S2 & S3).
    { lia. }
    { intros p Hp2. apply He. apply in_app_iff. left. exact Hp2. }
    rewrite app_assoc.
    change (receiving_run P timeout s ([e] ++ l)) with (receiving_run P timeout (receiving_step P timeout s e) l).
    apply IH.
    + now apply sane_step.
    + now apply timers_match_step.
    + exact S2.
    + exact S1.
    + lia.
    + lia.
    + intros p Hp2. apply He. apply in_app_iff. right. exact Hp2.
Qed.

Lemma clean_run : forall timeout l s, clean s -> timers_match s ->
  (forall p, In p (came l) -> pt_hash p <> id) ->
  clean (receiving_run P timeout s l) /\ timers_match (receiving_run P timeout s l).
Proof.
  intros timeout l. induction l as [|e l IH]; intros s HC HM He; [split; assumption|].
  change (e :: l) with ([e] ++ l) in He |- *. rewrite came_app in He.
  change (receiving_run P timeout s ([e] ++ l)) with (receiving_run P timeout (receiving_step P timeout s e) l).
  apply IH.
  - apply clean_step; [exact HC|]. intros p Hp. apply He. apply in_app_iff. left. exact Hp.
  - now apply timers_match_step.
  - intros p Hp. apply He. apply in_app_iff. right. exact Hp.
Qed.

Lemma clean_good : forall s, clean s -> good (c_table s) (c_heap s) (c_tasks s) [].
Proof.
  intros s [H1 H2]. split.
  - intros h x Hx Hi. exfalso. exact (H2 h x Hx Hi).
  - intros t Ht Hi. exfalso. exact (H1 t Ht Hi).
  - intros h x Hx Hi. exfalso. exact (H2 h x Hx Hi).
  - right. intros h x Hx Hi. exfalso. exact (H2 h x Hx Hi).
  - intros p [].
  - intros o. rewrite !sum_zero; [cbn; lia| |].
    + intros t Ht. apply other_brings. exact (H1 t Ht).
    + intros x Hx. unfold has. apply elem_of_list_In, elem_of_list_lookup in Hx as [h Hx].
      pose proof (H2 h x Hx) as Hn. apply bytes_eqb_neq in Hn. now rewrite Hn.
Qed.

(** ** The end of the run *)

Definition delivers (t : task) : N := match t with Ended _ i (Whole _) => if bytes_eqb i id then 1 else 0 | _ => 0 end.

Lemma messages_count : forall s, N.of_nat (length (messages id s)) = sum delivers (c_tasks s).
Proof.
  intros s. unfold messages, results. induction (c_tasks s) as [|t l IH]; [reflexivity|]. cbn [flat_map sum].
  rewrite flat_map_app, app_length, Nat2N.inj_add, IH. f_equal.
  destruct t as [| | | | | | |h i o]; try reflexivity. cbn [delivers]. destruct (bytes_eqb i id).
  - destruct o; reflexivity.
  - destruct o; reflexivity.
Qed.

(** Sum over the transfers of this id of the tasks that won. *)
Fixpoint winners (heap : list shared_transfer) (h : nat) (tasks : list task) : N :=
  match heap with
  | [] => 0
  | x :: r => (if bytes_eqb (x_hash x) id then sum (wins h) tasks else 0) + winners r (S h) tasks
  end.

Lemma winners_cons : forall t tasks heap h0, winners heap h0 (t :: tasks) =
  winners heap h0 tasks + winners heap h0 [t].
Proof.
  intros t tasks heap. induction heap as [|x r IH]; intros h0; [reflexivity|]. cbn [winners]. rewrite IH.
  destruct (bytes_eqb (x_hash x) id); cbn [sum]; lia.
Qed.
Lemma winners_one : forall t heap h0 h x, heap !! h = Some x -> x_hash x = id -> won_by t = true ->
  task_handle t = Some (h0 + h)%nat -> 1 <= winners heap h0 [t].
Proof.
  intros t heap. induction heap as [|y r IH]; intros h0 h x Hx Hi Hw Hh; [discriminate Hx|]. cbn [winners].
  destruct h as [|h].
  - injection Hx as ->. rewrite Hi, bytes_eqb_refl. cbn [sum]. unfold wins. rewrite Hw, Hh, bool_decide_true; [cbn; lia|].
    f_equal. lia.
  - cbn in Hx. specialize (IH (S h0) h x Hx Hi Hw). rewrite Hh in IH. specialize (IH ltac:(f_equal; lia)). lia.
Qed.

Lemma delivered_winners : forall table heap all tasks, sane P table heap all -> (forall t, In t tasks -> In t all) ->
  sum delivers tasks <= winners heap 0 tasks.
Proof.
  intros table heap all tasks HS. induction tasks as [|t l IH]; intros Hall.
  - cbn [sum]. lia.
  - rewrite winners_cons. cbn [sum]. assert (Hl : sum delivers l <= winners heap 0 l) by (apply IH; intros u Hu; apply Hall; now right).
    assert (Ht : delivers t <= winners heap 0 [t]); [|lia].
    destruct t as [| | | | | | |h i o]; try (cbn [delivers]; lia). destruct o as [|m|e|]; try (cbn [delivers]; lia).
    cbn [delivers]. destruct (bytes_eqb i id) eqn:E; [|lia]. apply bytes_eqb_eq in E. subst i.
    destruct (sn_tasks _ _ _ _ HS (Ended h id (Whole m)) h (Hall _ (or_introl eq_refl)) eq_refl) as (x & Hx & Hxi).
    exact (winners_one (Ended h id (Whole m)) heap 0 h x Hx Hxi eq_refl eq_refl).
Qed.

Lemma winners_have : forall table all tasks cl p, good table all tasks cl -> sane P table all tasks -> In p cut ->
  forall heap h0, (forall h x, heap !! h = Some x -> all !! (h0 + h)%nat = Some x) ->
  winners heap h0 tasks <= sum (has (pt_offset p)) heap.
Proof.
  intros table all tasks cl p HG HS Hp heap. induction heap as [|x r IH]; intros h0 Hall; [cbn [winners sum]; lia|].
  cbn [winners sum].
  assert (Hr : winners r (S h0) tasks <= sum (has (pt_offset p)) r).
  { apply IH. intros h y Hy. rewrite Nat.add_succ_comm. apply Hall. exact Hy. }
  assert (Hx : all !! h0 = Some x) by (specialize (Hall 0%nat x eq_refl); now rewrite Nat.add_0_r in Hall).
  assert (Hz : (if bytes_eqb (x_hash x) id then sum (wins h0) tasks else 0) <= has (pt_offset p) x); [|lia].
  unfold has. destruct (bytes_eqb (x_hash x) id) eqn:E; [|cbn; lia]. apply bytes_eqb_eq in E. cbn [andb].
  destruct (gd_shape _ _ _ _ HG h0 x Hx E) as [Ht _].
  destruct (sn_wins _ _ _ _ HS h0 x Hx) as [Hw _]; [rewrite Ht; exact total_pos|].
  destruct (gd_trans _ _ _ _ HG h0 x Hx E) as [([W _] & _)|(_ & W & _)]; [|lia].
  rewrite bool_decide_true; [exact Hw|]. destruct (x_parts x !! pt_offset p) eqn:Ep; [eexists; reflexivity|].
  pose proof (held_missing x p Hp Ep). lia.
Qed.

Lemma times_came_offset : forall p l, In p cut -> (forall q, In q (came l) -> pt_hash q = id -> In q cut) ->
  length (List.filter (fun q => bytes_eqb (pt_hash q) id && (pt_offset q =? pt_offset p)) (came l)) = times_came p l.
Proof.
  intros p l Hp Hl. unfold times_came. f_equal.
  induction (came l) as [|q r IH]; [reflexivity|]. cbn [List.filter].
  assert (Hr : forall q, In q r -> pt_hash q = id -> In q cut) by (intros q' Hq'; apply Hl; now right).
  rewrite (IH Hr). assert (Eq : bytes_eqb (pt_hash q) id && (pt_offset q =? pt_offset p) = same_part p q).
  { destruct (bytes_eqb (pt_hash q) id) eqn:E1.
    - apply bytes_eqb_eq in E1. pose proof (Hl q (or_introl eq_refl) E1) as Hq. cbn [andb].
      destruct (N.eqb_spec (pt_offset q) (pt_offset p)) as [E2|E2].
      + assert (q = p) by exact (cut_unique _ _ _ _ _ _ Hne Hq Hp E2). subst q. unfold same_part.
        now rewrite !bytes_eqb_refl, !N.eqb_refl.
      + unfold same_part. replace (pt_offset p =? pt_offset q) with false by lia. now rewrite andb_false_r.
    - cbn [andb]. unfold same_part. pose proof (cut_offset_ge _ _ _ _ _ Hp) as (_ & Ep & _). rewrite Ep.
      replace (bytes_eqb id (pt_hash q)) with false; [reflexivity|]. symmetry. apply bytes_eqb_neq.
      apply bytes_eqb_neq in E1. congruence. }
  rewrite Eq. reflexivity.
Qed.

Lemma reassembled_from : forall timeout s1 during,
  sane_state P s1 -> timers_match s1 -> clean s1 ->
  (forall p, In p (came during) -> pt_hash p = id -> In p cut) ->
  (forall p, In p cut -> In p (came during)) ->
  passed during < timeout * 1000 ->
  let s := receiving_run P timeout s1 during in
  all_ended id s ->
  messages id s <> []
  /\ (forall p, In p cut -> (length (messages id s) <= times_came p during)%nat)
  /\ (forall o, In o (results id s) -> o = Whole (concat pieces) \/ o = Failed ReceivedTooMuch \/ o = Pending).
Proof.
  intros timeout s1 during HS1 HM HC Hd Hall Hp s Hend.
  destruct (good_run timeout (c_clock s1) during s1 [] HS1 HM) as [HG HS].
  { intros h x Hx Hi. exfalso. exact (proj2 HC h x Hx Hi). }
  { exact (clean_good s1 HC). }
  { lia. }
  { lia. }
  { exact Hd. }
  cbn [app] in HG.
  fold s in HG, HS.
  assert (Hres : forall o, In o (results id s) -> o = Whole (concat pieces) \/ o = Failed ReceivedTooMuch \/ o = Pending).
  { intros o Ho. apply result_task in Ho as [h Ho]. exact (gd_tasks _ _ _ _ HG _ Ho eq_refl). }
  assert (Hquiet : forall o, sum (brings o) (c_tasks s) = 0).
  { intros o. apply sum_zero. intros t Ht. destruct (decide (task_id t = id)) as [E|E]; [|apply other_brings; exact E].
    destruct (Hend t Ht E) as (h & r & ->). reflexivity. }
  (* some transfer was won *)
  assert (Hwon : exists h, won_handle (c_heap s) h).
  { destruct (gd_table _ _ _ _ HG) as [H|Hone]; [exact H|].
    assert (Hhas : forall p, In p cut -> exists h x, c_heap s !! h = Some x /\ x_hash x = id /\ is_Some (x_parts x !! pt_offset p)).
    { intros p Hpc. pose proof (gd_cover _ _ _ _ HG p (Hall p Hpc)) as Hc.
      pose proof (cut_offset_ge _ _ _ _ _ Hpc) as (_ & Ep & _). specialize (Hc Ep). rewrite Hquiet in Hc.
      destruct (sum_nonzero (has (pt_offset p)) (c_heap s)) as (x & Hx & Hh); [lia|].
      apply elem_of_list_In, elem_of_list_lookup in Hx as [h Hx]. exists h, x. split; [exact Hx|].
      unfold has in Hh. destruct (bytes_eqb (x_hash x) id) eqn:E; [|cbn in Hh; lia]. apply bytes_eqb_eq in E.
      split; [exact E|]. cbn [andb] in Hh. destruct (bool_decide (is_Some (x_parts x !! pt_offset p))) eqn:Eb; [|lia].
      exact (bool_decide_eq_true_1 _ Eb). }
    assert (Hone' : forall h x h' x', c_heap s !! h = Some x -> x_hash x = id -> c_heap s !! h' = Some x' -> x_hash x' = id -> h = h').
    { intros h x h' x' H1 H2 H3 H4. pose proof (Hone h x H1 H2). pose proof (Hone h' x' H3 H4). congruence. }
    assert (Hfirst : exists p, In p cut).
    { exact (cut_inhabited id total 0 pieces Hsome). }
    destruct Hfirst as [p0 Hp0]. destruct (Hhas p0 Hp0) as (h & x & Hx & Hi & _).
    assert (Hheld : held x = total).
    { unfold held. apply got_all. intros p Hpc. apply bool_decide_true. destruct (Hhas p Hpc) as (h' & x' & Hx' & Hi' & Hs).
      assert (h' = h) by exact (Hone' h' x' h x Hx' Hi' Hx Hi). subst h'. assert (x' = x) by congruence. subst x'. exact Hs. }
    assert (Hadds : sum (adds h) (c_tasks s) = 0).
    { apply sum_zero. intros t Ht. destruct (decide (task_id t = id)) as [E|E].
      - destruct (Hend t Ht E) as (h' & r & ->). reflexivity.
      - apply handle_adds. exact (other_task _ _ _ _ _ _ HS Ht E Hx Hi). }
    destruct (gd_trans _ _ _ _ HG h x Hx Hi) as [(W & _)|(W1 & W2 & W3)].
    - exists h, x. split; [exact Hx|]. split; [exact Hi|exact W].
    - exfalso. destruct W3 as [o Ho]; [lia|]. destruct (Hend _ Ho eq_refl) as (h' & r & E). discriminate E. }
  destruct Hwon as (h & x & Hx & Hi & Hw).
  split; [|split; [|exact Hres]].
  - destruct (gd_trans _ _ _ _ HG h x Hx Hi) as [(_ & _ & W)|(W1 & _)].
    + apply sum_nonzero in W as (t & Ht & Hwt). unfold wins in Hwt.
      destruct (won_by t) eqn:Ew; [|cbn in Hwt; lia]. cbn [andb] in Hwt.
      destruct (bool_decide (task_handle t = Some h)) eqn:Eh; [|lia]. apply bool_decide_eq_true_1 in Eh.
      destruct (sn_tasks _ _ _ _ HS t h Ht Eh) as (x2 & Hx2 & Hti). assert (x2 = x) by congruence. subst x2.
      assert (Etid : task_id t = id) by congruence.
      destruct (Hend t Ht Etid) as (h' & r & ->). pose proof (gd_tasks _ _ _ _ HG _ Ht eq_refl) as Hg. cbn [task_good] in Hg.
      destruct Hg as [->|[->| ->]]; [|discriminate Ew|discriminate Ew].
      intros E. pose proof (messages_count s) as Hm. rewrite E in Hm. cbn [length] in Hm.
      pose proof (sum_in delivers (c_tasks s) _ Ht) as Hin. cbn [delivers] in Hin. rewrite bytes_eqb_refl in Hin. lia.
    + pose proof (held_le x). destruct Hw as [Hw1 Hw2]. pose proof total_pos. lia.
  - intros p Hpc. pose proof (messages_count s) as Hm.
    pose proof (delivered_winners _ _ _ (c_tasks s) HS (fun t H => H)) as H1.
    pose proof (winners_have _ _ _ _ p HG HS Hpc (c_heap s) 0 (fun h x H => H)) as H2.
    pose proof (gd_count _ _ _ _ HG (pt_offset p)) as H3. rewrite (times_came_offset p during Hpc Hd) in H3. lia.
Qed.

Lemma reassembled_concurrently : forall timeout clock before during,
  (forall p, In p (came before) -> pt_hash p <> id) ->
  (forall p, In p (came during) -> pt_hash p = id -> In p cut) ->
  (forall p, In p cut -> In p (came during)) ->
  passed during < timeout * 1000 ->
  let s := receiving_run P timeout (receiving_new clock) (before ++ during) in
  all_ended id s ->
  messages id s <> []
  /\ (forall p, In p cut -> (length (messages id s) <= times_came p during)%nat)
  /\ (forall o, In o (results id s) -> o = Whole (concat pieces) \/ o = Failed ReceivedTooMuch \/ o = Pending).
Proof.
  intros timeout clock before during Hb Hd Hall Hp s Hend.
  assert (HC0 : clean (receiving_new clock)).
  { split; [intros t []|]. intros h x Hx. discriminate Hx. }
  destruct (clean_run timeout before (receiving_new clock) HC0 eq_refl Hb) as [HC HM].
  set (s1 := receiving_run P timeout (receiving_new clock) before) in *.
  assert (HS1 : sane_state P s1) by apply sane_run, sane_new.
  assert (Es : s = receiving_run P timeout s1 during) by apply run_app. rewrite Es in *.
  exact (reassembled_from timeout s1 during HS1 HM HC Hd Hall Hp Hend).
Qed.
End Honest.
