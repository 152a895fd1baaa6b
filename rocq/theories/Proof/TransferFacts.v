From stdpp Require Import gmap.
From Coq Require Import NArith ZArith Lia.
From Coq Require Import ZifyBool ZifyNat ZifyN.
From Verif.Base Require Import Bytes BytesFacts.
From Verif.Model Require Import Crypto Tl ProtoAdnl Transfer.
From Verif.Spec Require Import TransferSpec.
Open Scope N_scope.

Lemma len_app : forall a b, len (a ++ b) = len a + len b.
Proof. intros. unfold len. rewrite app_length. lia. Qed.

(** Everything about one transfer. *)
Lemma add_part_total : forall P fuel t o d i, t_total (snd (add_part P fuel t o d i)) = t_total t.
Proof.
  intros. unfold add_part. destruct (t_parts t !! o); [reflexivity|].
  cbv zeta. destruct (_ ?= _); try reflexivity. destruct (combine _ _ _ _ _); try reflexivity.
  destruct (bytes_eqb _ _); reflexivity.
Qed.

Lemma add_part_whole : forall P fuel t o d i m t',
  add_part P fuel t o d i = (Whole m, t') -> sha256 P m = i.
Proof.
  intros P fuel t o d i m t' H. unfold add_part in H. destruct (t_parts t !! o); [discriminate|].
  cbv zeta in H. destruct (_ ?= _); try discriminate. destruct (combine _ _ _ _ _); try discriminate.
  destruct (bytes_eqb _ _) eqn:E; [|discriminate]. apply bytes_eqb_eq in E. now injection H as <- <-.
Qed.

Lemma process_part_whole : forall P fuel ts h total o d m ts',
  process_part P fuel ts h total o d = (Whole m, ts') -> sha256 P m = h.
Proof.
  intros P fuel ts h total o d m ts' H. unfold process_part in H.
  destruct (add_part P fuel _ o d h) as [r t'] eqn:E.
  destruct r; try discriminate. injection H as <- <-. eapply add_part_whole, E.
Qed.

Lemma whole_is_authentic : forall P fuel ts l p m,
  In (p, Whole m) (outcomes P fuel ts l) -> sha256 P m = pt_hash p.
Proof.
  intros P fuel ts l p m. unfold outcomes. revert ts. induction l as [|q l IH]; intros ts H; [destruct H|].
  cbn [arrive] in H.
  destruct (process_part P fuel ts _ _ _ _) as [o ts'] eqn:E.
  specialize (IH ts'). destruct (arrive P fuel ts' l) as [os ts''] eqn:E2. cbn [fst] in *.
  destruct H as [H|H]; [|auto]. injection H as -> ->. eapply process_part_whole, E.
Qed.

(** Sum of the lengths of the pieces whose offset satisfies [f]. *)
Fixpoint got (f : N -> bool) (l : list part) : N :=
  match l with
  | [] => 0
  | p :: r => (if f (pt_offset p) then len (pt_data p) else 0) + got f r
  end.

Lemma cut_offset_ge : forall h t pieces off p, In p (cut_from h t off pieces) ->
  off <= pt_offset p /\ pt_hash p = h /\ pt_total p = t.
Proof.
  induction pieces as [|d r IH]; intros off p H; [destruct H|]. cbn [cut_from In] in H.
  destruct H as [<-|H]; [cbn; repeat split; lia|]. apply IH in H as (H1 & H2 & H3).
  repeat split; try assumption. lia.
Qed.

Lemma cut_unique : forall h t pieces off p q, Forall (fun d => d <> []) pieces ->
  In p (cut_from h t off pieces) -> In q (cut_from h t off pieces) -> pt_offset p = pt_offset q -> p = q.
Proof.
  induction pieces as [|d r IH]; intros off p q Hne Hp Hq E; [destruct Hp|].
  inversion Hne as [|? ? Hd Hr]; subst. cbn [cut_from In] in *.
  assert (Hd' : 0 < N.of_nat (length d)) by (destruct d; [congruence|cbn [length]; lia]).
  destruct Hp as [<-|Hp], Hq as [<-|Hq]; try reflexivity.
  - apply cut_offset_ge in Hq as [? _]. cbn [pt_offset] in E. lia.
  - apply cut_offset_ge in Hp as [? _]. cbn [pt_offset] in E. lia.
  - eapply IH; eassumption.
Qed.

Lemma cut_nonempty : forall h t pieces off p, Forall (fun d => d <> []) pieces ->
  In p (cut_from h t off pieces) -> pt_data p <> [].
Proof.
  induction pieces as [|d r IH]; intros off p Hne Hp; [destruct Hp|].
  inversion Hne; subst. destruct Hp as [<-|Hp]; [assumption|]. eapply IH; eassumption.
Qed.

Lemma got_all : forall h t pieces off f,
  (forall p, In p (cut_from h t off pieces) -> f (pt_offset p) = true) ->
  got f (cut_from h t off pieces) = len (concat pieces).
Proof.
  induction pieces as [|d r IH]; intros off f H; [reflexivity|]. cbn [cut_from got concat] in *.
  rewrite len_app, IH by (intros p Hp; apply H; now right).
  rewrite (H (mk_part h t off d)) by now left. reflexivity.
Qed.

Lemma got_ext : forall l f g, (forall p, In p l -> f (pt_offset p) = g (pt_offset p)) -> got f l = got g l.
Proof.
  induction l as [|p l IH]; intros f g H; [reflexivity|]. cbn [got].
  rewrite (H p) by now left. rewrite (IH f g); [reflexivity|]. intros q Hq. apply H. now right.
Qed.

Lemma got_add : forall h t pieces off f p, Forall (fun d => d <> []) pieces ->
  In p (cut_from h t off pieces) -> f (pt_offset p) = false ->
  got (fun o => (o =? pt_offset p) || f o) (cut_from h t off pieces)
  = got f (cut_from h t off pieces) + len (pt_data p).
Proof.
  induction pieces as [|d r IH]; intros off f p Hne Hp Hf; [destruct Hp|].
  inversion Hne as [|? ? Hd Hr]; subst. cbn [cut_from got] in *. cbn [pt_offset pt_data].
  assert (Hd' : 0 < N.of_nat (length d)) by (destruct d; [congruence|cbn [length]; lia]).
  destruct Hp as [<-|Hp].
  - cbn [pt_offset pt_data] in *. rewrite N.eqb_refl, Hf. cbn [orb].
    rewrite (got_ext _ (fun o => (o =? off) || f o) f); [lia|].
    intros q Hq. apply cut_offset_ge in Hq as [Hq _]. replace (pt_offset q =? off) with false by lia. reflexivity.
  - rewrite IH by assumption. pose proof (cut_offset_ge _ _ _ _ _ Hp) as [Hq _].
    replace (off =? pt_offset p) with false by lia. cbn [orb]. destruct (f off); lia.
Qed.

Lemma combine_cut : forall h t pieces off parts acc fuel total,
  Forall (fun d => d <> []) pieces ->
  (forall p, In p (cut_from h t off pieces) -> parts !! pt_offset p = Some (pt_data p)) ->
  total = off + len (concat pieces) -> (length pieces <= fuel)%nat ->
  combine fuel parts total off acc = CDone (acc ++ concat pieces).
Proof.
  induction pieces as [|d r IH]; intros off parts acc fuel total Hne Hin Ht Hf.
  - cbn [concat] in *. unfold len in Ht. cbn [length] in Ht.
    destruct fuel; cbn [combine]; (replace (off <? total) with false by lia); now rewrite app_nil_r.
  - inversion Hne as [|? ? Hd Hr]; subst.
    assert (Hd' : 0 < len d) by (unfold len; destruct d; [congruence|cbn [length]; lia]).
    cbn [length] in Hf. destruct fuel as [|fuel]; [lia|]. cbn [combine concat].
    rewrite len_app. replace (off <? off + (len d + len (concat r))) with true by lia.
    pose proof (Hin (mk_part h t off d) (or_introl eq_refl)) as Hd0. cbn [pt_offset pt_data] in Hd0.
    rewrite Hd0.
    rewrite IH; [now rewrite app_assoc | assumption | | lia | lia].
    intros p Hp. apply Hin. right. exact Hp.
Qed.

(** Invariant of an honest transfer. *)
Record honest (pieces : list bytes) (h : bytes) (total : N) (t : transfer) : Prop := mk_honest
  { hon_total : t_total t = total;
    hon_parts : forall o d, t_parts t !! o = Some d -> In (mk_part h total o d) (cut_from h total 0 pieces);
    hon_received : t_received t = got (fun o => bool_decide (is_Some (t_parts t !! o))) (cut_from h total 0 pieces) }.

Definition own (ts : transfers) (h : bytes) (total : N) : transfer :=
  match ts !! h with Some t => t | None => transfer_new total end.

Lemma own_insert : forall ts h total t, own (<[h:=t]> ts) h total = t.
Proof.
  intros. unfold own. replace (<[h:=t]> ts !! h) with (Some t); [reflexivity|]. symmetry. apply lookup_insert.
Qed.
Lemma own_insert_ne : forall ts h h' total t, h' <> h -> own (<[h':=t]> ts) h total = own ts h total.
Proof.
  intros. unfold own. replace (<[h':=t]> ts !! h) with (ts !! h); [reflexivity|].
  symmetry. apply lookup_insert_ne. assumption.
Qed.
Lemma own_delete_ne : forall ts h h' total, h' <> h -> own (delete h' ts) h total = own ts h total.
Proof.
  intros. unfold own. replace (delete h' ts !! h) with (ts !! h); [reflexivity|].
  symmetry. apply lookup_delete_ne. assumption.
Qed.

Lemma got_none : forall l f, (forall p, In p l -> f (pt_offset p) = false) -> got f l = 0.
Proof.
  induction l as [|p l IH]; intros f H; [reflexivity|]. cbn [got].
  rewrite (H p) by now left. rewrite IH; [reflexivity|]. intros q Hq. apply H. now right.
Qed.

Lemma honest_new : forall pieces h total, honest pieces h total (transfer_new total).
Proof.
  intros. split; [reflexivity| |].
  - intros o d H. cbn [transfer_new t_parts] in H. rewrite lookup_empty in H. discriminate.
  - cbn [transfer_new t_parts t_received]. symmetry. apply got_none. intros p _.
    rewrite bool_decide_eq_false, lookup_empty. apply is_Some_None.
Qed.

(** A duplicate changes nothing at all. *)
Lemma honest_duplicate : forall pieces h total t p fuel P i,
  Forall (fun d => d <> []) pieces ->
  honest pieces h total t -> In p (cut_from h total 0 pieces) -> is_Some (t_parts t !! pt_offset p) ->
  add_part P fuel t (pt_offset p) (pt_data p) i = (Pending, t).
Proof.
  intros pieces h total t p fuel P i Hne H Hp [d Hd]. unfold add_part. rewrite Hd. f_equal.
  destruct t as [parts received tot]. cbn [t_parts t_received t_total] in *. f_equal.
  apply insert_id. pose proof (hon_parts _ _ _ _ H _ _ Hd) as Hd'.
  rewrite Hd. f_equal. pose proof (cut_unique _ _ _ _ _ _ Hne Hp Hd' eq_refl) as E. now rewrite E.
Qed.

Lemma got_le : forall h t pieces off f, got f (cut_from h t off pieces) <= len (concat pieces).
Proof.
  induction pieces as [|d r IH]; intros off f; [cbn; lia|]. cbn [cut_from got concat].
  rewrite len_app. specialize (IH (off + N.of_nat (length d)) f). cbn [pt_offset pt_data].
  destruct (f off); lia.
Qed.

Lemma got_missing : forall h t pieces off f p, Forall (fun d => d <> []) pieces ->
  In p (cut_from h t off pieces) -> f (pt_offset p) = false ->
  got f (cut_from h t off pieces) < len (concat pieces).
Proof.
  intros h t pieces off f p Hne Hp Hf.
  pose proof (got_add h t pieces off f p Hne Hp Hf) as E.
  pose proof (got_le h t pieces off (fun o => (o =? pt_offset p) || f o)).
  pose proof (cut_nonempty _ _ _ _ _ Hne Hp) as Hd.
  assert (0 < len (pt_data p)) by (unfold len; destruct (pt_data p); [congruence|cbn [length]; lia]). lia.
Qed.

(** A new piece. *)
Lemma honest_step : forall P pieces h t p fuel,
  Forall (fun d => d <> []) pieces -> h = sha256 P (concat pieces) ->
  let total := len (concat pieces) in
  honest pieces h total t -> In p (cut_from h total 0 pieces) -> t_parts t !! pt_offset p = None ->
  (length pieces <= fuel)%nat ->
  (exists q, In q (cut_from h total 0 pieces) /\ q <> p /\ t_parts t !! pt_offset q = None)
    /\ fst (add_part P fuel t (pt_offset p) (pt_data p) h) = Pending
    /\ honest pieces h total (snd (add_part P fuel t (pt_offset p) (pt_data p) h))
    /\ t_parts (snd (add_part P fuel t (pt_offset p) (pt_data p) h)) = <[pt_offset p := pt_data p]> (t_parts t)
  \/ (forall q, In q (cut_from h total 0 pieces) -> q <> p -> is_Some (t_parts t !! pt_offset q))
    /\ fst (add_part P fuel t (pt_offset p) (pt_data p) h) = Whole (concat pieces).
Proof.
  intros P pieces h t p fuel Hne Hh total Hon Hp Hnew Hfuel.
  pose proof (hon_received _ _ _ _ Hon) as Hr. pose proof (hon_total _ _ _ _ Hon) as Ht.
  set (f := fun o => bool_decide (is_Some (t_parts t !! o))) in Hr.
  assert (Hfp : f (pt_offset p) = false).
  { unfold f. rewrite bool_decide_eq_false, Hnew. apply is_Some_None. }
  set (parts' := <[pt_offset p := pt_data p]> (t_parts t)).
  assert (Hgot' : t_received t + len (pt_data p)
    = got (fun o => bool_decide (is_Some (parts' !! o))) (cut_from h total 0 pieces)).
  { rewrite Hr, <- (got_add h total pieces 0 f p Hne Hp Hfp). apply got_ext. intros q Hq.
    unfold f, parts'. destruct (N.eqb_spec (pt_offset q) (pt_offset p)) as [->|Hneq].
    - rewrite lookup_insert. cbn [orb]. symmetry. rewrite bool_decide_eq_true. now eexists.
    - rewrite lookup_insert_ne by congruence. reflexivity. }
  assert (Hparts' : forall o d, parts' !! o = Some d -> In (mk_part h total o d) (cut_from h total 0 pieces)).
  { intros o d Ho. unfold parts' in Ho. apply lookup_insert_Some in Ho as [[<- <-]|[Hn Ho]].
    - pose proof (cut_offset_ge _ _ _ _ _ Hp) as (_ & E1 & E2). destruct p as [a b c e].
      cbn [pt_hash pt_total pt_offset pt_data] in *. now subst.
    - eapply hon_parts, Ho. exact Hon. }
  unfold add_part. rewrite Hnew. cbv zeta. fold parts'. rewrite Ht.
  destruct (decide (Forall (fun q => is_Some (parts' !! pt_offset q)) (cut_from h total 0 pieces))) as [Hall|Hmiss].
  - right. rewrite Forall_forall in Hall. split.
    { intros q Hq Hqp. destruct (Hall q) as [d Hd]; [now apply elem_of_list_In|]. unfold parts' in Hd.
      destruct (decide (pt_offset p = pt_offset q)) as [E|E].
      - exfalso. apply Hqp. symmetry. eapply cut_unique; eassumption.
      - rewrite lookup_insert_ne in Hd by assumption. exists d. exact Hd. }
    assert (Hsum : t_received t + len (pt_data p) = total).
    { rewrite Hgot'. apply got_all. intros q Hq. rewrite bool_decide_eq_true. apply Hall. now apply elem_of_list_In. }
    rewrite Hsum, N.compare_refl.
    rewrite (combine_cut h total pieces 0 parts' [] fuel total); try assumption.
    + cbn [app]. rewrite <- Hh, bytes_eqb_refl. reflexivity.
    + intros q Hq. destruct (Hall q) as [d Hd]; [now apply elem_of_list_In|].
      rewrite Hd. f_equal. apply Hparts' in Hd. pose proof (cut_unique _ _ _ _ _ _ Hne Hq Hd eq_refl) as E.
      now rewrite E.
    + unfold total. lia.
  - left. apply not_Forall_Exists in Hmiss; [|intros ?; apply _].
    apply Exists_exists in Hmiss as (q & Hq & Hqn). apply elem_of_list_In in Hq.
    assert (Hqnone : parts' !! pt_offset q = None).
    { destruct (parts' !! pt_offset q) eqn:E; [|reflexivity]. exfalso. apply Hqn. rewrite E. eexists; reflexivity. }
    assert (Hsum : t_received t + len (pt_data p) < total).
    { rewrite Hgot'. apply got_missing with q; try assumption.
      rewrite bool_decide_eq_false, Hqnone. apply is_Some_None. }
    replace (t_received t + len (pt_data p) ?= total) with Lt by (symmetry; apply N.compare_lt_iff; lia).
    replace (t_received t + len (pt_data p) =? total) with false by lia.
    split; [|split; [|split]].
    + exists q. split; [assumption|]. unfold parts' in Hqnone. split.
      * intros ->. rewrite lookup_insert in Hqnone. discriminate.
      * destruct (decide (pt_offset p = pt_offset q)) as [E|E].
        -- rewrite E, lookup_insert in Hqnone. discriminate.
        -- now rewrite lookup_insert_ne in Hqnone.
    + reflexivity.
    + cbn [snd]. split; [reflexivity|exact Hparts'|exact Hgot'].
    + reflexivity.
Qed.

Lemma parts_of_cut : forall P pieces,
  parts_of P pieces = cut_from (sha256 P (concat pieces)) (len (concat pieces)) 0 pieces.
Proof. reflexivity. Qed.

(** The state before the last piece. *)
Lemma before_last : forall P fuel pieces before ts,
  let h := sha256 P (concat pieces) in
  let total := len (concat pieces) in
  Forall (fun d => d <> []) pieces -> (length pieces <= fuel)%nat ->
  forall missing, In missing (cut_from h total 0 pieces) -> ~ In missing before ->
  (forall p, In p before -> pt_hash p = h -> In p (cut_from h total 0 pieces)) ->
  honest pieces h total (own ts h total) -> t_parts (own ts h total) !! pt_offset missing = None ->
  let ts' := snd (arrive P fuel ts before) in
  honest pieces h total (own ts' h total)
  /\ (forall o d, t_parts (own ts' h total) !! o = Some d <->
        t_parts (own ts h total) !! o = Some d \/ In (mk_part h total o d) before)
  /\ (forall p o, In (p, o) (fst (arrive P fuel ts before)) -> pt_hash p = h -> o = Pending).
Proof.
  intros P fuel pieces before ts h total Hne Hfuel missing Hm. revert ts.
  induction before as [|p before IH]; intros ts Hnin Hbef Hon Hmiss.
  - cbn [arrive snd fst]. split; [assumption|]. split; [|intros ? ? []]. intros o d. cbn [In]. tauto.
  - cbn [arrive]. unfold process_part.
    destruct (decide (pt_hash p = h)) as [Eh|Eh].
    + assert (Hp : In p (cut_from h total 0 pieces)) by (apply Hbef; [now left|assumption]).
      rewrite Eh.
      replace (match ts !! h with Some t => t | None => transfer_new (pt_total p) end) with (own ts h total).
      2:{ unfold own. destruct (ts !! h); [reflexivity|]. f_equal.
          now apply cut_offset_ge in Hp as (_ & _ & ->). }
      assert (Hpm : p <> missing) by (intros ->; apply Hnin; now left).
      assert (Hoff : pt_offset p <> pt_offset missing).
      { intros E. apply Hpm. eapply cut_unique; eassumption. }
      assert (Hstep : exists t', add_part P fuel (own ts h total) (pt_offset p) (pt_data p) h = (Pending, t')
         /\ honest pieces h total t'
         /\ forall o d, t_parts t' !! o = Some d <->
              t_parts (own ts h total) !! o = Some d \/ mk_part h total o d = p).
      { destruct (t_parts (own ts h total) !! pt_offset p) as [d0|] eqn:E0.
        - exists (own ts h total). split; [eapply honest_duplicate; try eassumption; exists d0; exact E0|].
          split; [assumption|]. intros o d. split; [now left|]. intros [H|<-]; [assumption|].
          cbn [pt_offset] in E0. rewrite E0. f_equal. apply (hon_parts _ _ _ _ Hon) in E0.
          pose proof (cut_unique _ _ _ _ _ _ Hne Hp E0 eq_refl) as E. injection E as ->. reflexivity.
        - destruct (honest_step P pieces h (own ts h total) p fuel Hne eq_refl Hon Hp E0 Hfuel)
            as [(_ & E1 & E2 & E3)|[Hall _]].
          + destruct (add_part P fuel (own ts h total) (pt_offset p) (pt_data p) h) as [o t'].
            cbn [fst snd] in *. subst o. exists t'. split; [reflexivity|]. split; [assumption|].
            intros o d. rewrite E3. rewrite lookup_insert_Some. split.
            * intros [[<- <-]|[Hn H]]; [right|now left].
              pose proof (cut_offset_ge _ _ _ _ _ Hp) as (_ & F1 & F2). destruct p as [a b c e].
              cbn [pt_hash pt_total pt_offset pt_data] in *. now subst.
            * intros [H|<-]; [|left; now split]. right. split; [|assumption]. intros <-. congruence.
          + exfalso. destruct (Hall missing Hm) as [x Hx]; [congruence|]. congruence. }
      destruct Hstep as (t' & E1 & E2 & E3). rewrite E1.
      assert (Hown : own (<[h:=t']> ts) h total = t') by apply own_insert.
      specialize (IH (<[h:=t']> ts)). rewrite Hown in IH.
      destruct (arrive P fuel (<[h:=t']> ts) before) as [os ts''] eqn:Ea. cbn [fst snd] in *.
      destruct IH as (I1 & I2 & I3).
      * intros H. apply Hnin. now right.
      * intros q Hq. apply Hbef. now right.
      * assumption.
      * destruct (t_parts t' !! pt_offset missing) as [x|] eqn:Ex; [|reflexivity]. exfalso.
        apply E3 in Ex as [Ex|Ex]; [congruence|]. apply Hoff. now rewrite <- Ex.
      * split; [assumption|]. split.
        -- intros o d. rewrite I2, E3. cbn [In]. intuition congruence.
        -- intros q o [H|H] Hq; [injection H as <- <-; reflexivity|]. eapply I3; eassumption.
    + destruct (add_part P fuel _ _ _ _) as [r t'] eqn:E1.
      set (ts1 := match r with Pending | Spinning => <[pt_hash p:=t']> ts | _ => delete (pt_hash p) ts end).
      assert (Hown : own ts1 h total = own ts h total).
      { unfold ts1. destruct r; first [apply own_insert_ne | apply own_delete_ne]; congruence. }
      replace (match r with Pending | Spinning => (r, <[pt_hash p:=t']> ts) | _ => (r, delete (pt_hash p) ts) end)
        with (r, ts1) by (unfold ts1; destruct r; reflexivity).
      specialize (IH ts1). rewrite Hown in IH.
      destruct (arrive P fuel ts1 before) as [os ts''] eqn:Ea. cbn [fst snd] in *.
      destruct IH as (I1 & I2 & I3); try assumption.
      * intros H. apply Hnin. now right.
      * intros q Hq. apply Hbef. now right.
      * split; [assumption|]. split.
        -- intros o d. rewrite I2. cbn [In]. split; [intuition|]. intros [H|[H|H]]; [now left| |now right].
           exfalso. apply Eh. now rewrite H.
        -- intros q o [H|H] Hq; [injection H as <- <-; congruence|]. eapply I3; eassumption.
Qed.

Lemma arrive_app : forall P fuel a b ts,
  arrive P fuel ts (a ++ b) =
  let '(oa, ts1) := arrive P fuel ts a in let '(ob, ts2) := arrive P fuel ts1 b in (oa ++ ob, ts2).
Proof.
  induction a as [|p a IH]; intros b ts; cbn [arrive app].
  - destruct (arrive P fuel ts b). reflexivity.
  - destruct (process_part P fuel ts _ _ _ _) as [o ts1]. rewrite IH.
    destruct (arrive P fuel ts1 a) as [oa ts2]. destruct (arrive P fuel ts2 b) as [ob ts3]. reflexivity.
Qed.

Lemma reassembled : forall P fuel ts pieces before last,
  Forall (fun d => d <> []) pieces -> (length pieces <= fuel)%nat ->
  ts !! sha256 P (message_of pieces) = None -> completes P pieces before last ->
  exists os, outcomes P fuel ts (before ++ [last]) = os ++ [(last, Whole (message_of pieces))]
    /\ (forall p o, In (p, o) os -> pt_hash p = sha256 P (message_of pieces) -> o = Pending)
    /\ snd (arrive P fuel ts (before ++ [last])) !! sha256 P (message_of pieces) = None.
Proof.
  intros P fuel ts pieces before last Hne Hfuel Hnone (H1 & H2 & H3).
  unfold message_of in *. rewrite parts_of_cut in *.
  set (h := sha256 P (concat pieces)) in *. set (total := len (concat pieces)) in *.
  assert (Hlast : In last (cut_from h total 0 pieces)) by (apply H3; now right).
  assert (Hown0 : own ts h total = transfer_new total) by (unfold own; now rewrite Hnone).
  destruct (before_last P fuel pieces before ts Hne Hfuel last Hlast H2 H1) as (I1 & I2 & I3).
  { fold h total. rewrite Hown0. apply honest_new. }
  { fold h total. rewrite Hown0. apply lookup_empty. }
  fold h in I1, I2, I3. fold total in I1, I2, I3.
  unfold outcomes. rewrite arrive_app. destruct (arrive P fuel ts before) as [os ts1] eqn:Ea.
  cbn [fst snd] in *. cbn [arrive]. unfold process_part.
  pose proof (cut_offset_ge _ _ _ _ _ Hlast) as (_ & Eh & Et). rewrite Eh, Et.
  change (match ts1 !! h with Some t => t | None => transfer_new total end) with (own ts1 h total).
  assert (Hnew : t_parts (own ts1 h total) !! pt_offset last = None).
  { destruct (t_parts (own ts1 h total) !! pt_offset last) as [d|] eqn:E; [|reflexivity]. exfalso.
    apply I2 in E as [E|E]; [rewrite Hown0 in E; cbn [transfer_new t_parts] in E; rewrite lookup_empty in E; discriminate|].
    apply H2. replace last with (mk_part h total (pt_offset last) d); [assumption|].
    assert (Hd : In (mk_part h total (pt_offset last) d) (cut_from h total 0 pieces)) by (apply H1; [assumption|reflexivity]).
    now apply (cut_unique _ _ _ _ _ _ Hne Hd Hlast). }
  destruct (honest_step P pieces h (own ts1 h total) last fuel Hne eq_refl I1 Hlast Hnew Hfuel)
    as [((q & Hq & Hql & Hqn) & _)|[_ Hw]].
  - exfalso. fold total in Hq. apply H3 in Hq as Hq'. destruct Hq' as [[Hqb Hqh]|]; [|congruence].
    pose proof (cut_offset_ge _ _ _ _ _ Hq) as (_ & F1 & F2).
    assert (Ex : t_parts (own ts1 h total) !! pt_offset q = Some (pt_data q)).
    { apply I2. right. destruct q as [a b c e]. cbn [pt_hash pt_total pt_offset pt_data] in *. now subst. }
    congruence.
  - destruct (add_part P fuel (own ts1 h total) (pt_offset last) (pt_data last) h) as [o t'].
    cbn [fst] in Hw. subst o. exists os. split; [reflexivity|]. split; [exact I3|].
    cbn [snd]. apply lookup_delete.
Qed.

(** Termination of the combining loop. *)
Lemma combine_terminates : forall fuel parts total received buffer,
  (forall o d, parts !! o = Some d -> d <> []) ->
  (N.to_nat (total - received) <= fuel)%nat ->
  combine fuel parts total received buffer <> CSpinning.
Proof.
  induction fuel as [|fuel IH]; intros parts total received buffer Hne Hf; cbn [combine].
  - destruct (N.ltb_spec received total); [lia|discriminate].
  - destruct (N.ltb_spec received total); [|discriminate].
    destruct (parts !! received) as [d|] eqn:E; [|discriminate].
    apply IH; [assumption|]. apply Hne in E. unfold len. destruct d; [congruence|]. cbn [length]. lia.
Qed.

Lemma add_part_terminates : forall P fuel t o d i,
  (forall o' d', t_parts t !! o' = Some d' -> d' <> []) -> d <> [] ->
  (N.to_nat (t_total t) <= fuel)%nat -> fst (add_part P fuel t o d i) <> Spinning.
Proof.
  intros P fuel t o d i Hne Hd Hf. unfold add_part. destruct (t_parts t !! o); [discriminate|].
  cbv zeta. destruct (_ ?= _); try discriminate.
  pose proof (combine_terminates fuel (<[o:=d]> (t_parts t)) (t_total t) 0 []) as H.
  destruct (combine _ _ _ _ _); try discriminate; [destruct (bytes_eqb _ _); discriminate|].
  exfalso. apply H; [|lia|reflexivity]. intros o' d' E.
  apply lookup_insert_Some in E as [[_ <-]|[_ E]]; [assumption|]. eapply Hne, E.
Qed.

Lemma add_part_nonempty : forall P fuel t o d i,
  (forall o' d', t_parts t !! o' = Some d' -> d' <> []) -> d <> [] ->
  forall o' d', t_parts (snd (add_part P fuel t o d i)) !! o' = Some d' -> d' <> [].
Proof.
  intros P fuel t o d i Hne Hd o' d'.
  assert (E : t_parts (snd (add_part P fuel t o d i)) = <[o:=d]> (t_parts t)).
  { unfold add_part. destruct (t_parts t !! o); [reflexivity|]. cbv zeta.
    destruct (_ ?= _); try reflexivity. destruct (combine _ _ _ _ _); try reflexivity.
    destruct (bytes_eqb _ _); reflexivity. }
  rewrite E. intros H. apply lookup_insert_Some in H as [[_ <-]|[_ H]]; [assumption|]. eapply Hne, H.
Qed.

(** With non-empty parts nothing ever spins. *)
Lemma nonempty_parts_terminate : forall P fuel l ts,
  Forall (fun p => pt_data p <> [] /\ (N.to_nat (pt_total p) <= fuel)%nat) l ->
  (forall h t, ts !! h = Some t -> (N.to_nat (t_total t) <= fuel)%nat
     /\ forall o d, t_parts t !! o = Some d -> d <> []) ->
  forall p o, In (p, o) (outcomes P fuel ts l) -> o <> Spinning.
Proof.
  intros P fuel l. unfold outcomes. induction l as [|q l IH]; intros ts Hl Hts p o Hin; [destruct Hin|].
  inversion Hl as [|? ? [Hq1 Hq2] Hl']; subst. cbn [arrive] in Hin. unfold process_part in Hin.
  set (t := match ts !! pt_hash q with Some t => t | None => transfer_new (pt_total q) end) in *.
  assert (Ht : (N.to_nat (t_total t) <= fuel)%nat /\ forall o d, t_parts t !! o = Some d -> d <> []).
  { unfold t. destruct (ts !! pt_hash q) eqn:E; [eapply Hts, E|]. split; [assumption|].
    intros o' d' H. cbn [transfer_new t_parts] in H. rewrite lookup_empty in H. discriminate. }
  destruct Ht as [Ht1 Ht2].
  pose proof (add_part_terminates P fuel t (pt_offset q) (pt_data q) (pt_hash q) Ht2 Hq1 Ht1) as Hns.
  pose proof (add_part_nonempty P fuel t (pt_offset q) (pt_data q) (pt_hash q) Ht2 Hq1) as Hne'.
  pose proof (add_part_total P fuel t (pt_offset q) (pt_data q) (pt_hash q)) as Htot.
  destruct (add_part P fuel t _ _ _) as [r t']. cbn [fst snd] in *.
  set (ts1 := match r with Pending | Spinning => <[pt_hash q:=t']> ts | _ => delete (pt_hash q) ts end).
  replace (match r with Pending | Spinning => (r, <[pt_hash q:=t']> ts) | _ => (r, delete (pt_hash q) ts) end)
    with (r, ts1) in Hin by (unfold ts1; destruct r; reflexivity).
  specialize (IH ts1 Hl').
  destruct (arrive P fuel ts1 l) as [os ts2]. cbn [fst] in *.
  destruct Hin as [H|H]; [now injection H as -> ->|]. eapply IH; [|exact H].
  intros h' t'' E. assert (Hcases : ts !! h' = Some t'' \/ t'' = t').
  { unfold ts1 in E. destruct r; first [apply lookup_insert_Some in E as [[_ <-]|[_ E]]
      | apply lookup_delete_Some in E as [_ E]]; auto. }
  destruct Hcases as [Hc| ->]; [eapply Hts, Hc|]. split; [now rewrite Htot|]. exact Hne'.
Qed.
