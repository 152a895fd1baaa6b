(** C91: unfinished broadcasts are given up after silence. *)
From stdpp Require Import gmap.
From Coq Require Import NArith Lia Permutation.
From Coq Require Import ZifyBool ZifyNat ZifyN.
From Verif.Base Require Import Bytes BytesFacts Res.
From Verif.Model Require Import Crypto Tl Scheme ProtoAdnl ProtoRldp ProtoOverlay AdnlNode History PeersSet
  Compression Fec DhtStorage Broadcast.
From Verif.Spec Require Import CryptoSpec CompressionSpec FecSpec Sample DhtSample DhtSpec OverlaySpec BroadcastSpec BroadcastSample.
From Verif.Proof Require Import FecFacts CompressionFacts BroadcastFacts BroadcastAuth BroadcastLog BroadcastLive.
Open Scope N_scope.

(** ** The entries *)
Lemma receive_fec_entry : forall P checks o e s peer raw b id x',
  br_owned (snd (receive_fec P checks o e s peer raw b)) !! id = Some (Incoming x') ->
  (exists x, br_owned s !! id = Some (Incoming x) /\ ic_started x' = ic_started x /\ ic_updated x' = ic_updated x
     /\ (bf_data_hash b <> id \/ outdated checks (bf_date b) (bo_timeout o) (now_sec s) <> Some false
         \/ (forall key, bf_src b = PkEd25519 key -> valid_pub P key = false) \/ length (bf_signature b) <> 64%nat))
  \/ (bf_data_hash b = id /\ outdated checks (bf_date b) (bo_timeout o) (now_sec s) = Some false
      /\ ic_updated x' = (br_clock s - ic_started x') / 1000
      /\ (ic_started x' = br_clock s \/ exists x, br_owned s !! id = Some (Incoming x) /\ ic_started x' = ic_started x)).
Proof.
  intros P checks o e s peer raw b id x'. unfold receive_fec.
  destruct (outdated checks (bf_date b) (bo_timeout o) (now_sec s)) as [[]|] eqn:Eo; cbn [snd].
  1,3: intros H; left; exists x'; repeat split; try assumption; right; left; discriminate.
  destruct (full_id P (bf_src b)) as [key|er] eqn:Ef; cbn [snd].
  2:{ intros H; left; exists x'; repeat split; try assumption. right; right; left. intros key Hk.
      rewrite Hk in Ef. cbn [full_id] in Ef. destruct (valid_pub P key); [discriminate|reflexivity]. }
  destruct (Nat.eqb_spec (length (bf_signature b)) 64) as [Hlen|Hlen]; cbn [negb snd].
  2:{ intros H; left; exists x'; repeat split; try assumption. right; right; right. assumption. }
  cbv zeta.
  set (s1 := match br_owned s !! bf_data_hash b with Some _ => s | None => _ end).
  assert (Hc : br_clock s1 = br_clock s) by (unfold s1; now destruct (br_owned s !! bf_data_hash b)).
  assert (Hother : forall i, i <> bf_data_hash b -> br_owned s1 !! i = br_owned s !! i).
  { intros i Hi. unfold s1. destruct (br_owned s !! bf_data_hash b); [reflexivity|]. cbn. now rewrite lookup_insert_ne by congruence. }
  assert (Hsame : forall t, br_owned s1 !! bf_data_hash b = Some (Incoming t) ->
    ic_started t = br_clock s \/ exists x, br_owned s !! bf_data_hash b = Some (Incoming x) /\ ic_started t = ic_started x).
  { intros t. unfold s1. destruct (br_owned s !! bf_data_hash b) as [w|] eqn:Ew.
    - intros Ht. right. exists t. split; [congruence|reflexivity].
    - cbn. rewrite lookup_insert. intros Ht. injection Ht as <-. now left. }
  destruct (br_owned s1 !! bf_data_hash b) as [[|t]|] eqn:E1.
  1,3: cbn [snd]; intros H; destruct (decide (id = bf_data_hash b)) as [->|Hi]; [congruence|];
       left; exists x'; rewrite Hother in H by assumption; repeat split; try assumption; left; congruence.
  assert (Hgo : forall s', (br_owned s' = <[bf_data_hash b := Incoming (mk_incoming (ic_task t) (ic_completed t) (ic_history t) (ic_source t) (ic_started t) ((br_clock s1 - ic_started t) / 1000))]> (br_owned s1)
      \/ exists h, br_owned s' = <[bf_data_hash b := Incoming (mk_incoming (ic_task t) (ic_completed t) h (ic_source t) (ic_started t) ((br_clock s1 - ic_started t) / 1000))]> (br_owned s1)) ->
    br_owned s' !! id = Some (Incoming x') ->
    (exists x, br_owned s !! id = Some (Incoming x) /\ ic_started x' = ic_started x /\ ic_updated x' = ic_updated x
     /\ (bf_data_hash b <> id \/ Some false <> Some false
         \/ (forall key, bf_src b = PkEd25519 key -> valid_pub P key = false) \/ length (bf_signature b) <> 64%nat))
    \/ (bf_data_hash b = id /\ Some false = Some false
      /\ ic_updated x' = (br_clock s - ic_started x') / 1000
      /\ (ic_started x' = br_clock s \/ exists x, br_owned s !! id = Some (Incoming x) /\ ic_started x' = ic_started x))).
  { intros s' Hs' H. destruct (decide (id = bf_data_hash b)) as [->|Hi].
    - right. split; [reflexivity|]. split; [reflexivity|]. specialize (Hsame t eq_refl).
      destruct Hs' as [Hs'|[h Hs']]; rewrite Hs', lookup_insert in H; injection H as <-; cbn [ic_updated ic_started]; rewrite Hc; auto.
    - left. exists x'. destruct Hs' as [Hs'|[h Hs']]; rewrite Hs', lookup_insert_ne in H by congruence; rewrite Hother in H by assumption; repeat split; try assumption; left; congruence. }
  destruct (negb (bytes_eqb (ic_source t) (short_id P key))); cbn [snd]; [apply Hgo; now left|].
  destruct (deliver checks (ic_history t) (bf_seqno b)) as [[| |] h]; cbn [snd]; [|apply Hgo; now left|apply Hgo; now left].
  assert (Hi2 : forall v w, <[bf_data_hash b := v]> (<[bf_data_hash b := w]> (br_owned s1)) = <[bf_data_hash b := v]> (br_owned s1))
    by (intros; apply insert_insert).
  destruct (ic_completed t) eqn:Ec; cbn [snd].
  { apply Hgo. right. exists h. cbn. now rewrite Hi2. }
  cbn [set_owned br_tasks]. destruct (nth_error (br_tasks s1) (ic_task t)) as [task|]; cbn [snd].
  2:{ apply Hgo. right. exists h. cbn. now rewrite Hi2. }
  destruct (tk_phase task); cbn [snd]; apply Hgo; right; exists h; cbn; now rewrite Hi2.
Qed.

Lemma other_entry : forall c s e id x', (forall en peer raw b, e <> EvFec en peer raw b) ->
  br_owned (bc_step c s e) !! id = Some (Incoming x') ->
  exists x, br_owned s !! id = Some (Incoming x) /\ ic_started x' = ic_started x /\ ic_updated x' = ic_updated x.
Proof.
  intros c s e id x' Hne.
  assert (Hins : forall i, <[i := Other]> (br_owned s) !! id = Some (Incoming x') ->
    exists x, br_owned s !! id = Some (Incoming x) /\ ic_started x' = ic_started x /\ ic_updated x' = ic_updated x).
  { intros i H. destruct (decide (i = id)) as [->|Hi]; [rewrite lookup_insert in H; discriminate|].
    rewrite lookup_insert_ne in H by assumption. eauto. }
  destruct e as [ms|en peer raw b|en peer raw b|sec dat targets|sec dat targets|i|i|i|]; cbn [bc_step].
  - cbn. eauto.
  - destruct (receive_broadcast_cases (bs_prims c) (bs_zstd c) (bs_checks c) (bs_options c) en s peer raw b) as [->|(dat & from & _ & _ & _ & _ & Hn & ->)]; [eauto|apply Hins].
  - now destruct (Hne en peer raw b).
  - destruct (send_broadcast_cases (bs_prims c) (bs_zstd c) (bs_options c) (bs_overlay c) sec s dat targets) as [->|(Hn & m & ->)]; [eauto|apply Hins].
  - destruct (send_fec_cases (bs_prims c) (bs_zstd c) (bs_options c) (bs_overlay c) sec s dat targets) as [->|(Hn & ->)]; [eauto|apply Hins].
  - destruct (task_step_cases (bs_prims c) (bs_zstd c) (bs_fec c) s i) as [->|(t0 & Ht & Hc)]; [eauto|].
    destruct Hc as [(Hp & p & rest & r & de & Hq & Hpf & [[_ ->]|[(dat & _ & ->)|[_ ->]]])|[(Hp & Hq & -> & _)|(Hp & m & -> & Hm)]];
      cbn [deliver_data set_tasks set_owned br_owned]; try (intros H; now eauto).
    destruct Hm as [->|(k & Hk & ->)]; [eauto|]. intros H.
    destruct (decide (tk_id t0 = id)) as [<-|Hi]; [|rewrite lookup_insert_ne in H by assumption; eauto].
    rewrite lookup_insert in H. injection H as <-. exists k. repeat split. exact Hk.
  - unfold timer_step. destruct (nth_error _ _) as [t0|] eqn:Ht; [|eauto]. destruct (_ <? _); [eauto|].
    destruct t0 as [i' due|i' due]; [destruct (match br_owned s !! i' with Some _ => _ | None => _ end)|]; cbn; eauto.
  - unfold push_step. destruct (nth_error _ _); cbn; eauto.
  - unfold collector_step. destruct (br_collector s); [destruct (_ <? _)|destruct (br_finished s)| |]; cbn; eauto.
    intros H. rewrite lookup_delete_Some in H. destruct H as [_ H]. eauto.
Qed.

(** The clock in an entry: no proper packet arrived later than it shows, and some packet arrived then. *)
Lemma entry_clock : forall c clock evs id x, let s := bc_run c (bstate_new clock) evs in
  br_owned s !! id = Some (Incoming x) ->
  (forall t, proper_at c (bstate_new clock) evs id t -> (t - ic_started x) / 1000 <= ic_updated x)
  /\ exists t, arrived_at c (bstate_new clock) evs id t /\ ic_started x <= t <= br_clock s
     /\ ic_updated x = (t - ic_started x) / 1000.
Proof.
  intros c clock evs id. induction evs as [|e evs IH] using rev_ind; cbv zeta.
  { intros x H. cbn in H. rewrite lookup_empty in H. discriminate. }
  intros x' H. rewrite bc_run_last in H |- *. cbv zeta in IH.
  set (s := bc_run c (bstate_new clock) evs) in *.
  assert (Hclock : br_clock s <= br_clock (bc_step c s e)) by apply clock_step.
  assert (Hlast : forall t, proper_at c (bstate_new clock) (evs ++ [e]) id t -> proper_at c (bstate_new clock) evs id t
    \/ exists en peer raw b key, e = EvFec en peer raw b /\ bf_data_hash b = id /\ timely c s (bf_date b)
       /\ bf_src b = PkEd25519 key /\ valid_pub (bs_prims c) key = true /\ length (bf_signature b) = 64%nat /\ t = br_clock s).
  { intros t (s2 & en & peer & raw & b & key & (bef & aft & Hev & Hs2) & R).
    destruct aft as [|e2 aft] using rev_ind.
    - apply app_inj_tail in Hev as [-> ->]. right. exists en, peer, raw, b, key. subst s2. split; [reflexivity|exact R].
    - rewrite app_comm_cons, app_assoc in Hev. apply app_inj_tail in Hev as [-> _]. left.
      exists s2, en, peer, raw, b, key. split; [|exact R]. now exists bef, aft. }
  assert (Hmore : forall t, arrived_at c (bstate_new clock) evs id t -> arrived_at c (bstate_new clock) (evs ++ [e]) id t).
  { intros t (s2 & en & peer & raw & b & Hh & R). exists s2, en, peer, raw, b. split; [now apply happened_more|exact R]. }
  assert (Hold : forall x, br_owned s !! id = Some (Incoming x) -> ic_started x' = ic_started x -> ic_updated x' = ic_updated x ->
     (forall en peer raw b key, e = EvFec en peer raw b -> bf_data_hash b = id -> timely c s (bf_date b)
       -> bf_src b = PkEd25519 key -> valid_pub (bs_prims c) key = true -> length (bf_signature b) = 64%nat -> False) ->
     (forall t, proper_at c (bstate_new clock) (evs ++ [e]) id t -> (t - ic_started x') / 1000 <= ic_updated x')
     /\ exists t, arrived_at c (bstate_new clock) (evs ++ [e]) id t /\ ic_started x' <= t <= br_clock (bc_step c s e)
        /\ ic_updated x' = (t - ic_started x') / 1000).
  { intros x Hx E1 E2 Hno. destruct (IH x Hx) as [H1 (t & H2 & H3 & H4)]. rewrite E1, E2. split.
    - intros t' Ht'. destruct (Hlast t' Ht') as [Ho|(en & peer & raw & b & key & A1 & A2 & A3 & A4 & A5 & A6 & _)]; [now apply H1|].
      exfalso. eapply Hno; eassumption.
    - exists t. split; [now apply Hmore|]. split; [lia|exact H4]. }
  destruct e as [ms|en peer raw b|en peer raw b|sec dat targets|sec dat targets|i|i|i|].
  3:{ cbn [bc_step] in H. apply receive_fec_entry in H as [(x & Hx & E1 & E2 & Hno)|(Hid & Ho & Hu & Hst)].
      - apply (Hold x Hx E1 E2). intros en' peer' raw' b' key He A2 A3 A4 A5 A6. injection He as <- <- <- <-.
        destruct Hno as [Hno|[Hno|[Hno|Hno]]]; [congruence| |rewrite (Hno key A4) in A5; discriminate|congruence].
        apply Hno. now apply timely_not_outdated.
      - assert (Hs : ic_started x' <= br_clock s).
        { destruct Hst as [->|(x & Hx & ->)]; [lia|]. destruct (IH x Hx) as [_ (t & _ & Ht & _)]. lia. }
        split.
        + intros t Ht. rewrite Hu. apply N.div_le_mono; [lia|].
          assert (t <= br_clock s); [|lia].
          destruct (Hlast t Ht) as [(s2 & en2 & peer2 & raw2 & b2 & key2 & (bef & aft & Hev & Hs2) & _ & _ & _ & _ & _ & ->)|(? & ? & ? & ? & ? & _ & _ & _ & _ & _ & _ & ->)]; [|lia].
          subst s2. unfold s. rewrite Hev.
          replace (bc_run c (bstate_new clock) (bef ++ EvFec en2 peer2 raw2 b2 :: aft))
            with (bc_run c (bc_run c (bstate_new clock) bef) (EvFec en2 peer2 raw2 b2 :: aft))
            by (unfold bc_run; now rewrite fold_left_app). apply clock_run.
        + exists (br_clock s). split.
          { exists s, en, peer, raw, b. split; [apply happened_last|]. split; [exact Hid|]. split; [|reflexivity].
            unfold in_time. eapply not_outdated, Ho. }
          split; [cbn [bc_step] in Hclock |- *; lia|exact Hu]. }
  all: apply other_entry in H; [|intros; discriminate]; destruct H as (x & Hx & E1 & E2);
    apply (Hold x Hx E1 E2); intros; discriminate.
Qed.

(** ** The cleanup task wakes up *)
Lemma in_remove_add : forall {A} (l : list A) i x, In x (remove_nth l i ++ [x]).
Proof. intros. apply in_or_app. right. now left. Qed.

Lemma nodup_left : forall {A} (l r : list A), List.NoDup (l ++ r) -> List.NoDup l.
Proof. intros A l r H. apply NoDup_ListNoDup in H. apply NoDup_ListNoDup. now apply stdpp.list.NoDup_app in H as [H _]. Qed.

Lemma cleanup_wakes : forall c clock evs i id due, let s := bc_run c (bstate_new clock) evs in
  let s' := bc_step c s (EvTimer i) in
  let timeout := bo_timeout (bs_options c) * 1000 in
  nth_error (br_timers s) i = Some (Cleanup id due) -> due <= br_clock s ->
  (forall t, unfinished s id -> proper_at c (bstate_new clock) evs id t -> br_clock s + 1000 <= t + timeout ->
     In (Cleanup id (br_clock s + bo_timeout (bs_options c) * 100)) (br_timers s') /\ ~ In id (timed_out s')
     /\ (forall due', ~ In (Removal id due') (br_timers s')) /\ unfinished s' id)
  /\ ((forall t, arrived_at c (bstate_new clock) evs id t -> t + timeout <= br_clock s) ->
     In (Removal id (br_clock s + timeout)) (br_timers s') /\ forall due', ~ In (Cleanup id due') (br_timers s'))
  /\ (~ unfinished s id ->
     In (Removal id (br_clock s + timeout)) (br_timers s') /\ forall due', ~ In (Cleanup id due') (br_timers s')).
Proof.
  intros c clock evs i id due s s' timeout Hi Hdue.
  pose proof (log_run c clock evs) as Hlog. fold s in Hlog.
  assert (Hlog' : log_ok s') by now apply log_step.
  assert (Honly : forall t, In t (br_timers s') -> timer_id t = id -> forall t', In t' (br_timers s') -> timer_id t' = id -> t' = t).
  { intros t Ht E t' Ht' E'. destruct Hlog' as [Hnd _]. unfold chain in Hnd.
    apply nodup_left in Hnd. clear -Hnd Ht E Ht' E'.
    induction (br_timers s') as [|a l IH]; [destruct Ht|]. cbn [map] in Hnd. apply List.NoDup_cons_iff in Hnd as [Hn Hnd].
    destruct Ht as [->|Ht], Ht' as [->|Ht']; [reflexivity| | |now apply IH].
    - destruct Hn. rewrite E, <- E'. now apply in_map.
    - destruct Hn. rewrite E', <- E. now apply in_map. }
  assert (Hnot : forall t, In t (br_timers s') -> timer_id t = id -> ~ In id (timed_out s')).
  { intros t Ht E Hx. destruct Hlog' as [Hnd _]. unfold chain in Hnd. fold (timed_out s') in Hnd.
    unfold timed_out in Hx. rewrite (app_assoc (br_pending s')) in Hnd. rewrite app_assoc in Hnd.
    apply nodup_left in Hnd. apply NoDup_ListNoDup, stdpp.list.NoDup_app in Hnd. destruct Hnd as (_ & Hd & _).
    apply (Hd id); apply elem_of_list_In; [|exact Hx]. rewrite <- E. now apply in_map. }
  assert (Hs' : s' = timer_step (bs_options c) s i) by reflexivity.
  unfold timer_step in Hs'. rewrite Hi in Hs'. destruct (N.ltb_spec (br_clock s) (timer_due (Cleanup id due))) as [Hx|_]; [cbn in Hx; lia|].
  set (again := match br_owned s !! id with
                | Some (Incoming x) => negb (ic_completed x) && negb (is_expired (bo_timeout (bs_options c)) (br_clock s) x)
                | _ => false end) in Hs'.
  assert (Hagain : again = true -> In (Cleanup id (br_clock s + bo_timeout (bs_options c) * 100)) (br_timers s') /\ br_owned s' = br_owned s).
  { intros E. rewrite E in Hs'. rewrite Hs'. split; [apply in_remove_add|reflexivity]. }
  assert (Hend : again = false -> In (Removal id (br_clock s + timeout)) (br_timers s') /\ forall due', ~ In (Cleanup id due') (br_timers s')).
  { intros E. rewrite E in Hs'.
    assert (Hin : In (Removal id (br_clock s + timeout)) (br_timers s')) by (rewrite Hs'; apply in_remove_add).
    split; [exact Hin|]. intros due' Hx. specialize (Honly _ Hin eq_refl _ Hx eq_refl). discriminate. }
  split; [|split].
  - intros t (x & Hx & Hcm) Ht Hlate. destruct (entry_clock c clock evs id x Hx) as [H1 (t2 & _ & H2 & H3)].
    assert (E : again = true).
    { unfold again. rewrite Hx, Hcm. cbn [negb andb]. unfold is_expired. specialize (H1 t Ht). fold s in H2.
      apply Bool.negb_true_iff, N.leb_gt. apply N.div_lt_upper_bound; [lia|].
      pose proof (N.div_mod (t - ic_started x) 1000 ltac:(lia)). pose proof (N.mod_lt (t - ic_started x) 1000 ltac:(lia)).
      unfold timeout in Hlate. lia. }
    destruct (Hagain E) as [H4 H5]. split; [exact H4|]. split; [eapply Hnot; [exact H4|reflexivity]|]. split.
    + intros due' Hr. specialize (Honly _ H4 eq_refl _ Hr eq_refl). discriminate.
    + exists x. now rewrite H5.
  - intros Hs. apply Hend. unfold again. destruct (br_owned s !! id) as [[|x]|] eqn:Hx; [reflexivity| |reflexivity].
    destruct (entry_clock c clock evs id x Hx) as [_ (t2 & Ha & H2 & H3)]. specialize (Hs t2 Ha). fold s in H2.
    assert (E : is_expired (bo_timeout (bs_options c)) (br_clock s) x = true); [|rewrite E; now destruct (ic_completed x)].
    unfold is_expired. apply N.leb_le. rewrite H3.
    replace ((t2 - ic_started x) / 1000 + bo_timeout (bs_options c))
      with (((t2 - ic_started x) + bo_timeout (bs_options c) * 1000) / 1000) by (apply N.div_add; lia).
    apply N.div_le_mono; [lia|]. unfold timeout in Hs. lia.
  - intros Hu. apply Hend. unfold again. destruct (br_owned s !! id) as [[|x]|] eqn:Hx; [reflexivity| |reflexivity].
    destruct (ic_completed x) eqn:Ec; [reflexivity|]. destruct Hu. now exists x.
Qed.

(** ** The decoder ends once its broadcast is forgotten *)
Lemma repeat_step : forall c i k s, bc_run c s (repeat (EvTask i) (S k)) = bc_run c (bc_step c s (EvTask i)) (repeat (EvTask i) k).
Proof. reflexivity. Qed.

Lemma finished_stays : forall c i k s t, nth_error (br_tasks s) i = Some t -> tk_phase t = Finished ->
  bc_run c s (repeat (EvTask i) k) = s.
Proof.
  intros c i k. induction k as [|k IH]; intros s t Ht Hp; [reflexivity|]. rewrite repeat_step.
  assert (E : bc_step c s (EvTask i) = s) by (cbn [bc_step]; unfold task_step; now rewrite Ht, Hp).
  rewrite E. eapply IH; eassumption.
Qed.

Lemma marking_ends : forall c i k s t, nth_error (br_tasks s) i = Some t -> tk_phase t = Marking ->
  exists t', nth_error (br_tasks (bc_run c s (repeat (EvTask i) (S k)))) i = Some t' /\ tk_phase t' = Finished.
Proof.
  intros c i k s t Ht Hp. rewrite repeat_step.
  assert (E : nth_error (br_tasks (bc_step c s (EvTask i))) i
      = Some (mk_fec_task (tk_id t) (tk_source t) (tk_queue t) (tk_decoder t) (tk_packets t) Finished)).
  { cbn [bc_step]. unfold task_step. rewrite Ht, Hp. cbn [set_tasks br_tasks].
    assert (Hb : forall m, br_tasks (set_owned s m) = br_tasks s) by reflexivity.
    destruct (br_owned s !! tk_id t) as [[|x]|]; rewrite ?Hb; rewrite (update_task_nth _ _ _ _ i Ht), Nat.eqb_refl; now rewrite ?Hp. }
  rewrite (finished_stays c i k _ _ E eq_refl). eexists. split; [exact E|reflexivity].
Qed.

Lemma decoder_ends : forall c clock evs i t, let s := bc_run c (bstate_new clock) evs in
  nth_error (br_tasks s) i = Some t -> br_owned s !! tk_id t = None ->
  exists t', nth_error (br_tasks (bc_run c s (repeat (EvTask i) (length (tk_queue t) + 2)))) i = Some t' /\ tk_phase t' = Finished.
Proof.
  intros c clock evs i t s Ht Hn.
  assert (Hr : reachable c s) by (now exists clock, evs). clearbody s. clear clock evs.
  remember (tk_queue t) as q eqn:Eq. symmetry in Eq. revert s t Ht Hn Hr Eq. induction q as [|p q IH]; intros s t Ht Hn Hr Eq.
  - destruct (tk_phase t) eqn:Ep.
    + cbn [length Nat.add]. rewrite repeat_step. apply (marking_ends c i 0 _ (mk_fec_task (tk_id t) (tk_source t) [] (tk_decoder t) (tk_packets t) Marking)); [|reflexivity].
      cbn [bc_step]. unfold task_step. rewrite Ht, Ep, Eq.
      destruct (existsb _ _) eqn:Ex.
      * exfalso. apply existsb_exists in Ex as ([id x] & Hin & Hh). apply elem_of_list_In, elem_of_map_to_list in Hin.
        cbn [snd holds_sender] in Hh. destruct x as [|x]; [discriminate|]. apply Nat.eqb_eq in Hh.
        destruct (entries_have_tasks c s Hr id x Hin) as (t2 & H1 & H2). rewrite Hh, Ht in H1. injection H1 as <-. congruence.
      * cbn [set_tasks br_tasks]. rewrite (update_task_nth _ _ _ _ i Ht), Nat.eqb_refl. reflexivity.
    + apply (marking_ends c i 1 s t Ht Ep).
    + rewrite (finished_stays c i _ s t Ht Ep). now exists t.
  - destruct (tk_phase t) eqn:Ep.
    + cbn [length Nat.add]. rewrite repeat_step.
      assert (Hstep : exists d n ph, (ph = Running \/ ph = Marking)
        /\ nth_error (br_tasks (bc_step c s (EvTask i))) i = Some (mk_fec_task (tk_id t) (tk_source t) q d n ph)
        /\ br_owned (bc_step c s (EvTask i)) = br_owned s).
      { cbn [bc_step]. unfold task_step. rewrite Ht, Ep, Eq. cbv zeta.
        destruct (process_fec (bs_prims c) (bs_zstd c) (bs_fec c) (tk_decoder t) p) as [[[data|]|[]] d];
          cbn [deliver_data set_tasks br_tasks br_owned]; rewrite (update_task_nth _ _ _ _ i Ht), Nat.eqb_refl;
          do 3 eexists; (split; [|split; reflexivity]); auto. }
      destruct Hstep as (d & n & ph & Hph & H1 & H2).
      destruct (IH (bc_step c s (EvTask i)) _ H1) as (t' & H3 & H4).
      * rewrite H2. exact Hn.
      * now apply reachable_step.
      * reflexivity.
      * exists t'. now split.
    + apply (marking_ends c i (length q + 2) s t Ht Ep).
    + rewrite (finished_stays c i _ s t Ht Ep). now exists t.
Qed.

(** ... and waits for more as long as it is not. *)
Lemma decoder_waits : forall c clock evs id x t, let s := bc_run c (bstate_new clock) evs in
  br_owned s !! id = Some (Incoming x) -> nth_error (br_tasks s) (ic_task x) = Some t ->
  tk_phase t = Running -> tk_queue t = [] -> bc_step c s (EvTask (ic_task x)) = s.
Proof.
  intros c clock evs id x t s Hx Ht Hp Hq. cbn [bc_step]. unfold task_step. rewrite Ht, Hp, Hq.
  assert (E : existsb (fun kv : bytes * owned => holds_sender (ic_task x) (snd kv)) (map_to_list (br_owned s)) = true).
  { apply existsb_exists. exists (id, Incoming x). split; [apply elem_of_list_In, elem_of_map_to_list, Hx|]. cbn. apply Nat.eqb_refl. }
  now rewrite E.
Qed.

(** ** A broadcast whose packets keep coming is not given up *)
Definition guarded (s : bstate) (id : bytes) : Prop := unfinished s id /\ exists due, In (Cleanup id due) (br_timers s).

Lemma guarded_frame : forall s s' id, guarded s id ->
  br_owned s' !! id = br_owned s !! id -> (forall t, timer_id t = id -> In t (br_timers s) -> In t (br_timers s')) -> guarded s' id.
Proof.
  intros s s' id [(x & Hx & Hc) (due & Hd)] Ho Ht. split; [exists x; now rewrite Ho|]. exists due. now apply Ht.
Qed.

Lemma guarded_step : forall c clock evs e id, let s := bc_run c (bstate_new clock) evs in
  guarded s id ->
  (exists t, proper_at c (bstate_new clock) evs id t /\ br_clock s + 1000 <= t + bo_timeout (bs_options c) * 1000) ->
  guarded (bc_step c s e) id \/ ended (bc_step c s e) id.
Proof.
  intros c clock evs e id s Hg (tp & Hp & Hlate).
  assert (Hlog : log_ok s) by apply log_run.
  pose proof Hg as [(x & Hx & Hcm) (due & Hdue)].
  assert (Hins : forall i, br_owned s !! i = None -> <[i := Other]> (br_owned s) !! id = br_owned s !! id).
  { intros i Hi. apply lookup_insert_ne. congruence. }
  destruct e as [ms|en peer raw b|en peer raw b|sec dat targets|sec dat targets|i|i|i|].
  - left. eapply guarded_frame; [exact Hg|reflexivity|auto].
  - cbn [bc_step]. destruct (receive_broadcast_cases (bs_prims c) (bs_zstd c) (bs_checks c) (bs_options c) en s peer raw b) as [->|(dat & from & _ & _ & _ & _ & Hn & ->)]; [now left|].
    left. eapply guarded_frame; [exact Hg|now apply Hins|]. intros t _ Ht. apply in_or_app. now left.
  - cbn [bc_step]. destruct (receive_fec_cases (bs_prims c) (bs_checks c) (bs_options c) en s peer raw b) as [->|(k & _ & _ & _ & _ & _ & Hc)]; [now left|].
    cbv zeta in Hc. left.
    assert (Hs1 : guarded (with_entry (bs_options c) s (bf_fec b) (bf_data_hash b) (node_id (bs_prims c) k)) id).
    { unfold with_entry. destruct (br_owned s !! bf_data_hash b) eqn:Eb; [exact Hg|].
      eapply guarded_frame; [exact Hg| |].
      - cbn. apply lookup_insert_ne. congruence.
      - intros t _ Ht. cbn. apply in_or_app. now left. }
    set (s1 := with_entry _ _ _ _ _) in *.
    destruct Hc as [[-> _]|(y & y' & Hown & (_ & Hsc & _) & Hc)]; [exact Hs1|].
    assert (Hgo : forall s', br_owned s' = <[bf_data_hash b := Incoming y']> (br_owned s1) -> br_timers s' = br_timers s1 -> guarded s' id).
    { intros s' Ho Ht. destruct Hs1 as [(x1 & Hx1 & Hc1) (due1 & Hd1)]. split; [|exists due1; now rewrite Ht].
      destruct (decide (bf_data_hash b = id)) as [Ei|Ei].
      - exists y'. rewrite Ho, Ei, lookup_insert. split; [reflexivity|]. rewrite Ei, Hx1 in Hown. injection Hown as ->. congruence.
      - exists x1. rewrite Ho, lookup_insert_ne by assumption. now split. }
    destruct Hc as [[-> _]|(_ & _ & targets & _ & [[_ ->]|(_ & task & Hn & _ & ->)])]; apply Hgo; reflexivity.
  - cbn [bc_step]. destruct (send_broadcast_cases (bs_prims c) (bs_zstd c) (bs_options c) (bs_overlay c) sec s dat targets) as [->|(Hn & m & ->)]; [now left|].
    left. eapply guarded_frame; [exact Hg|now apply Hins|]. intros t _ Ht. apply in_or_app. now left.
  - cbn [bc_step]. destruct (send_fec_cases (bs_prims c) (bs_zstd c) (bs_options c) (bs_overlay c) sec s dat targets) as [->|(Hn & ->)]; [now left|].
    left. eapply guarded_frame; [exact Hg|now apply Hins|]. intros t _ Ht. apply in_or_app. now left.
  - cbn [bc_step]. destruct (task_step_cases (bs_prims c) (bs_zstd c) (bs_fec c) s i) as [->|(t0 & Ht & Hc)]; [now left|].
    destruct Hc as [(Hp' & p & rest & r & de & Hq & Hpf & [[_ ->]|[(dat & _ & ->)|[_ ->]]])|[(Hp' & Hq & -> & _)|(Hp' & m & -> & Hm)]].
    1,2,3,4: left; eapply guarded_frame; [exact Hg|reflexivity|auto].
    destruct Hm as [->|(k & Hk & ->)]; [left; eapply guarded_frame; [exact Hg|reflexivity|auto]|].
    destruct (decide (tk_id t0 = id)) as [Ei|Ei].
    + right. rewrite Ei. eexists. cbn [set_tasks set_owned br_owned]. rewrite lookup_insert. split; [reflexivity|reflexivity].
    + left. eapply guarded_frame; [exact Hg| |auto]. cbn [set_tasks set_owned br_owned]. now apply lookup_insert_ne.
  - destruct (nth_error (br_timers s) i) as [t0|] eqn:Ei.
    2:{ left. cbn [bc_step]. unfold timer_step. now rewrite Ei. }
    destruct (N.ltb_spec (br_clock s) (timer_due t0)) as [Hd|Hd].
    { left. cbn [bc_step]. unfold timer_step. rewrite Ei. apply N.ltb_lt in Hd. now rewrite Hd. }
    assert (Hone : timer_id t0 = id -> t0 = Cleanup id due).
    { intros E. destruct Hlog as [Hnd _]. unfold chain in Hnd. apply nodup_left in Hnd. apply nth_error_In in Ei.
      clear -Hnd Hdue E Ei. induction (br_timers s) as [|a l IH]; [destruct Ei|]. cbn [map] in Hnd. apply List.NoDup_cons_iff in Hnd as [Hn Hnd].
      destruct Ei as [->|Ei], Hdue as [Hdu|Hdue]; [congruence| | |now apply IH].
      - destruct Hn. rewrite E. change id with (timer_id (Cleanup id due)). now apply in_map.
      - destruct Hn. rewrite Hdu. cbn [timer_id]. rewrite <- E. now apply in_map. }
    destruct (decide (timer_id t0 = id)) as [E|E].
    + rewrite (Hone E) in Ei, Hd. destruct (cleanup_wakes c clock evs i id due Ei Hd) as [Hw _].
      destruct (Hw tp) as (H1 & _ & _ & H4); [now exists x|exact Hp|exact Hlate|]. left. split; [exact H4|eauto].
    + left. cbn [bc_step]. unfold timer_step. rewrite Ei. apply N.ltb_ge in Hd. rewrite Hd.
      assert (Hrem : forall t, timer_id t = id -> In t (br_timers s) -> In t (remove_nth (br_timers s) i)).
      { intros t Et Hin. destruct (in_remove_nth _ _ _ _ Ei Hin) as [->|H]; [congruence|exact H]. }
      destruct t0 as [i' due'|i' due'].
      * destruct (match br_owned s !! i' with Some _ => _ | None => _ end); (eapply guarded_frame; [exact Hg|reflexivity|]);
          intros t Et Hin; apply in_or_app; left; now apply Hrem.
      * eapply guarded_frame; [exact Hg|reflexivity|]. intros t Et Hin. now apply Hrem.
  - left. cbn [bc_step]. unfold push_step. destruct (nth_error _ _); (eapply guarded_frame; [exact Hg|reflexivity|auto]).
  - left. cbn [bc_step]. unfold collector_step. destruct (br_collector s) eqn:Ec.
    + destruct (_ <? _); (eapply guarded_frame; [exact Hg|reflexivity|auto]).
    + destruct (br_finished s); (eapply guarded_frame; [exact Hg|reflexivity|auto]).
    + eapply guarded_frame; [exact Hg| |auto]. cbn [set_collector set_owned br_owned]. apply lookup_delete_ne. intros ->.
      destruct Hlog as [Hnd _]. unfold chain, popped in Hnd. rewrite Ec in Hnd. rewrite !app_assoc in Hnd.
      apply (Permutation_NoDup (Permutation_sym (Permutation_cons_append _ id))) in Hnd.
      apply List.NoDup_cons_iff in Hnd as [Hn _]. apply Hn. rewrite <- !app_assoc. apply in_or_app. left.
      change id with (timer_id (Cleanup id due)). now apply in_map.
    + eapply guarded_frame; [exact Hg|reflexivity|auto].
Qed.

Lemma new_guarded : forall c s e id, br_owned s !! id = None -> unfinished (bc_step c s e) id -> guarded (bc_step c s e) id.
Proof.
  intros c s e id Hn Hu. split; [exact Hu|]. destruct Hu as (x & Hx & _).
  destruct e as [ms|en peer raw b|en peer raw b|sec dat targets|sec dat targets|i|i|i|].
  3:{ cbn [bc_step] in *.
      destruct (receive_fec_cases (bs_prims c) (bs_checks c) (bs_options c) en s peer raw b) as [E|(k & _ & _ & _ & _ & _ & Hc)]; [rewrite E in Hx; congruence|].
      cbv zeta in Hc. unfold with_entry in Hc.
      destruct (br_owned s !! bf_data_hash b) eqn:Eb.
      - exfalso. assert (Hne : bf_data_hash b <> id) by congruence.
        destruct Hc as [[E _]|(y & y' & Hown & _ & Hc)]; [rewrite E in Hx; congruence|].
        destruct Hc as [[E _]|(_ & _ & targets & _ & [[_ E]|(_ & task & _ & _ & E)])]; rewrite E in Hx; cbn in Hx;
          rewrite lookup_insert_ne in Hx by assumption; congruence.
      - destruct (decide (bf_data_hash b = id)) as [Ei|Ei].
        + exists (br_clock s + bo_timeout (bs_options c) * 100). rewrite <- Ei.
          destruct Hc as [[-> _]|(y & y' & Hown & _ & Hc)]; [cbn; apply in_or_app; right; now left|].
          destruct Hc as [[-> _]|(_ & _ & targets & _ & [[_ ->]|(_ & task & _ & _ & ->)])]; cbn; apply in_or_app; right; now left.
        + exfalso. destruct Hc as [[E _]|(y & y' & Hown & _ & Hc)].
          { rewrite E in Hx. cbn in Hx. rewrite lookup_insert_ne in Hx by assumption. congruence. }
          destruct Hc as [[E _]|(_ & _ & targets & _ & [[_ E]|(_ & task & _ & _ & E)])]; rewrite E in Hx; cbn in Hx;
            rewrite !lookup_insert_ne in Hx by assumption; congruence. }
  all: exfalso; apply other_entry in Hx; [|intros; discriminate]; destruct Hx as (x' & Hx & _); congruence.
Qed.

Lemma steady : forall c clock before e after id,
  br_owned (bc_run c (bstate_new clock) before) !! id = None ->
  unfinished (bc_run c (bstate_new clock) (before ++ [e])) id ->
  (forall now later, after = now ++ later ->
     exists t, proper_at c (bstate_new clock) (before ++ [e] ++ now) id t
     /\ br_clock (bc_run c (bstate_new clock) (before ++ [e] ++ now)) + 1000 <= t + bo_timeout (bs_options c) * 1000) ->
  unfinished (bc_run c (bstate_new clock) (before ++ [e] ++ after)) id
  \/ exists now later, after = now ++ later /\ ended (bc_run c (bstate_new clock) (before ++ [e] ++ now)) id.
Proof.
  intros c clock before e after id Hn Hu Hgap.
  assert (Hg : guarded (bc_run c (bstate_new clock) (before ++ [e] ++ after)) id
     \/ exists now later, after = now ++ later /\ ended (bc_run c (bstate_new clock) (before ++ [e] ++ now)) id).
  { revert Hgap. induction after as [|a after IH] using rev_ind; intros Hgap.
    - left. rewrite app_nil_r. rewrite bc_run_last in Hu |- *. now apply new_guarded.
    - assert (Hgap' : forall now later, after = now ++ later ->
         exists t, proper_at c (bstate_new clock) (before ++ [e] ++ now) id t
         /\ br_clock (bc_run c (bstate_new clock) (before ++ [e] ++ now)) + 1000 <= t + bo_timeout (bs_options c) * 1000).
      { intros now later ->. apply (Hgap now (later ++ [a])). now rewrite app_assoc. }
      destruct (IH Hgap') as [Hg|(now & later & -> & He)].
      + replace (before ++ [e] ++ after ++ [a]) with ((before ++ [e] ++ after) ++ [a]) by now rewrite <- !app_assoc.
        rewrite bc_run_last.
        destruct (guarded_step c clock (before ++ [e] ++ after) a id Hg (Hgap' after [] ltac:(now rewrite app_nil_r))) as [H|H]; [now left|].
        right. exists (after ++ [a]), []. split; [now rewrite app_nil_r|].
        replace (before ++ [e] ++ after ++ [a]) with ((before ++ [e] ++ after) ++ [a]) by now rewrite <- !app_assoc.
        now rewrite bc_run_last.
      + right. exists now, (later ++ [a]). split; [now rewrite app_assoc|exact He]. }
  destruct Hg as [[Hg _]|Hg]; [now left|now right].
Qed.

(** ** Packets that come after a silence do not help *)
Definition late_run : list bc_event :=
  [t_get_part 0; EvTask 0; EvTick 10000; EvTimer 0; EvTick 5000; t_get_part 0; EvTask 0; EvTick 5000; EvTimer 0; EvPush 0; EvCollect; EvCollect].
Definition late_more : list bc_event := [t_get_part 1; EvTask 1; EvTask 0; EvTask 0].

Lemma unfinished_check : forall s id,
  match br_owned s !! id with Some (Incoming x) => negb (ic_completed x) | _ => false end = true -> unfinished s id.
Proof.
  intros s id H. unfold unfinished. destruct (br_owned s !! id) as [[|x]|]; [discriminate| |discriminate].
  exists x. split; [reflexivity|]. now apply Bool.negb_true_iff.
Qed.

Lemma processed_check : forall s id,
  forallb (fun t => match tk_queue t with [] => true | _ => false end) (br_tasks s) = true -> processed id s.
Proof.
  intros s id H t Ht _ _. rewrite forallb_forall in H. specialize (H t Ht). destruct (tk_queue t); [reflexivity|discriminate].
Qed.

Lemma late_forgotten : exists c clock evs id t,
  let state evs := bc_run c (bstate_new clock) evs in
  prims_ok (bs_prims c) /\ zstd_ok (bs_zstd c) /\ fec_ok (bs_fec c)
  /\ unfinished (state evs) id /\ proper_at c (bstate_new clock) evs id t
  /\ br_clock (state evs) + 1000 <= t + bo_timeout (bs_options c) * 1000
  /\ br_owned (state (evs ++ [EvCollect])) !! id = None
  /\ exists more, br_delivered (state (evs ++ EvCollect :: more)) = []
     /\ processed id (state (evs ++ EvCollect :: more))
     /\ symbol_arrived (evs ++ EvCollect :: more) id 0 /\ symbol_arrived (evs ++ EvCollect :: more) id 1.
Proof.
  exists (t_bc 10 0), 80000, late_run, t_long_id, 95000. intros state.
  split; [exact brief_ok|]. split; [exact CompressionFacts.toy_zstd_ok|]. split; [exact FecFacts.toy_fec_ok|].
  split; [apply unfinished_check; vm_compute; reflexivity|].
  split.
  { exists (state (firstn 5 late_run)), t_benv, (t_id 2), [8; 0], (t_part 0), (t_key 7).
    split; [exists (firstn 5 late_run), (skipn 6 late_run); split; reflexivity|].
    split; [vm_compute; reflexivity|]. split; [split; vm_compute; [reflexivity|discriminate]|].
    split; [vm_compute; reflexivity|]. split; [vm_compute; reflexivity|]. split; vm_compute; reflexivity. }
  split; [vm_compute; discriminate|]. split; [vm_compute; reflexivity|].
  exists late_more. split; [vm_compute; reflexivity|]. split.
  { apply processed_check. vm_compute. reflexivity. }
  split.
  - exists t_benv, (t_id 2), [8; 0], (t_part 0). split; [left; reflexivity|]. split; vm_compute; reflexivity.
  - exists t_benv, (t_id 2), [8; 1], (t_part 1). split; [|split; vm_compute; reflexivity]. do 13 right. left. reflexivity.
Qed.
