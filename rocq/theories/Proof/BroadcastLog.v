(** The log of finished broadcasts; no broadcast is delivered twice. *)
From stdpp Require Import gmap.
From Coq Require Import NArith Lia Permutation ZifyBool ZifyNat ZifyN.
From Verif.Base Require Import Bytes BytesFacts Res.
From Verif.Model Require Import Crypto Tl Scheme ProtoAdnl ProtoRldp ProtoOverlay AdnlNode History PeersSet
  Compression Fec DhtStorage Broadcast.
From Verif.Spec Require Import CryptoSpec DhtSpec OverlaySpec BroadcastSpec.
From Verif.Proof Require Import BroadcastFacts BroadcastAuth.
Open Scope N_scope.

Definition popped (s : bstate) : list bytes := match br_collector s with CRemove id => [id] | _ => [] end.
Definition chain (s : bstate) : list bytes :=
  map timer_id (br_timers s) ++ br_pending s ++ br_finished s ++ popped s.

Record log_ok (s : bstate) : Prop := mk_log_ok
  { lo_nodup : List.NoDup (chain s);
    lo_dom : forall id, is_Some (br_owned s !! id) <-> In id (chain s) }.

Lemma log_perm : forall s s', log_ok s -> Permutation (chain s) (chain s') ->
  (forall id, is_Some (br_owned s' !! id) <-> is_Some (br_owned s !! id)) -> log_ok s'.
Proof.
  intros s s' [H1 H2] Hp Hd. split.
  - eapply Permutation_NoDup; eauto.
  - intros id. rewrite Hd, H2. split; apply Permutation_in; [exact Hp|now symmetry].
Qed.
Lemma log_new : forall s s' id, log_ok s -> br_owned s !! id = None -> Permutation (id :: chain s) (chain s') ->
  (forall id', is_Some (br_owned s' !! id') <-> id' = id \/ is_Some (br_owned s !! id')) -> log_ok s'.
Proof.
  intros s s' id [H1 H2] Hn Hp Hd. split.
  - eapply Permutation_NoDup; [exact Hp|]. constructor; [|exact H1]. rewrite <- H2, Hn. intros [x Hx]. discriminate.
  - intros id'. rewrite Hd, H2. split.
    + intros [->|Hi]; eapply Permutation_in; eauto; [now left|now right].
    + intros Hi. eapply Permutation_in in Hi; [|symmetry; exact Hp]. destruct Hi as [<-|Hi]; auto.
Qed.

Lemma insert_dom : forall (m : gmap bytes owned) id v id',
  is_Some (<[id := v]> m !! id') <-> id' = id \/ is_Some (m !! id').
Proof.
  intros. rewrite lookup_insert_is_Some'. split; intros [H|H]; auto.
Qed.
Lemma update_dom : forall (m : gmap bytes owned) id v id', is_Some (m !! id) ->
  (is_Some (<[id := v]> m !! id') <-> is_Some (m !! id')).
Proof.
  intros m id v id' H. rewrite insert_dom. split; [intros [->|H']; auto|auto].
Qed.

Lemma chain_new : forall s t, Permutation (timer_id t :: chain s)
  (chain (set_timers s (br_timers s ++ [t]))).
Proof.
  intros s t. unfold chain. cbn [set_timers br_timers br_pending br_finished popped br_collector].
  rewrite map_app. cbn [map]. rewrite <- app_assoc. cbn [app]. apply Permutation_middle.
Qed.

Lemma log_with_entry : forall o s params id source, log_ok s -> log_ok (with_entry o s params id source).
Proof.
  intros o s params id source H. unfold with_entry. destruct (br_owned s !! id) eqn:E; [exact H|].
  eapply (log_new s _ id); [exact H|exact E| |].
  - unfold spawn_fec_receiver. apply (chain_new s (Cleanup id (br_clock s + bo_timeout o * 100))).
  - intros id'. apply insert_dom.
Qed.

Lemma log_step : forall c s e, log_ok s -> log_ok (bc_step c s e).
Proof.
  intros c s e H.
  destruct e as [ms|e peer raw b|e peer raw b|secret data targets|secret data targets|i|i|i|]; cbn [bc_step].
  - eapply log_perm; [exact H|reflexivity|reflexivity].
  - destruct (receive_broadcast_cases (bs_prims c) (bs_zstd c) (bs_checks c) (bs_options c) e s peer raw b) as [->|(data & from & _ & _ & _ & _ & Hn & ->)]; [exact H|].
    eapply log_new; [exact H|exact Hn| |intros id'; apply insert_dom].
    apply (chain_new s (Removal _ _)).
  - destruct (receive_fec_cases (bs_prims c) (bs_checks c) (bs_options c) e s peer raw b) as [->|(key & _ & _ & _ & _ & _ & Hc)]; [exact H|].
    cbv zeta in Hc. pose proof (log_with_entry (bs_options c) s (bf_fec b) (bf_data_hash b) (node_id (bs_prims c) key) H) as Hs1.
    set (s1 := with_entry _ _ _ _ _) in *.
    destruct Hc as [[-> _]|(t & t' & Hown & _ & Hc)]; [exact Hs1|].
    assert (Hd : forall id', is_Some (<[bf_data_hash b := Incoming t']> (br_owned s1) !! id') <-> is_Some (br_owned s1 !! id')).
    { intros id'. apply update_dom. rewrite Hown. eauto. }
    destruct Hc as [[-> _]|(_ & _ & targets & _ & [[_ ->]|(_ & task & _ & _ & ->)])]; (eapply log_perm; [exact Hs1|reflexivity|exact Hd]).
  - destruct (send_broadcast_cases (bs_prims c) (bs_zstd c) (bs_options c) (bs_overlay c) secret s data targets) as [->|(Hn & m & ->)]; [exact H|].
    eapply log_new; [exact H|exact Hn| |intros id'; apply insert_dom]. apply (chain_new s (Removal _ _)).
  - destruct (send_fec_cases (bs_prims c) (bs_zstd c) (bs_options c) (bs_overlay c) secret s data targets) as [->|(Hn & ->)]; [exact H|].
    eapply log_new; [exact H|exact Hn| |intros id'; apply insert_dom]. apply (chain_new s (Removal _ _)).
  - destruct (task_step_cases (bs_prims c) (bs_zstd c) (bs_fec c) s i) as [->|(t & Ht & Hc)]; [exact H|].
    destruct Hc as [(Hp & p & rest & r & d & Hq & Hpf & Hc)|[(Hp & Hq & -> & _)|(Hp & m & -> & Hm)]].
    + destruct Hc as [[_ ->]|[(data & _ & ->)|[_ ->]]]; (eapply log_perm; [exact H|reflexivity|reflexivity]).
    + eapply log_perm; [exact H|reflexivity|reflexivity].
    + eapply log_perm; [exact H|reflexivity|]. intros id'. cbn [set_tasks set_owned br_owned].
      destruct Hm as [->|(k & Hk & ->)]; [reflexivity|]. apply update_dom. rewrite Hk. eauto.
  - unfold timer_step. destruct (nth_error _ _) as [t|] eqn:Ht; [|exact H]. destruct (_ <? _); [exact H|].
    pose proof (remove_nth_perm _ _ _ Ht) as Hp.
    assert (Hr : forall t', timer_id t' = timer_id t ->
      Permutation (chain s) (chain (set_timers s (remove_nth (br_timers s) i ++ [t'])))).
    { intros t' He. unfold chain. cbn [set_timers br_timers br_pending br_finished popped br_collector].
      apply Permutation_app_tail. rewrite (Permutation_map timer_id Hp). rewrite map_app. cbn [map]. rewrite He.
      apply Permutation_cons_append. }
    destruct t as [id due|id due].
    + destruct (match br_owned s !! id with Some _ => _ | None => _ end); (eapply log_perm; [exact H|now apply Hr|reflexivity]).
    + eapply log_perm; [exact H| |reflexivity]. unfold chain.
      cbn [set_queue set_timers br_timers br_pending br_finished popped br_collector].
      rewrite (Permutation_map timer_id Hp). cbn [map timer_id]. rewrite <- !app_assoc. cbn [app].
      rewrite !(app_assoc (map timer_id _) (br_pending s)). apply (Permutation_middle (map timer_id (remove_nth (br_timers s) i) ++ br_pending s)).
  - unfold push_step. destruct (nth_error _ _) as [id|] eqn:Hn; [|exact H].
    eapply log_perm; [exact H| |reflexivity]. unfold chain.
    cbn [set_queue br_timers br_pending br_finished popped br_collector].
    apply Permutation_app_head. rewrite (remove_nth_perm _ _ _ Hn) at 1. cbn [app]. rewrite <- app_assoc. cbn [app].
    rewrite !app_assoc. rewrite <- app_assoc. cbn [app]. rewrite (app_assoc (remove_nth (br_pending s) i)).
    apply (Permutation_middle (remove_nth (br_pending s) i ++ br_finished s)).
  - unfold collector_step. destruct (br_collector s) eqn:Ec.
    + destruct (_ <? _); [|exact H]. eapply log_perm; [exact H| |reflexivity]. unfold chain, popped. now rewrite Ec.
    + destruct (br_finished s) as [|id rest] eqn:Ef; (eapply log_perm; [exact H| |reflexivity]); unfold chain, popped; cbn; rewrite Ec, ?Ef.
      * reflexivity.
      * do 2 apply Permutation_app_head. rewrite app_nil_r. apply Permutation_cons_append.
    + destruct H as [H1 H2]. unfold chain, popped in H1, H2. rewrite Ec in H1, H2.
      rewrite !app_assoc in H1. pose proof (Permutation_NoDup (Permutation_sym (Permutation_cons_append _ id)) H1) as H1'.
      apply List.NoDup_cons_iff in H1' as [Hni Hnd].
      split; unfold chain, popped; cbn [set_collector set_owned br_timers br_pending br_finished br_collector br_owned].
      * rewrite app_nil_r, app_assoc. exact Hnd.
      * intros id'. rewrite lookup_delete_is_Some, H2. rewrite app_nil_r.
        rewrite (app_assoc (br_pending s)), (app_assoc (map timer_id (br_timers s)) (br_pending s ++ br_finished s)).
        rewrite in_app_iff. rewrite <- app_assoc in Hni. split.
        -- intros [Hne [Hi|[He|[]]]]; [exact Hi|congruence].
        -- intros Hi. split; [intros <-; contradiction|now left].
    + eapply log_perm; [exact H| |reflexivity]. unfold chain, popped. now rewrite Ec.
Qed.

Lemma log_run : forall c clock evs, log_ok (bc_run c (bstate_new clock) evs).
Proof.
  intros c clock evs. induction evs as [|e evs IH] using rev_ind.
  - split; [constructor|]. intros id. cbn. rewrite lookup_empty. split; [intros [x Hx]; discriminate|intros []].
  - rewrite bc_run_last. now apply log_step.
Qed.

(** ** The counter *)
Definition held (s : bstate) : nat := match br_collector s with CRemove _ | CSub => 1 | _ => 0 end.
Record count_ok (k : nat) (s : bstate) : Prop := mk_count_ok
  { co_count : (N.of_nat (length (timed_out s)) + N.of_nat (held s) = br_count s + N.of_nat k)%N;
    co_busy : br_collector s <> CCheck -> 1 <= br_count s }.

Lemma count_same : forall k s s', count_ok k s -> length (timed_out s') = length (timed_out s) ->
  br_count s' = br_count s -> br_collector s' = br_collector s -> count_ok k s'.
Proof. intros k s s' [H1 H2] Hl Hc Hb. split; unfold held; rewrite ?Hl, ?Hc, ?Hb; assumption. Qed.

Lemma remove_nth_length : forall {A} (l : list A) i x, nth_error l i = Some x -> length l = S (length (remove_nth l i)).
Proof. intros A l i x H. exact (Permutation_length (remove_nth_perm l i x H)). Qed.

Lemma count_step : forall c k s e, count_ok k s -> count_ok ((if empty_pop s e then 1 else 0) + k)%nat (bc_step c s e).
Proof.
  intros c k s e H.
  destruct e as [ms|e peer raw b|e peer raw b|secret data targets|secret data targets|i|i|i|]; cbn [bc_step].
  - eapply count_same; eauto.
  - destruct (receive_broadcast_cases (bs_prims c) (bs_zstd c) (bs_checks c) (bs_options c) e s peer raw b) as [->|(data & from & _ & _ & _ & _ & Hn & ->)]; [exact H|].
    eapply count_same; eauto.
  - destruct (receive_fec_cases (bs_prims c) (bs_checks c) (bs_options c) e s peer raw b) as [->|(key & _ & _ & _ & _ & _ & Hc)]; [exact H|].
    cbv zeta in Hc.
    assert (Hs1 : count_ok k (with_entry (bs_options c) s (bf_fec b) (bf_data_hash b) (node_id (bs_prims c) key))).
    { unfold with_entry. destruct (br_owned s !! _); [exact H|]. eapply count_same; eauto. }
    set (s1 := with_entry _ _ _ _ _) in *.
    destruct Hc as [[-> _]|(t & t' & Hown & _ & Hc)]; [exact Hs1|].
    destruct Hc as [[-> _]|(_ & _ & targets & _ & [[_ ->]|(_ & task & _ & _ & ->)])]; (eapply count_same; [exact Hs1|..]; reflexivity).
  - destruct (send_broadcast_cases (bs_prims c) (bs_zstd c) (bs_options c) (bs_overlay c) secret s data targets) as [->|(Hn & m & ->)]; [exact H|].
    eapply count_same; [exact H|..]; reflexivity.
  - destruct (send_fec_cases (bs_prims c) (bs_zstd c) (bs_options c) (bs_overlay c) secret s data targets) as [->|(Hn & ->)]; [exact H|].
    eapply count_same; [exact H|..]; reflexivity.
  - destruct (task_step_cases (bs_prims c) (bs_zstd c) (bs_fec c) s i) as [->|(t & Ht & Hc)]; [exact H|].
    destruct Hc as [(Hp & p & rest & r & d & Hq & Hpf & Hc)|[(Hp & Hq & -> & _)|(Hp & m & -> & Hm)]].
    + destruct Hc as [[_ ->]|[(data & _ & ->)|[_ ->]]]; (eapply count_same; [exact H|..]; reflexivity).
    + eapply count_same; [exact H|..]; reflexivity.
    + eapply count_same; [exact H|..]; reflexivity.
  - unfold timer_step. destruct (nth_error _ _) as [t|] eqn:Ht; [|exact H]. destruct (_ <? _); [exact H|].
    destruct t as [id due|id due].
    + destruct (match br_owned s !! id with Some _ => _ | None => _ end); (eapply count_same; [exact H|..]; reflexivity).
    + destruct H as [H1 H2]. split; cbn [set_queue set_timers br_count br_collector]; unfold timed_out, held in *;
        cbn [empty_pop set_queue set_timers br_pending br_finished br_collector br_count] in *; rewrite ?app_length in *; cbn [length] in *; lia.
  - unfold push_step. destruct (nth_error _ _) as [id|] eqn:Hn; [|exact H].
    eapply count_same; [exact H| |reflexivity|reflexivity]. unfold timed_out.
    cbn [set_queue br_pending br_finished]. rewrite !app_length. rewrite (remove_nth_length _ _ _ Hn). cbn [length]. lia.
  - destruct H as [H1 H2]. unfold collector_step, empty_pop. destruct (br_collector s) eqn:Ec.
    + destruct (N.ltb_spec (bo_log (bs_options c)) (br_count s)).
      * split; unfold timed_out, held in *; cbn; rewrite Ec in *; lia.
      * split; unfold timed_out, held in *; rewrite Ec in *; auto; lia.
    + destruct (br_finished s) as [|id rest] eqn:Ef; split; unfold timed_out, held in *; cbn; rewrite Ec, Ef in *; cbn [length] in *; rewrite ?app_length in *; cbn [length] in *; try lia; intros _; apply H2; discriminate.
    + split; unfold timed_out, held in *; cbn; rewrite Ec in *; [lia|]. intros _. apply H2. discriminate.
    + assert (1 <= br_count s) by (apply H2; discriminate). split; unfold timed_out, held in *; cbn; rewrite Ec in *; [lia|]. congruence.
Qed.

Lemma count_run_from : forall c evs k s, count_ok k s -> count_ok (empty_pops c s evs + k)%nat (bc_run c s evs).
Proof.
  intros c evs. induction evs as [|e evs IH]; intros k s H; [exact H|].
  cbn [empty_pops bc_run fold_left]. specialize (IH _ _ (count_step c k s e H)). fold (bc_run c (bc_step c s e) evs).
  replace ((if empty_pop s e then 1 else 0) + empty_pops c (bc_step c s e) evs + k)%nat
    with (empty_pops c (bc_step c s e) evs + ((if empty_pop s e then 1 else 0) + k))%nat by lia. exact IH.
Qed.
Lemma count_run : forall c clock evs, count_ok (empty_pops c (bstate_new clock) evs) (bc_run c (bstate_new clock) evs).
Proof.
  intros. rewrite <- (Nat.add_0_r (empty_pops _ _ _)). apply count_run_from. split; cbn; [reflexivity|congruence].
Qed.

(** One pass of the collector when nothing is between the counter and the queue. *)
Lemma collect_once : forall c s id rest, br_collector s = CCheck -> bo_log (bs_options c) < br_count s ->
  br_finished s = id :: rest ->
  bc_run c s (repeat EvCollect 4) =
    mk_bstate (br_clock s) (delete id (br_owned s)) (br_tasks s) (br_timers s) (br_pending s) rest (br_count s - 1)
      CCheck (br_delivered s) (br_sent s).
Proof.
  intros c s id rest Hc Hl Hf. cbn [repeat bc_run fold_left bc_step].
  unfold collector_step at 4. rewrite Hc. apply N.ltb_lt in Hl. rewrite Hl.
  unfold collector_step at 3. cbn [set_collector br_collector br_finished]. rewrite Hf. reflexivity.
Qed.

Lemma collect_pass : forall c n s, br_collector s = CCheck -> (N.to_nat (br_count s - bo_log (bs_options c)) = n) ->
  br_count s <= N.of_nat (length (br_finished s)) ->
  let s' := bc_run c s (repeat EvCollect (4 * n)) in
  br_collector s' = CCheck /\ br_count s' = N.min (br_count s) (bo_log (bs_options c))
  /\ br_pending s' = br_pending s
  /\ br_finished s' = skipn n (br_finished s)
  /\ (forall id, br_owned s' !! id = if in_dec (List.list_eq_dec N.eq_dec) id (firstn n (br_finished s)) then None else br_owned s !! id).
Proof.
  intros c n. induction n as [|n IH]; intros s Hc Hn Hl.
  - cbn. rewrite Hc. repeat split; auto. lia.
  - destruct (br_finished s) as [|id rest] eqn:Ef; [cbn [length] in Hl; lia|].
    replace (4 * S n)%nat with (4 + 4 * n)%nat by lia. rewrite repeat_app. unfold bc_run. rewrite fold_left_app.
    fold (bc_run c s (repeat EvCollect 4)). rewrite (collect_once c s id rest Hc) by (auto; lia).
    set (s1 := mk_bstate _ _ _ _ _ _ _ _ _ _). fold (bc_run c s1 (repeat EvCollect (4 * n))).
    cbn [length] in Hl.
    destruct (IH s1) as (H1 & H2 & H3 & H4 & H5); [reflexivity|cbn; lia|cbn; lia|].
    cbv zeta. split; [exact H1|]. split; [rewrite H2; cbn; lia|]. split; [exact H3|]. split; [exact H4|].
    intros x. rewrite H5. cbn [firstn s1 br_finished br_owned].
    destruct (in_dec (List.list_eq_dec N.eq_dec) x (firstn n rest)) as [Hi|Hi]; destruct (in_dec (List.list_eq_dec N.eq_dec) x (id :: firstn n rest)) as [Hj|Hj]; cbn in Hj.
    + reflexivity.
    + exfalso. auto.
    + destruct Hj as [<-|Hj]; [apply lookup_delete|contradiction].
    + apply lookup_delete_ne. intros ->. auto.
Qed.

(** ** Nothing is forgotten before its time. *)
Definition young (o : bc_options) (T : N) (x : bytes) (s : bstate) : Prop :=
  exists t, In t (br_timers s) /\ timer_id t = x
  /\ match t with Cleanup _ _ => True | Removal _ due => T + bo_timeout o * 1000 <= due end.

Lemma young_owned : forall o T x s, log_ok s -> young o T x s -> is_Some (br_owned s !! x).
Proof.
  intros o T x s [_ H] (t & Ht & <- & _). apply H. unfold chain. apply in_or_app. left. now apply in_map.
Qed.

Lemma clock_step : forall c s e, br_clock s <= br_clock (bc_step c s e)
  /\ (match e with EvTick _ => True | _ => br_clock (bc_step c s e) = br_clock s end).
Proof.
  intros c s e.
  destruct e as [ms|e peer raw b|e peer raw b|secret data targets|secret data targets|i|i|i|]; cbn [bc_step].
  - split; [cbn; lia|exact I].
  - destruct (receive_broadcast_cases (bs_prims c) (bs_zstd c) (bs_checks c) (bs_options c) e s peer raw b) as [->|(data & from & _ & _ & _ & _ & Hn & ->)]; cbn; split; lia || reflexivity.
  - assert (He : br_clock (receive_fec (bs_prims c) (bs_checks c) (bs_options c) e s peer raw b).2 = br_clock s).
    { destruct (receive_fec_cases (bs_prims c) (bs_checks c) (bs_options c) e s peer raw b) as [->|(key & _ & _ & _ & _ & _ & Hc)]; [reflexivity|].
      cbv zeta in Hc.
      assert (Hs1 : br_clock (with_entry (bs_options c) s (bf_fec b) (bf_data_hash b) (node_id (bs_prims c) key)) = br_clock s).
      { unfold with_entry. now destruct (br_owned s !! _). }
      destruct Hc as [[-> _]|(t & t' & Hown & _ & Hc)]; [exact Hs1|].
      destruct Hc as [[-> _]|(_ & _ & targets & _ & [[_ ->]|(_ & task & _ & _ & ->)])]; exact Hs1. }
    rewrite He. split; [lia|reflexivity].
  - destruct (send_broadcast_cases (bs_prims c) (bs_zstd c) (bs_options c) (bs_overlay c) secret s data targets) as [->|(Hn & m & ->)]; cbn; split; lia || reflexivity.
  - destruct (send_fec_cases (bs_prims c) (bs_zstd c) (bs_options c) (bs_overlay c) secret s data targets) as [->|(Hn & ->)]; cbn; split; lia || reflexivity.
  - destruct (task_step_cases (bs_prims c) (bs_zstd c) (bs_fec c) s i) as [->|(t & Ht & Hc)]; [split; lia || reflexivity|].
    destruct Hc as [(Hp & p & rest & r & d & Hq & Hpf & [[_ ->]|[(data & _ & ->)|[_ ->]]])|[(Hp & Hq & -> & _)|(Hp & m & -> & Hm)]]; cbn; split; lia || reflexivity.
  - unfold timer_step. destruct (nth_error _ _) as [t|] eqn:Ht; [|split; lia || reflexivity]. destruct (_ <? _); [split; lia || reflexivity|].
    destruct t as [id due|id due]; [destruct (match br_owned s !! id with Some _ => _ | None => _ end)|]; cbn; split; lia || reflexivity.
  - unfold push_step. destruct (nth_error _ _); cbn; split; lia || reflexivity.
  - unfold collector_step. destruct (br_collector s); [destruct (_ <? _)|destruct (br_finished s)| |]; cbn; split; lia || reflexivity.
Qed.

Lemma clock_run : forall c evs s, br_clock s <= br_clock (bc_run c s evs).
Proof.
  intros c evs. induction evs as [|e evs IH]; intros s; [reflexivity|]. cbn [bc_run fold_left].
  fold (bc_run c (bc_step c s e) evs). pose proof (proj1 (clock_step c s e)). pose proof (IH (bc_step c s e)). lia.
Qed.

Lemma young_more : forall o T x s s', (forall t, In t (br_timers s) -> In t (br_timers s')) -> young o T x s -> young o T x s'.
Proof. intros o T x s s' H (t & Ht & Hr). exists t. auto. Qed.

Lemma in_remove_nth : forall {A} (l : list A) i t x, nth_error l i = Some t -> In x l -> x = t \/ In x (remove_nth l i).
Proof.
  intros A l i t x H Hx. apply (Permutation_in _ (remove_nth_perm l i t H)) in Hx as [->|Hx]; auto.
Qed.

(** A young entry stays young until its time has passed. *)
Lemma young_step : forall c T x s e, T <= br_clock s -> young (bs_options c) T x s ->
  young (bs_options c) T x (bc_step c s e) \/ T + bo_timeout (bs_options c) * 1000 <= br_clock s.
Proof.
  intros c T x s e HT Hy.
  destruct e as [ms|e peer raw b|e peer raw b|secret data targets|secret data targets|i|i|i|]; cbn [bc_step].
  - left. exact Hy.
  - destruct (receive_broadcast_cases (bs_prims c) (bs_zstd c) (bs_checks c) (bs_options c) e s peer raw b) as [->|(data & from & _ & _ & _ & _ & Hn & ->)]; [now left|].
    left. eapply young_more; [|exact Hy]. intros t Ht. cbn. apply in_or_app. now left.
  - left. destruct (receive_fec_cases (bs_prims c) (bs_checks c) (bs_options c) e s peer raw b) as [->|(key & _ & _ & _ & _ & _ & Hc)]; [exact Hy|].
    cbv zeta in Hc.
    assert (Hs1 : young (bs_options c) T x (with_entry (bs_options c) s (bf_fec b) (bf_data_hash b) (node_id (bs_prims c) key))).
    { unfold with_entry. destruct (br_owned s !! _); [exact Hy|]. eapply young_more; [|exact Hy]. intros t Ht. cbn. apply in_or_app. now left. }
    destruct Hc as [[-> _]|(t & t' & Hown & _ & Hc)]; [exact Hs1|].
    destruct Hc as [[-> _]|(_ & _ & targets & _ & [[_ ->]|(_ & task & _ & _ & ->)])]; exact Hs1.
  - destruct (send_broadcast_cases (bs_prims c) (bs_zstd c) (bs_options c) (bs_overlay c) secret s data targets) as [->|(Hn & m & ->)]; [now left|].
    left. eapply young_more; [|exact Hy]. intros t Ht. cbn. apply in_or_app. now left.
  - destruct (send_fec_cases (bs_prims c) (bs_zstd c) (bs_options c) (bs_overlay c) secret s data targets) as [->|(Hn & ->)]; [now left|].
    left. eapply young_more; [|exact Hy]. intros t Ht. cbn. apply in_or_app. now left.
  - left. destruct (task_step_cases (bs_prims c) (bs_zstd c) (bs_fec c) s i) as [->|(t & Ht & Hc)]; [exact Hy|].
    destruct Hc as [(Hp & p & rest & r & d & Hq & Hpf & [[_ ->]|[(data & _ & ->)|[_ ->]]])|[(Hp & Hq & -> & _)|(Hp & m & -> & Hm)]]; exact Hy.
  - unfold timer_step. destruct (nth_error _ _) as [t|] eqn:Ht; [|now left].
    destruct (N.ltb_spec (br_clock s) (timer_due t)) as [|Hdue]; [now left|].
    destruct Hy as (y & Hy & Hx & Hyt). destruct (in_remove_nth _ _ _ _ Ht Hy) as [->|Hy'].
    + destruct t as [id due|id due].
      * left. cbn in Hx. subst id. destruct (match br_owned s !! x with Some _ => _ | None => _ end).
        -- exists (Cleanup x (br_clock s + bo_timeout (bs_options c) * 100)). cbn. split; [apply in_or_app; right; now left|auto].
        -- exists (Removal x (br_clock s + bo_timeout (bs_options c) * 1000)). cbn. split; [apply in_or_app; right; now left|]. split; [reflexivity|lia].
      * right. cbn in Hdue. lia.
    + left. exists y. split; [|auto]. destruct t as [id due|id due].
      * destruct (match br_owned s !! id with Some _ => _ | None => _ end); cbn; apply in_or_app; now left.
      * exact Hy'.
  - left. unfold push_step. now destruct (nth_error _ _).
  - left. unfold collector_step. destruct (br_collector s); [destruct (_ <? _)|destruct (br_finished s)| |]; exact Hy.
Qed.

(** An entry that appears is young. *)
Lemma new_young : forall c x s e, br_owned s !! x = None -> is_Some (br_owned (bc_step c s e) !! x) ->
  young (bs_options c) (br_clock s) x (bc_step c s e).
Proof.
  intros c x s e Hn Hs. revert Hs.
  destruct e as [ms|e peer raw b|e peer raw b|secret data targets|secret data targets|i|i|i|]; cbn [bc_step]; intros Hs.
  - cbn in Hs. rewrite Hn in Hs. now destruct Hs.
  - destruct (receive_broadcast_cases (bs_prims c) (bs_zstd c) (bs_checks c) (bs_options c) e s peer raw b) as [He|(data & from & _ & _ & _ & _ & _ & He)]; rewrite He in *.
    + rewrite Hn in Hs. now destruct Hs.
    + cbn [accepted_state br_owned] in Hs. apply insert_dom in Hs as [->|Hs]; [|rewrite Hn in Hs; now destruct Hs].
      eexists. split; [cbn; apply in_or_app; right; now left|]. split; [reflexivity|]. cbn. lia.
  - destruct (receive_fec_cases (bs_prims c) (bs_checks c) (bs_options c) e s peer raw b) as [He|(key & _ & _ & _ & _ & _ & Hc)].
    { rewrite He in Hs. rewrite Hn in Hs. now destruct Hs. }
    cbv zeta in Hc.
    assert (Hs1 : is_Some (br_owned (with_entry (bs_options c) s (bf_fec b) (bf_data_hash b) (node_id (bs_prims c) key)) !! x) ->
       young (bs_options c) (br_clock s) x (with_entry (bs_options c) s (bf_fec b) (bf_data_hash b) (node_id (bs_prims c) key))).
    { unfold with_entry. destruct (br_owned s !! bf_data_hash b) eqn:E; intros Hx; [rewrite Hn in Hx; now destruct Hx|].
      unfold spawn_fec_receiver in Hx. cbn [set_timers set_tasks set_owned br_owned] in Hx.
      apply insert_dom in Hx as [->|Hx]; [|rewrite Hn in Hx; now destruct Hx].
      eexists. split; [cbn; apply in_or_app; right; now left|]. split; [reflexivity|exact I]. }
    set (s1 := with_entry _ _ _ _ _) in *.
    destruct Hc as [[He _]|(t & t' & Hown & _ & Hc)]; [rewrite He in *; now apply Hs1|].
    assert (Hd : is_Some (<[bf_data_hash b := Incoming t']> (br_owned s1) !! x) -> is_Some (br_owned s1 !! x)).
    { intros Hx. apply update_dom in Hx; [exact Hx|]. rewrite Hown. eauto. }
    destruct Hc as [[He _]|(_ & _ & targets & _ & [[_ He]|(_ & task & _ & _ & He)])]; rewrite He in *; exact (Hs1 (Hd Hs)).
  - destruct (send_broadcast_cases (bs_prims c) (bs_zstd c) (bs_options c) (bs_overlay c) secret s data targets) as [He|(_ & m & He)]; rewrite He in *.
    + rewrite Hn in Hs. now destruct Hs.
    + cbn [br_owned] in Hs. apply insert_dom in Hs as [->|Hs]; [|rewrite Hn in Hs; now destruct Hs].
      eexists. split; [cbn; apply in_or_app; right; now left|]. split; [reflexivity|]. cbn. lia.
  - destruct (send_fec_cases (bs_prims c) (bs_zstd c) (bs_options c) (bs_overlay c) secret s data targets) as [He|(_ & He)]; rewrite He in *.
    + rewrite Hn in Hs. now destruct Hs.
    + cbn [br_owned] in Hs. apply insert_dom in Hs as [->|Hs]; [|rewrite Hn in Hs; now destruct Hs].
      eexists. split; [cbn; apply in_or_app; right; now left|]. split; [reflexivity|]. cbn. lia.
  - exfalso. destruct (task_step_cases (bs_prims c) (bs_zstd c) (bs_fec c) s i) as [He|(t & Ht & Hc)]; [rewrite He, Hn in Hs; now destruct Hs|].
    destruct Hc as [(Hp & p & rest & r & d & Hq & Hpf & [[_ He]|[(data & _ & He)|[_ He]]])|[(Hp & Hq & He & _)|(Hp & m & He & Hm)]]; rewrite He in Hs; try (cbn in Hs; rewrite Hn in Hs; now destruct Hs).
    cbn [set_tasks set_owned br_owned] in Hs. destruct Hm as [->|(k & Hk & ->)]; [rewrite Hn in Hs; now destruct Hs|].
    apply update_dom in Hs; [rewrite Hn in Hs; now destruct Hs|]. rewrite Hk. eauto.
  - exfalso. assert (Ho : br_owned (timer_step (bs_options c) s i) = br_owned s).
    { unfold timer_step. destruct (nth_error _ _) as [t|]; [|reflexivity]. destruct (_ <? _); [reflexivity|].
      destruct t as [id due|id due]; [destruct (match br_owned s !! id with Some _ => _ | None => _ end)|]; reflexivity. }
    rewrite Ho, Hn in Hs. now destruct Hs.
  - exfalso. unfold push_step in Hs. destruct (nth_error _ _); cbn in Hs; rewrite Hn in Hs; now destruct Hs.
  - exfalso. unfold collector_step in Hs. destruct (br_collector s); [destruct (_ <? _)|destruct (br_finished s)| |]; cbn [set_collector set_queue set_owned br_owned] in Hs; try (rewrite Hn in Hs; now destruct Hs).
    apply lookup_delete_is_Some in Hs as [_ Hs]. rewrite Hn in Hs. now destruct Hs.
Qed.

Lemma young_run : forall c T x evs s, T <= br_clock s -> young (bs_options c) T x s ->
  young (bs_options c) T x (bc_run c s evs) \/ T + bo_timeout (bs_options c) * 1000 <= br_clock (bc_run c s evs).
Proof.
  intros c T x evs. induction evs as [|e evs IH] using rev_ind; intros s HT Hy; [now left|].
  rewrite bc_run_last. pose proof (clock_run c evs s). pose proof (proj1 (clock_step c (bc_run c s evs) e)).
  destruct (IH s HT Hy) as [Hy'|Hl]; [|right; lia].
  destruct (young_step c T x (bc_run c s evs) e) as [H'|H']; [lia|exact Hy'|now left|right; lia].
Qed.

(** C54 *)
Theorem log_bounded : forall c clock evs,
  let s := bc_run c (bstate_new clock) evs in
  let missed := N.of_nat (empty_pops c (bstate_new clock) evs) in
  let limit := bo_log (bs_options c) in
  (br_collector s = CCheck -> br_count s <= limit -> N.of_nat (length (timed_out s)) <= limit + missed)
  /\ (br_collector s = CCheck -> br_pending s = [] ->
      exists n, let s' := bc_run c s (repeat EvCollect n) in
        br_collector s' = CCheck /\ br_count s' <= limit
        /\ N.of_nat (length (timed_out s')) = N.min (N.of_nat (length (timed_out s))) (limit + missed)
        /\ exists dropped, timed_out s = dropped ++ timed_out s'
           /\ (forall id, In id dropped -> br_owned s' !! id = None)
           /\ (forall id, ~ In id dropped -> br_owned s' !! id = br_owned s !! id))
  /\ (forall id, In id (timed_out s) -> is_Some (br_owned s !! id)).
Proof.
  intros c clock evs s missed limit. pose proof (count_run c clock evs) as [H1 H2]. fold s in H1, H2.
  split; [|split].
  - intros Hc Hl. unfold held in H1. rewrite Hc in H1. unfold limit, missed in *. lia.
  - intros Hc Hp. set (n := N.to_nat (br_count s - bo_log (bs_options c))). exists (4 * n)%nat. cbv zeta.
    unfold held in H1. rewrite Hc in H1. unfold timed_out in *. rewrite Hp in *. cbn [app] in *.
    destruct (collect_pass c n s Hc eq_refl) as (P1 & P2 & P3 & P4 & P5); [lia|].
    rewrite P3, Hp, P4. cbn [app]. split; [exact P1|]. split; [unfold limit; lia|].
    split; [rewrite skipn_length; unfold n, limit, missed; lia|].
    exists (firstn n (br_finished s)). split; [now rewrite firstn_skipn|]. split.
    + intros id Hi. rewrite P5. now destruct (in_dec (List.list_eq_dec N.eq_dec) id _).
    + intros id Hi. rewrite P5. now destruct (in_dec (List.list_eq_dec N.eq_dec) id _).
  - intros id Hi. apply (lo_dom s (log_run c clock evs)). unfold chain. apply in_or_app. right. rewrite app_assoc. apply in_or_app. now left.
Qed.

Theorem kept_in_time : forall c clock before e after id,
  let s := bc_run c (bstate_new clock) before in
  let s' := bc_run c (bc_step c s e) after in
  br_owned s !! id = None -> is_Some (br_owned (bc_step c s e) !! id) ->
  br_clock s' < br_clock s + bo_timeout (bs_options c) * 1000 ->
  is_Some (br_owned s' !! id).
Proof.
  intros c clock before e after id s s' Hn Hs Hl.
  assert (Hrun : s' = bc_run c (bstate_new clock) (before ++ e :: after)).
  { unfold s', s, bc_run. now rewrite fold_left_app. }
  pose proof (new_young c id s e Hn Hs) as Hy.
  destruct (young_run c (br_clock s) id after (bc_step c s e)) as [H|H]; [apply clock_step|exact Hy| |fold s' in H; lia].
  eapply young_owned; [|exact H]. fold s'. rewrite Hrun. apply log_run.
Qed.

(** ** At most once *)
Definition live (x : bytes) (s : bstate) : nat :=
  length (List.filter (fun t => bytes_eqb (tk_id t) x && match tk_phase t with Running => true | _ => false end) (br_tasks s)).

Definition running (x : bytes) (t : fec_task) : bool :=
  bytes_eqb (tk_id t) x && match tk_phase t with Running => true | _ => false end.

Lemma filter_update : forall (p : fec_task -> bool) l i f t, nth_error l i = Some t ->
  (length (List.filter p (update_task l i f)) + (if p t then 1 else 0)
   = length (List.filter p l) + (if p (f t) then 1 else 0))%nat.
Proof.
  intros p l i f t H. unfold update_task. rewrite H. rewrite (nth_error_split' l i t H) at 3.
  rewrite !List.filter_app, !app_length. cbn [List.filter]. destruct (p t), (p (f t)); cbn [length]; lia.
Qed.

Definition total (x : bytes) (s : bstate) : nat := (deliveries x s + live x s)%nat.

Lemma total_same : forall x s s', br_tasks s' = br_tasks s -> br_delivered s' = br_delivered s -> total x s' = total x s.
Proof. intros x s s' H1 H2. unfold total, deliveries, live. now rewrite H1, H2. Qed.

Lemma total_entry : forall x o s params id source,
  total x (with_entry o s params id source) =
  (total x s + if bytes_eqb id x then match br_owned s !! id with None => 1 | Some _ => 0 end else 0)%nat.
Proof.
  intros x o s params id source. unfold with_entry. destruct (br_owned s !! id) eqn:E.
  - destruct (bytes_eqb id x); lia.
  - unfold total, deliveries, live, spawn_fec_receiver. cbn [set_timers set_tasks set_owned br_tasks br_delivered].
    rewrite List.filter_app, app_length. cbn [List.filter tk_id tk_phase]. rewrite andb_true_r. destruct (bytes_eqb id x); cbn [length]; lia.
Qed.

Lemma total_step : forall c x s e,
  (total x (bc_step c s e) <= total x s)%nat
  \/ (total x (bc_step c s e) = S (total x s) /\ br_owned s !! x = None /\ is_Some (br_owned (bc_step c s e) !! x)
      /\ match e with
         | EvBroadcast _ _ _ b => In x (broadcast_ids (bs_prims c) (bs_zstd c) b) /\ now_sec s <= ob_date b + bo_timeout (bs_options c)
         | EvFec _ _ _ b => bf_data_hash b = x /\ now_sec s <= bf_date b + bo_timeout (bs_options c)
         | _ => False
         end).
Proof.
  intros c x s e.
  destruct e as [ms|e peer raw b|e peer raw b|secret data targets|secret data targets|i|i|i|]; cbn [bc_step].
  - left. reflexivity.
  - destruct (receive_broadcast_cases (bs_prims c) (bs_zstd c) (bs_checks c) (bs_options c) e s peer raw b) as [->|(data & from & _ & Ht & _ & Hid & Hn & ->)]; [now left|].
    set (id := sha256 _ _) in *.
    assert (He : total x (accepted_state (bs_options c) e s peer raw id data from) = (total x s + if bytes_eqb id x then 1 else 0)%nat).
    { unfold total, deliveries, live. cbn [accepted_state br_delivered br_tasks]. rewrite List.filter_app, app_length.
      cbn [List.filter dl_id]. destruct (bytes_eqb id x); cbn [length]; lia. }
    rewrite He. destruct (bytes_eqb id x) eqn:Ex; [|left; lia]. right. apply bytes_eqb_eq in Ex. subst x.
    split; [lia|]. split; [exact Hn|]. split; [|split; [exact Hid|exact Ht]]. cbn. rewrite lookup_insert. eauto.
  - destruct (receive_fec_cases (bs_prims c) (bs_checks c) (bs_options c) e s peer raw b) as [->|(key & _ & _ & _ & Ht & _ & Hc)]; [now left|].
    cbv zeta in Hc. pose proof (total_entry x (bs_options c) s (bf_fec b) (bf_data_hash b) (node_id (bs_prims c) key)) as Hs1.
    assert (Hsome : is_Some (br_owned (with_entry (bs_options c) s (bf_fec b) (bf_data_hash b) (node_id (bs_prims c) key)) !! bf_data_hash b)).
    { unfold with_entry. destruct (br_owned s !! bf_data_hash b) eqn:E; [rewrite E; eauto|].
      unfold spawn_fec_receiver. cbn. rewrite lookup_insert. eauto. }
    set (s1 := with_entry _ _ _ _ _) in *. set (s' := snd _) in *.
    assert (Hs' : total x s' = total x s1 /\ is_Some (br_owned s' !! bf_data_hash b)).
    { destruct Hc as [[-> _]|(t & t' & Hown & _ & Hc)]; [now split|].
      destruct Hc as [[-> _]|(_ & _ & targets & _ & [[_ ->]|(_ & task & Hn & Hph & ->)])].
      - split; [now apply total_same|]. cbn. rewrite lookup_insert. eauto.
      - split; [now apply total_same|]. cbn. rewrite lookup_insert. eauto.
      - split; [|cbn; rewrite lookup_insert; eauto].
        unfold total, deliveries, live. cbn [distribute set_tasks set_owned br_tasks br_delivered]. f_equal.
        pose proof (filter_update (running x) (br_tasks s1) (ic_task t) (push_packet (packet_of key b)) task Hn) as Hf.
        change (running x (push_packet (packet_of key b) task)) with (running x task) in Hf. unfold running in Hf at 1 3. lia. }
    destruct Hs' as [Hs' Hsome']. rewrite Hs', Hs1. destruct (bytes_eqb (bf_data_hash b) x) eqn:Ex; [|left; lia].
    apply bytes_eqb_eq in Ex. destruct (br_owned s !! bf_data_hash b) eqn:En; [left; lia|]. right.
    subst x. split; [lia|]. split; [exact En|]. split; [exact Hsome'|]. split; [reflexivity|exact Ht].
  - left. destruct (send_broadcast_cases (bs_prims c) (bs_zstd c) (bs_options c) (bs_overlay c) secret s data targets) as [->|(Hn & m & ->)]; [reflexivity|].
    now rewrite (total_same x s).
  - left. destruct (send_fec_cases (bs_prims c) (bs_zstd c) (bs_options c) (bs_overlay c) secret s data targets) as [->|(Hn & ->)]; [reflexivity|].
    now rewrite (total_same x s).
  - left. destruct (task_step_cases (bs_prims c) (bs_zstd c) (bs_fec c) s i) as [->|(t & Ht & Hc)]; [reflexivity|].
    destruct Hc as [(Hp & p & rest & r & d & Hq & Hpf & [[_ ->]|[(data & _ & ->)|[_ ->]]])|[(Hp & Hq & -> & _)|(Hp & m & -> & Hm)]].
    all: unfold total, deliveries, live; cbn [deliver_data set_tasks set_owned br_tasks br_delivered];
      rewrite ?List.filter_app, ?app_length; cbn [List.filter dl_id];
      change (fun t : fec_task => bytes_eqb (tk_id t) x && match tk_phase t with Running => true | _ => false end) with (running x);
      match goal with |- context [update_task _ ?j ?f] => pose proof (filter_update (running x) _ j f t Ht) as Hf end;
      unfold running at 2 4 in Hf; cbn [tk_id tk_phase] in Hf; rewrite Hp in Hf; rewrite ?andb_true_r, ?andb_false_r in Hf;
      destruct (bytes_eqb (tk_id t) x); cbn [length]; lia.
  - left. rewrite (total_same x s); [reflexivity| |];
      (unfold timer_step; destruct (nth_error _ _) as [t|]; [|reflexivity]; destruct (_ <? _); [reflexivity|];
      destruct t as [id due|id due]; [destruct (match br_owned s !! id with Some _ => _ | None => _ end)|]; reflexivity).
  - left. unfold push_step. now destruct (nth_error _ _).
  - left. unfold collector_step. now destruct (br_collector s); [destruct (_ <? _)|destruct (br_finished s)| |].
Qed.

Lemma fresh_step : forall c x s e, (forall now, ~ about c x now e) -> br_owned s !! x = None ->
  br_owned (bc_step c s e) !! x = None.
Proof.
  intros c x s e Ha Hn. destruct (br_owned (bc_step c s e) !! x) eqn:E; [exfalso|reflexivity].
  assert (Hs : is_Some (br_owned (bc_step c s e) !! x)) by (rewrite E; eauto). clear E. revert Hs.
  destruct e as [ms|e peer raw b|e peer raw b|secret data targets|secret data targets|i|i|i|]; cbn [bc_step]; intros Hs.
  - cbn in Hs. rewrite Hn in Hs. now destruct Hs.
  - destruct (receive_broadcast_cases (bs_prims c) (bs_zstd c) (bs_checks c) (bs_options c) e s peer raw b) as [He|(data & from & _ & _ & _ & Hid & _ & He)]; rewrite He in *.
    + rewrite Hn in Hs. now destruct Hs.
    + cbn [accepted_state br_owned] in Hs. apply insert_dom in Hs as [->|Hs]; [|rewrite Hn in Hs; now destruct Hs].
      exact (Ha 0 Hid).
  - destruct (receive_fec_cases (bs_prims c) (bs_checks c) (bs_options c) e s peer raw b) as [He|(key & _ & _ & _ & _ & _ & Hc)].
    { rewrite He in Hs. rewrite Hn in Hs. now destruct Hs. }
    cbv zeta in Hc.
    assert (Hs1 : br_owned (with_entry (bs_options c) s (bf_fec b) (bf_data_hash b) (node_id (bs_prims c) key)) !! x = None).
    { unfold with_entry. destruct (br_owned s !! bf_data_hash b) eqn:E; [exact Hn|].
      unfold spawn_fec_receiver. cbn [set_timers set_tasks set_owned br_owned].
      rewrite lookup_insert_ne; [exact Hn|]. exact (Ha 0). }
    set (s1 := with_entry _ _ _ _ _) in *.
    destruct Hc as [[He _]|(t & t' & Hown & _ & Hc)]; [rewrite He, Hs1 in Hs; now destruct Hs|].
    assert (Hd : is_Some (<[bf_data_hash b := Incoming t']> (br_owned s1) !! x) -> False).
    { intros Hx. apply update_dom in Hx; [rewrite Hs1 in Hx; now destruct Hx|]. rewrite Hown. eauto. }
    destruct Hc as [[He _]|(_ & _ & targets & _ & [[_ He]|(_ & task & _ & _ & He)])]; rewrite He in Hs; exact (Hd Hs).
  - destruct (send_broadcast_cases (bs_prims c) (bs_zstd c) (bs_options c) (bs_overlay c) secret s data targets) as [He|(_ & m & He)]; rewrite He in *.
    + rewrite Hn in Hs. now destruct Hs.
    + cbn [br_owned] in Hs. apply insert_dom in Hs as [->|Hs]; [|rewrite Hn in Hs; now destruct Hs].
      now apply (Ha (now_sec s)).
  - destruct (send_fec_cases (bs_prims c) (bs_zstd c) (bs_options c) (bs_overlay c) secret s data targets) as [He|(_ & He)]; rewrite He in *.
    + rewrite Hn in Hs. now destruct Hs.
    + cbn [br_owned] in Hs. apply insert_dom in Hs as [->|Hs]; [|rewrite Hn in Hs; now destruct Hs].
      now apply (Ha 0).
  - exfalso. destruct (task_step_cases (bs_prims c) (bs_zstd c) (bs_fec c) s i) as [He|(t & Ht & Hc)]; [rewrite He, Hn in Hs; now destruct Hs|].
    destruct Hc as [(Hp & p & rest & r & d & Hq & Hpf & [[_ He]|[(data & _ & He)|[_ He]]])|[(Hp & Hq & He & _)|(Hp & m & He & Hm)]]; rewrite He in Hs; try (cbn in Hs; rewrite Hn in Hs; now destruct Hs).
    cbn [set_tasks set_owned br_owned] in Hs. destruct Hm as [->|(k & Hk & ->)]; [rewrite Hn in Hs; now destruct Hs|].
    apply update_dom in Hs; [rewrite Hn in Hs; now destruct Hs|]. rewrite Hk. eauto.
  - assert (Ho : br_owned (timer_step (bs_options c) s i) = br_owned s).
    { unfold timer_step. destruct (nth_error _ _) as [t|]; [|reflexivity]. destruct (_ <? _); [reflexivity|].
      destruct t as [id due|id due]; [destruct (match br_owned s !! id with Some _ => _ | None => _ end)|]; reflexivity. }
    rewrite Ho, Hn in Hs. now destruct Hs.
  - unfold push_step in Hs. destruct (nth_error _ _); cbn in Hs; rewrite Hn in Hs; now destruct Hs.
  - unfold collector_step in Hs. destruct (br_collector s); [destruct (_ <? _)|destruct (br_finished s)| |]; cbn [set_collector set_queue set_owned br_owned] in Hs; try (rewrite Hn in Hs; now destruct Hs).
    apply lookup_delete_is_Some in Hs as [_ Hs]. rewrite Hn in Hs. now destruct Hs.
Qed.

(** Before the first message about [x]. *)
Lemma fresh_run : forall c clock x evs, never_about c x evs ->
  br_owned (bc_run c (bstate_new clock) evs) !! x = None /\ total x (bc_run c (bstate_new clock) evs) = 0%nat.
Proof.
  intros c clock x evs. induction evs as [|e evs IH] using rev_ind; intros Hn; [split; reflexivity|].
  rewrite bc_run_last. destruct IH as [H1 H2].
  { intros e' now Hi. apply Hn. apply in_or_app. now left. }
  assert (Ha : forall now, ~ about c x now e). { intros now. apply Hn. apply in_or_app. right. now left. }
  split; [now apply fresh_step|].
  destruct (total_step c x (bc_run c (bstate_new clock) evs) e) as [H|(_ & _ & Hs & _)]; [lia|].
  rewrite fresh_step in Hs by assumption. now destruct Hs.
Qed.

Definition once (c : bc_setup) (x : bytes) (limit : N) (s : bstate) : Prop :=
  (br_owned s !! x = None /\ total x s = 0%nat)
  \/ exists T, limit * 1000 <= T /\ T <= br_clock s /\ (total x s <= 1)%nat
     /\ (young (bs_options c) T x s \/ T + bo_timeout (bs_options c) * 1000 <= br_clock s).

Lemma too_old : forall clock T limit timeout date, limit * 1000 <= T -> T + timeout * 1000 <= clock ->
  clock < 2 ^ 32 * 1000 -> date < limit -> (clock / 1000) mod 2 ^ 32 <= date + timeout -> False.
Proof.
  intros clock T limit timeout date H1 H2 H3 H4 H5.
  assert (Hd : clock / 1000 < 2 ^ 32) by (apply N.div_lt_upper_bound; lia).
  rewrite N.mod_small in H5 by exact Hd.
  assert (limit + timeout <= clock / 1000) by (apply N.div_le_lower_bound; lia). lia.
Qed.

Lemma once_step : forall c x limit s e, log_ok s -> limit * 1000 <= br_clock s -> br_clock s < 2 ^ 32 * 1000 ->
  dated_before c x limit e -> once c x limit s -> once c x limit (bc_step c s e).
Proof.
  intros c x limit s e Hlog Hlim Hclk Hd [[Hn Ht]|(T & HT1 & HT2 & Ht & Hy)].
  - destruct (br_owned (bc_step c s e) !! x) eqn:Eo.
    + assert (Hs : is_Some (br_owned (bc_step c s e) !! x)) by (rewrite Eo; eauto).
      right. exists (br_clock s). split; [exact Hlim|]. split; [apply clock_step|].
      split; [|left; now apply new_young].
      destruct (total_step c x s e) as [H|(H & _)]; lia.
    + left. split; [exact Eo|]. destruct (total_step c x s e) as [H|(_ & _ & Hs & _)]; [lia|].
      rewrite Eo in Hs. now destruct Hs.
  - right. exists T. split; [exact HT1|]. pose proof (proj1 (clock_step c s e)) as Hc. split; [lia|]. split.
    + destruct (total_step c x s e) as [H|(H & Hn & _ & He)]; [lia|]. exfalso.
      destruct Hy as [Hy|Hy]; [apply (young_owned _ _ _ _ Hlog) in Hy; rewrite Hn in Hy; now destruct Hy|].
      destruct e; try contradiction; destruct He as [He1 He2]; cbn [dated_before] in Hd; specialize (Hd He1); unfold now_sec in He2; eapply too_old; eauto.
    + destruct Hy as [Hy|Hy]; [|right; lia]. destruct (young_step c T x s e HT2 Hy) as [H|H]; [now left|right; lia].
Qed.

Theorem delivered_once : forall c clock before after id limit,
  never_about c id before ->
  limit * 1000 <= br_clock (bc_run c (bstate_new clock) before) ->
  Forall (dated_before c id limit) after ->
  let s := bc_run c (bstate_new clock) (before ++ after) in
  br_clock s < 2 ^ 32 * 1000 ->
  (deliveries id s <= 1)%nat.
Proof.
  intros c clock before after id limit Hn Hl Hd s. unfold s. clear s.
  assert (H : br_clock (bc_run c (bstate_new clock) (before ++ after)) < 2 ^ 32 * 1000 ->
              once c id limit (bc_run c (bstate_new clock) (before ++ after))).
  { induction after as [|e after IH] using rev_ind.
    - intros _. rewrite app_nil_r. left. now apply fresh_run.
    - apply List.Forall_app in Hd as [Hd1 Hd2]. rewrite app_assoc, bc_run_last. intros Hc.
      pose proof (proj1 (clock_step c (bc_run c (bstate_new clock) (before ++ after)) e)) as Hm.
      apply once_step; [apply log_run| |lia|now apply List.Forall_cons_iff in Hd2|apply IH; [exact Hd1|lia]].
      unfold bc_run in *. rewrite fold_left_app. pose proof (clock_run c after (fold_left (bc_step c) before (bstate_new clock))) as Hr. unfold bc_run in Hr. lia. }
  intros Hc. specialize (H Hc). unfold once, total in H. destruct H as [[_ H]|(T & _ & _ & H & _)]; lia.
Qed.
