(** A transfer whose parts keep coming is not removed by its timer. *)
From stdpp Require Import gmap.
From Coq Require Import NArith ZArith Lia.
From Coq Require Import ZifyBool ZifyNat ZifyN.
From Verif.Base Require Import Bytes BytesFacts.
From Verif.Model Require Import Crypto Tl ProtoAdnl Transfer TransferConc.
From Verif.Spec Require Import TransferSpec TransferConcSpec.
From Verif.Proof Require Import TransferFacts TransferConcFacts TransferHonestFacts TransferTimerFacts.
Open Scope N_scope.

Section Kept.
Context (P : prims) (timeout : N).
Local Notation T := (timeout * 1000).

(** Tasks remove a transfer only with a result. *)
Definition decided (s : receiving_state) : Prop :=
  forall t, In t (c_tasks s) -> match t with AtRemove _ _ Pending => False | _ => True end.

Lemma task_decided : forall s t, (match t with AtRemove _ _ Pending => False | _ => True end) ->
  match snd (task_step P timeout s t) with AtRemove _ _ Pending => False | _ => True end.
Proof.
  intros s t Ht. destruct t as [hash tot offset data|h0 hash offset data|h0 hash offset data|h0 hash offset size|h0 hash offset|h0 hash received buffer|h0 hash o|h0 hash o]; cbn [task_step].
  - destruct (c_table s !! hash); exact I.
  - exact I.
  - destruct (c_heap s !! h0) as [y|]; [destruct (x_parts y !! offset)|]; exact I.
  - exact I.
  - destruct (c_heap s !! h0) as [y|]; [destruct (x_received y ?= x_total y)|]; exact I.
  - destruct (c_heap s !! h0) as [y|]; [|exact I]. cbn [snd].
    destruct (received <? x_total y); [destruct (x_parts y !! received)|destruct (bytes_eqb _ _)]; exact I.
  - exact I.
  - exact I.
Qed.

Lemma decided_step : forall s e, decided s -> decided (receiving_step P timeout s e).
Proof.
  intros s e HD. destruct e as [hash tot offset data|k|h|ms]; cbn [receiving_step].
  - intros t Ht. cbn [c_tasks] in Ht. apply in_app_iff in Ht as [Ht|[<-|[]]]; [exact (HD t Ht)|exact I].
  - destruct (c_tasks s !! k) as [t|] eqn:Hk; [|exact HD].
    pose proof (task_step_shape P timeout s t) as HT.
    pose proof (task_decided s t (HD t (lookup_In _ _ _ Hk))) as Hd.
    destruct (task_step P timeout s t) as [s' t'] eqn:Es. cbn [snd] in Hd. destruct HT as (_ & T2 & _).
    intros u Hu. cbn [c_tasks] in Hu. rewrite T2 in Hu. apply In_insert in Hu as [->|Hu]; [exact Hd|exact (HD u Hu)].
  - destruct (c_heap s !! h) as [x|]; [|exact HD]. destruct (c_timers s !! h) as [[due| |]|]; try exact HD.
    cbn [timer_step]. destruct (c_clock s <? due); exact HD.
  - exact HD.
Qed.
Lemma decided_run : forall l s, decided s -> decided (receiving_run P timeout s l).
Proof.
  induction l as [|e l IH]; intros s HD; [exact HD|].
  change (receiving_run P timeout s (e :: l)) with (receiving_run P timeout (receiving_step P timeout s e) l).
  apply IH. now apply decided_step.
Qed.

(** Some task of this id ended with a result. *)
Definition over (i : bytes) (s : receiving_state) : Prop := exists h o, In (Ended h i o) (c_tasks s) /\ o <> Pending.

Lemma over_step : forall i s e, over i s -> over i (receiving_step P timeout s e).
Proof.
  intros i s e (h & o & Hin & Ho). exists h, o. split; [|exact Ho]. destruct e as [hash tot offset data|k|h1|ms]; cbn [receiving_step].
  - cbn [c_tasks]. apply in_app_iff. now left.
  - destruct (c_tasks s !! k) as [t|] eqn:Hk; [|exact Hin].
    pose proof (task_step_shape P timeout s t) as HT. destruct (task_step P timeout s t) as [s' t'] eqn:Es.
    destruct HT as (_ & T2 & _). cbn [c_tasks]. rewrite T2.
    destruct t as [| | | | | | |h2 i2 o2]; try (apply (In_insert_old _ _ _ _ _ Hk Hin); discriminate).
    cbn [task_step] in Es. injection Es as _ <-. rewrite list_insert_id by exact Hk. exact Hin.
  - destruct (c_heap s !! h1) as [x|]; [|exact Hin]. destruct (c_timers s !! h1) as [[due| |]|]; try exact Hin.
    cbn [timer_step]. destruct (c_clock s <? due); exact Hin.
  - exact Hin.
Qed.
Lemma over_run : forall i l s, over i s -> over i (receiving_run P timeout s l).
Proof.
  induction l as [|e l IH]; intros s HD; [exact HD|].
  change (receiving_run P timeout s (e :: l)) with (receiving_run P timeout (receiving_step P timeout s e) l).
  apply IH. now apply over_step.
Qed.

(** The transfer is in the table and was refreshed after [c0]. *)
Definition alive (i : bytes) (h : nat) (c0 : N) (s : receiving_state) : Prop :=
  c_table s !! i = Some h
  /\ (forall h' x, c_heap s !! h' = Some x -> x_hash x = i -> h' = h)
  /\ (exists due, c_timers s !! h = Some (Sleeping due))
  /\ exists x, c_heap s !! h = Some x /\ c0 < x_started x + x_updated x * 1000 + 1000.

Lemma alive_step : forall i h c0 s e, sane_state P s -> timed timeout s -> decided s ->
  c_clock s + 1000 <= c0 + T -> alive i h c0 s ->
  alive i h c0 (receiving_step P timeout s e) \/ over i (receiving_step P timeout s e).
Proof.
  intros i h c0 s e HS HT HD Hc (A1 & A2 & (due & A3) & x & A4 & A5).
  destruct e as [hash tot offset data|k|h0|ms]; cbn [receiving_step].
  - left. split; [exact A1|]. split; [exact A2|]. split; [exists due; exact A3|exists x; split; assumption].
  - destruct (c_tasks s !! k) as [t|] eqn:Hk.
    2:{ left. split; [exact A1|]. split; [exact A2|]. split; [exists due; exact A3|exists x; split; assumption]. }
    pose proof (HD t (lookup_In _ _ _ Hk)) as Hd.
    pose proof (sn_tasks _ _ _ _ HS t) as Hold. specialize (fun h => Hold h (lookup_In _ _ _ Hk)).
    assert (Halter : forall f h1, (forall y, c_heap s !! h1 = Some y -> x_hash (f y) = x_hash y) ->
        (forall y, c_heap s !! h1 = Some y -> x_started (f y) = x_started y /\ x_updated y <= x_updated (f y)) ->
        (forall h' y, alter f h1 (c_heap s) !! h' = Some y -> x_hash y = i -> h' = h)
        /\ exists y, alter f h1 (c_heap s) !! h = Some y /\ c0 < x_started y + x_updated y * 1000 + 1000).
    { intros f h1 F1 F2. split.
      - intros h' y Hy Hi. destruct (decide (h' = h1)) as [->|Hn].
        + rewrite list_lookup_alter in Hy. destruct (c_heap s !! h1) as [z|] eqn:Hz; [|discriminate Hy]. injection Hy as <-.
          apply (A2 h1 z Hz). rewrite <- Hi. symmetry. exact (F1 z eq_refl).
        + rewrite list_lookup_alter_ne in Hy by congruence. exact (A2 h' y Hy Hi).
      - destruct (decide (h = h1)) as [<-|Hn].
        + exists (f x). rewrite list_lookup_alter, A4. split; [reflexivity|]. destruct (F2 x A4) as [G1 G2]. rewrite G1. lia.
        + exists x. rewrite list_lookup_alter_ne by congruence. split; assumption. }
    destruct t as [hash tot offset data|h1 hash offset data|h1 hash offset data|h1 hash offset size|h1 hash offset|h1 hash received buffer|h1 hash o|h1 hash o]; cbn [task_step].
    + left. destruct (c_table s !! hash) as [h1|] eqn:Eh.
      * split; [exact A1|]. split; [exact A2|]. split; [exists due; exact A3|exists x; split; assumption].
      * assert (Hn : hash <> i) by congruence. split; cbn [c_table c_heap c_clock c_tasks c_timers].
        -- rewrite lookup_insert_ne by exact Hn. exact A1.
        -- split; [|split; [exists due; apply lookup_app_l_Some; exact A3|exists x; split; [apply lookup_app_l_Some; exact A4|exact A5]]].
           intros h' y Hy Hi. apply lookup_app_Some in Hy as [Hy|[_ Hy]]; [exact (A2 h' y Hy Hi)|].
           apply list_lookup_singleton_Some in Hy as [_ <-]. cbn [x_hash] in Hi. congruence.
    + left. destruct (Hold h1 eq_refl) as (y & Hy & _). rewrite Hy. cbn [with_transfer c_table c_heap c_clock c_tasks c_timers].
      split; [exact A1|].
      destruct (Halter (fun x => set_updated x (elapsed_secs s x)) h1) as [B1 B2]; [reflexivity| |split; [exact B1|]; split; [exists due; exact A3|exact B2]].
      intros z Hz. split; [reflexivity|]. cbn [set_updated x_updated]. unfold elapsed_secs.
      apply N.div_le_lower_bound; [lia|]. pose proof (tm_time _ _ HT h1 z Hz). lia.
    + left. destruct (Hold h1 eq_refl) as (y & Hy & _). rewrite Hy. cbn [with_transfer c_table c_heap c_clock c_tasks c_timers].
      split; [exact A1|].
      destruct (Halter (fun x => set_parts x (<[offset := data]> (x_parts x))) h1) as [B1 B2]; [reflexivity| |split; [exact B1|]; split; [exists due; exact A3|exact B2]].
      intros z Hz. split; [reflexivity|cbn [set_parts x_updated]; lia].
    + left. cbn [with_transfer c_table c_heap c_clock c_tasks c_timers]. split; [exact A1|].
      destruct (Halter (fun x => set_received x (x_received x + size)) h1) as [B1 B2]; [reflexivity| |split; [exact B1|]; split; [exists due; exact A3|exact B2]].
      intros z Hz. split; [reflexivity|cbn [set_received x_updated]; lia].
    + left. destruct (Hold h1 eq_refl) as (y & Hy & _). rewrite Hy.
      destruct (x_received y ?= x_total y); cbn [with_transfer c_table c_heap c_clock c_tasks c_timers]; (split; [exact A1|]);
        try (split; [exact A2|split; [exists due; exact A3|exists x; split; assumption]]).
      destruct (Halter (fun x => set_received x (x_total x * 2)) h1) as [B1 B2]; [reflexivity| |split; [exact B1|]; split; [exists due; exact A3|exact B2]].
      intros z Hz. split; [reflexivity|cbn [set_received x_updated]; lia].
    + left. destruct (Hold h1 eq_refl) as (y & Hy & _). rewrite Hy.
      split; [exact A1|]. split; [exact A2|]. split; [exists due; exact A3|exists x; split; assumption].
    + destruct (decide (hash = i)) as [->|Hn].
      * right. exists h1, o. split; [exact (In_insert_new _ _ _ _ Hk)|]. intros ->. exact Hd.
      * left. cbn [without c_table c_heap c_clock c_tasks c_timers]. split; [cbn [c_table]; rewrite lookup_delete_ne by exact Hn; exact A1|].
        split; [exact A2|]. split; [exists due; exact A3|exists x; split; assumption].
    + left. split; [exact A1|]. split; [exact A2|]. split; [exists due; exact A3|exists x; split; assumption].
  - left. destruct (c_heap s !! h0) as [y|] eqn:Hy.
    2:{ split; [exact A1|]. split; [exact A2|]. split; [exists due; exact A3|exists x; split; assumption]. }
    destruct (c_timers s !! h0) as [tm|] eqn:Htm.
    2:{ split; [exact A1|]. split; [exact A2|]. split; [exists due; exact A3|exists x; split; assumption]. }
    destruct tm as [due0| |]; cbn [timer_step].
    + destruct (c_clock s <? due0).
      { split; [exact A1|]. split; [exact A2|]. split; [exists due; exact A3|exists x; split; assumption]. }
      cbn [c_table c_heap c_clock c_tasks c_timers]. split; [exact A1|]. split; [exact A2|].
      split; [|exists x; split; assumption]. destruct (decide (h0 = h)) as [->|Hn].
      * assert (y = x) by congruence. subst y.
        assert (E : transfer_expired timeout s x = false);
          [|rewrite E; eexists; apply list_lookup_insert; apply lookup_lt_Some in Htm; exact Htm].
        unfold transfer_expired, elapsed_secs. apply N.leb_gt.
        pose proof (tm_time _ _ HT h x A4). apply N.div_lt_upper_bound; [lia|]. lia.
      * exists due. cbn [c_timers]. rewrite list_lookup_insert_ne by exact Hn. exact A3.
    + cbn [c_table c_heap c_clock c_tasks c_timers].
      assert (Hn : x_hash y <> i). { intros Hi. assert (h0 = h) by exact (A2 h0 y Hy Hi). subst h0. congruence. }
      split; [cbn [c_table]; rewrite lookup_delete_ne by exact Hn; exact A1|]. split; [exact A2|]. split; [|exists x; split; assumption].
      exists due. cbn [c_timers]. rewrite list_lookup_insert_ne; [exact A3|]. intros ->. congruence.
    + split; [exact A1|]. split; [exact A2|]. split; [exists due; exact A3|exists x; split; assumption].
  - left. split; [exact A1|]. split; [exact A2|]. split; [exists due; exact A3|exists x; split; assumption].
Qed.

Lemma alive_run : forall i h c0 l s, sane_state P s -> timed timeout s -> decided s ->
  c_clock s + passed l + 1000 <= c0 + T -> alive i h c0 s ->
  alive i h c0 (receiving_run P timeout s l) \/ over i (receiving_run P timeout s l).
Proof.
  induction l as [|e l IH]; intros s HS HT HD Hc HA; [left; exact HA|].
  change (receiving_run P timeout s (e :: l)) with (receiving_run P timeout (receiving_step P timeout s e) l).
  assert (Hp : passed (e :: l) = passed [e] + passed l) by (destruct e; cbn [passed fold_right]; unfold passed; lia).
  destruct (alive_step i h c0 s e HS HT HD) as [HA'|HO]; [lia|exact HA| |right; apply over_run; exact HO].
  apply IH; [now apply sane_step|now apply timed_step|now apply decided_step| |exact HA'].
  rewrite clock_step. lia.
Qed.

Lemma kept : forall clock l i h k offset data later,
  let s := receiving_run P timeout (receiving_new clock) l in
  c_tasks s !! k = Some (AtRefresh h i offset data) -> c_table s !! i = Some h ->
  (forall h' x, c_heap s !! h' = Some x -> x_hash x = i -> h' = h) ->
  c_timers s !! h <> Some Expiring ->
  passed later + 1000 <= T ->
  let s' := receiving_run P timeout s (TaskRuns k :: later) in
  c_table s' !! i = Some h \/ exists o, In o (results i s') /\ o <> Pending.
Proof.
  intros clock l i h k offset data later s Hk Hi Hu He Hp s'.
  assert (HS : sane_state P s) by apply sane_run, sane_new.
  assert (HT : timed timeout s) by (apply (timed_run P); [apply sane_new|apply timed_new]).
  assert (HD : decided s) by (apply decided_run; intros t []).
  set (s1 := receiving_step P timeout s (TaskRuns k)).
  assert (HA : alive i h (c_clock s) s1).
  { destruct (sn_table _ _ _ _ HS i h Hi) as (x & Hx & _). unfold s1. cbn [receiving_step]. rewrite Hk. cbn [task_step]. rewrite Hx.
    cbn [with_transfer c_table c_heap c_clock c_tasks c_timers]. split; [exact Hi|]. split; [|split].
    - intros h' y Hy Hi'. destruct (decide (h' = h)) as [->|Hn]; [reflexivity|].
      cbn [c_heap] in Hy. rewrite list_lookup_alter_ne in Hy by congruence. exact (Hu h' y Hy Hi').
    - cbn [c_timers]. destruct (c_timers s !! h) as [[due| |]|] eqn:Ht.
      + exists due. reflexivity.
      + congruence.
      + destruct (tm_live _ _ HT i h Hi Ht).
      + exfalso. apply lookup_ge_None in Ht. apply lookup_lt_Some in Hx. pose proof (tm_len _ _ HT). lia.
    - eexists. cbn [c_heap]. rewrite list_lookup_alter, Hx. split; [reflexivity|]. cbn [set_updated x_started x_updated].
      unfold elapsed_secs. pose proof (tm_time _ _ HT h x Hx).
      pose proof (N.div_mod (c_clock s - x_started x) 1000). pose proof (N.mod_lt (c_clock s - x_started x) 1000). lia. }
  assert (E : s' = receiving_run P timeout s1 later) by reflexivity. rewrite E.
  destruct (alive_run i h (c_clock s) later s1) as [H|(h1 & o & H & Ho)].
  - now apply sane_step.
  - now apply timed_step.
  - now apply decided_step.
  - unfold s1. rewrite clock_step. cbn [passed fold_right]. lia.
  - exact HA.
  - left. apply H.
  - right. exists o. split; [|exact Ho]. unfold results. apply in_flat_map. exists (Ended h1 i o). split; [exact H|].
    rewrite bytes_eqb_refl. now left.
Qed.
End Kept.
