(** The clean-up timers of multipart messages. *)
From stdpp Require Import gmap.
From Coq Require Import NArith ZArith Lia.
From Coq Require Import ZifyBool ZifyNat ZifyN.
From Verif.Base Require Import Bytes BytesFacts.
From Verif.Model Require Import Crypto Tl ProtoAdnl Transfer TransferConc.
From Verif.Spec Require Import TransferSpec TransferConcSpec.
From Verif.Proof Require Import TransferFacts TransferConcFacts TransferHonestFacts.
Open Scope N_scope.

Section Timers.
Context (P : prims) (timeout : N).
Local Notation T := (timeout * 1000).

(** What holds of the timers in every run. *)
Record timed (s : receiving_state) : Prop := mk_timed
  { tm_len : length (c_timers s) = length (c_heap s);
    tm_time : forall h x, c_heap s !! h = Some x -> x_started x + x_updated x * 1000 <= c_clock s;
    tm_due : forall h due, c_timers s !! h = Some (Sleeping due) -> due <= c_clock s + T;
    tm_live : forall (i : bytes) (h : nat), c_table s !! i = Some h -> c_timers s !! h <> Some Stopped }.

Lemma secs_le : forall a b, (a - b) / 1000 * 1000 <= a - b.
Proof. intros a b. rewrite N.mul_comm. apply N.mul_div_le. lia. Qed.

Lemma timed_step : forall s e, sane_state P s -> timed s -> timed (receiving_step P timeout s e).
Proof.
  intros s e HS [H1 H2 H3 H4]. destruct e as [hash tot offset data|k|h|ms]; cbn [receiving_step].
  - split; assumption.
  - destruct (c_tasks s !! k) as [t|] eqn:Hk; [|split; assumption].
    pose proof (sn_tasks _ _ _ _ HS t) as Hold. specialize (fun h => Hold h (lookup_In _ _ _ Hk)).
    pose proof (task_step_shape P timeout s t) as HT.
    assert (Halter : forall f h0, (forall x, x_started (f x) = x_started x) -> (forall x, c_heap s !! h0 = Some x -> x_started (f x) + x_updated (f x) * 1000 <= c_clock s) ->
       forall h x, alter f h0 (c_heap s) !! h = Some x -> x_started x + x_updated x * 1000 <= c_clock s).
    { intros f h0 F1 F2 h x Hx. destruct (decide (h = h0)) as [->|Hn].
      - rewrite list_lookup_alter in Hx. destruct (c_heap s !! h0) as [y|] eqn:Hy; [|discriminate Hx]. injection Hx as <-. exact (F2 y eq_refl).
      - rewrite list_lookup_alter_ne in Hx by congruence. exact (H2 h x Hx). }
    destruct t as [hash tot offset data|h0 hash offset data|h0 hash offset data|h0 hash offset size|h0 hash offset|h0 hash received buffer|h0 hash o|h0 hash o]; cbn [task_step] in *.
    + destruct (c_table s !! hash) as [h0|] eqn:Et; [split; assumption|]. cbn [c_table c_heap c_clock c_tasks c_timers].
      split; cbn [c_table c_heap c_clock c_tasks c_timers].
      * rewrite !app_length. cbn [length]. lia.
      * intros h x Hx. apply lookup_app_Some in Hx as [Hx|[_ Hx]]; [exact (H2 h x Hx)|].
        apply list_lookup_singleton_Some in Hx as [_ <-]. cbn. lia.
      * intros h due Hd. apply lookup_app_Some in Hd as [Hd|[_ Hd]]; [exact (H3 h due Hd)|].
        apply list_lookup_singleton_Some in Hd as [_ E]. injection E as <-. lia.
      * intros i h E. destruct (decide (i = hash)) as [->|Hn].
        -- rewrite lookup_insert in E. injection E as <-. rewrite <- H1. rewrite list_lookup_middle by reflexivity. discriminate.
        -- rewrite lookup_insert_ne in E by congruence. intros E2. apply (H4 i h E).
           apply lookup_app_Some in E2 as [E2|[_ E2]]; [exact E2|]. apply list_lookup_singleton_Some in E2 as [_ E2]. discriminate E2.
    + destruct (Hold h0 eq_refl) as (x & Hx & _). rewrite Hx in *. cbn [with_transfer c_table c_heap c_clock c_tasks c_timers].
      split; cbn [c_table c_heap c_clock c_tasks c_timers]; [rewrite alter_length; exact H1| |exact H3|exact H4].
      apply Halter; [reflexivity|]. intros y Hy. cbn [set_updated x_started x_updated]. unfold elapsed_secs.
      pose proof (secs_le (c_clock s) (x_started y)). pose proof (H2 h0 y Hy). lia.
    + destruct (Hold h0 eq_refl) as (x & Hx & _). rewrite Hx in *. cbn [with_transfer c_table c_heap c_clock c_tasks c_timers].
      split; cbn [c_table c_heap c_clock c_tasks c_timers]; [rewrite alter_length; exact H1| |exact H3|exact H4].
      apply Halter; [reflexivity|]. intros y Hy. exact (H2 h0 y Hy).
    + cbn [with_transfer c_table c_heap c_clock c_tasks c_timers].
      split; cbn [c_table c_heap c_clock c_tasks c_timers]; [rewrite alter_length; exact H1| |exact H3|exact H4].
      apply Halter; [reflexivity|]. intros y Hy. exact (H2 h0 y Hy).
    + destruct (Hold h0 eq_refl) as (x & Hx & _). rewrite Hx in *.
      destruct (x_received x ?= x_total x); cbn [with_transfer c_table c_heap c_clock c_tasks c_timers]; try (split; assumption).
      split; cbn [c_table c_heap c_clock c_tasks c_timers]; [rewrite alter_length; exact H1| |exact H3|exact H4].
      apply Halter; [reflexivity|]. intros y Hy. exact (H2 h0 y Hy).
    + destruct (Hold h0 eq_refl) as (x & Hx & _). rewrite Hx in *. split; assumption.
    + cbn [without c_table c_heap c_clock c_tasks c_timers]. split; try assumption.
      cbn [c_table c_timers]. intros i h E. apply lookup_delete_Some in E as [_ E]. exact (H4 i h E).
    + split; assumption.
  - destruct (c_heap s !! h) as [x|] eqn:Hx; [|split; assumption]. destruct (c_timers s !! h) as [tm|] eqn:Ht; [|split; assumption].
    destruct tm as [due| |]; cbn [timer_step].
    + destruct (c_clock s <? due); [split; assumption|]. split; cbn [c_table c_heap c_clock c_tasks c_timers].
      * rewrite insert_length. exact H1.
      * exact H2.
      * intros h' due' E. destruct (decide (h' = h)) as [->|Hn].
        -- rewrite list_lookup_insert in E by (apply lookup_lt_Some in Ht; exact Ht).
           destruct (transfer_expired timeout s x); [discriminate E|]. injection E as <-. lia.
        -- rewrite list_lookup_insert_ne in E by congruence. exact (H3 h' due' E).
      * intros i h' E E2. destruct (decide (h' = h)) as [->|Hn].
        -- rewrite list_lookup_insert in E2 by (apply lookup_lt_Some in Ht; exact Ht).
           destruct (transfer_expired timeout s x); discriminate E2.
        -- rewrite list_lookup_insert_ne in E2 by congruence. exact (H4 i h' E E2).
    + split; cbn [c_table c_heap c_clock c_tasks c_timers].
      * rewrite insert_length. exact H1.
      * exact H2.
      * intros h' due' E. destruct (decide (h' = h)) as [->|Hn].
        -- rewrite list_lookup_insert in E by (apply lookup_lt_Some in Ht; exact Ht). discriminate E.
        -- rewrite list_lookup_insert_ne in E by congruence. exact (H3 h' due' E).
      * intros i h' E E2. apply lookup_delete_Some in E as [Ei E]. destruct (decide (h' = h)) as [->|Hn].
        -- destruct (sn_table _ _ _ _ HS i h E) as (y & Hy & Hyi). assert (y = x) by congruence. subst y. congruence.
        -- rewrite list_lookup_insert_ne in E2 by congruence. exact (H4 i h' E E2).
    + split; assumption.
  - split; cbn [c_table c_heap c_clock c_tasks c_timers]; try assumption.
    + intros h x Hx. specialize (H2 h x Hx). lia.
    + intros h due Hd. specialize (H3 h due Hd). lia.
Qed.

Lemma timed_new : forall clock, timed (receiving_new clock).
Proof.
  intros clock. split; cbn [receiving_new c_table c_heap c_clock c_tasks c_timers].
  - reflexivity.
  - intros h x E. discriminate E.
  - intros h due E. discriminate E.
  - intros i h E. rewrite lookup_empty in E. discriminate E.
Qed.

Lemma timed_run : forall l s, sane_state P s -> timed s -> timed (receiving_run P timeout s l).
Proof.
  induction l as [|e l IH]; intros s HS HT; [exact HT|].
  change (receiving_run P timeout s (e :: l)) with (receiving_run P timeout (receiving_step P timeout s e) l).
  apply IH; [now apply sane_step|now apply timed_step].
Qed.

(** ** A transfer nobody refreshes *)

(** The timer's side of the story: [tl] is the time of the last refresh. *)
Definition waiting (i : bytes) (h : nat) (tl : N) (Q : N -> timer -> Prop) (s : receiving_state) : Prop :=
  silent i s /\ tl <= c_clock s
  /\ (c_table s !! i = None
      \/ (c_table s !! i = Some h /\ (exists x, c_heap s !! h = Some x /\ x_started x + x_updated x * 1000 <= tl)
          /\ exists t, c_timers s !! h = Some t /\ Q (c_clock s) t)).

Lemma silent_step : forall i s e, silent i s -> no_part i [e] -> silent i (receiving_step P timeout s e).
Proof.
  intros i s e HQ He. destruct e as [hash tot offset data|k|h|ms]; cbn [receiving_step].
  - intros t Ht Hi. cbn [c_tasks] in Ht. apply in_app_iff in Ht as [Ht|[<-|[]]]; [exact (HQ t Ht Hi)|].
    exact (He (mk_part hash tot offset data) (or_introl eq_refl) Hi).
  - destruct (c_tasks s !! k) as [t|] eqn:Hk; [|exact HQ].
    pose proof (task_step_shape P timeout s t) as HT. destruct (task_step P timeout s t) as [s' t'] eqn:Es.
    destruct HT as (T1 & T2 & _). intros u Hu Hi. cbn [c_tasks] in Hu. rewrite T2 in Hu.
    apply In_insert in Hu as [->|Hu]; [|exact (HQ u Hu Hi)].
    pose proof (HQ t (lookup_In _ _ _ Hk)) as Ht. rewrite <- T1 in Ht. specialize (Ht Hi). clear -Es Ht.
    destruct t as [hash tot offset data|h0 hash offset data|h0 hash offset data|h0 hash offset size|h0 hash offset|h0 hash received buffer|h0 hash o|h0 hash o]; cbn [task_step] in Es; try destruct Ht.
    + destruct (c_heap s !! h0) as [y|]; [destruct (x_parts y !! offset)|]; injection Es as _ <-; exact I.
    + injection Es as _ <-; exact I.
    + destruct (c_heap s !! h0) as [y|]; [destruct (x_received y ?= x_total y)|]; injection Es as _ <-; exact I.
    + destruct (c_heap s !! h0) as [y|]; [|injection Es as _ <-; exact I].
      destruct (received <? x_total y); [destruct (x_parts y !! received)|destruct (bytes_eqb _ _)]; injection Es as _ <-; exact I.
    + injection Es as _ <-; exact I.
    + injection Es as _ <-; exact I.
  - destruct (c_heap s !! h) as [x|]; [|exact HQ]. destruct (c_timers s !! h) as [[due| |]|]; try exact HQ.
    cbn [timer_step]. destruct (c_clock s <? due); exact HQ.
  - exact HQ.
Qed.

(** One step of the world around a silent transfer: [Q] must survive time and the timer's own steps. *)
Lemma waiting_step : forall i h tl (Q : N -> timer -> Prop) s e,
  sane_state P s -> timed s -> waiting i h tl Q s -> no_part i [e] ->
  (forall c c' t, c <= c' -> Q c t -> Q c' t) ->
  (forall c due, tl <= c -> Q c (Sleeping due) -> due <= c -> c < tl + T -> Q c (Sleeping (c + T))) ->
  (forall c due, tl <= c -> Q c (Sleeping due) -> due <= c -> Q c Expiring) ->
  waiting i h tl Q (receiving_step P timeout s e).
Proof.
  intros i h tl Q s e HS HT (HQ & Hc & HW) He Qmono Qren Qexp2.
  split; [now apply silent_step|].
  destruct e as [hash tot offset data|k|h0|ms]; cbn [receiving_step].
  - split; [exact Hc|exact HW].
  - destruct (c_tasks s !! k) as [t|] eqn:Hk; [|split; [exact Hc|exact HW]].
    pose proof (task_step_shape P timeout s t) as HT2. destruct (task_step P timeout s t) as [s' t'] eqn:Es.
    destruct HT2 as (_ & _ & Tc & _). cbn [c_table c_heap c_clock c_tasks c_timers]. rewrite Tc. split; [exact Hc|].
    pose proof (HQ t (lookup_In _ _ _ Hk)) as Ht.
    pose proof (sn_tasks _ _ _ _ HS t) as Hold. specialize (fun h => Hold h (lookup_In _ _ _ Hk)).
    assert (Halter : forall f h0, (forall x, x_started (f x) = x_started x) -> (forall x, x_updated (f x) = x_updated x) ->
       (exists x, c_heap s !! h = Some x /\ x_started x + x_updated x * 1000 <= tl) ->
       exists x, alter f h0 (c_heap s) !! h = Some x /\ x_started x + x_updated x * 1000 <= tl).
    { intros f h1 F1 F2 (x & Hx & Hl). destruct (decide (h = h1)) as [->|Hn].
      - exists (f x). rewrite list_lookup_alter, Hx. split; [reflexivity|]. rewrite F1, F2. exact Hl.
      - exists x. rewrite list_lookup_alter_ne by congruence. split; assumption. }
    destruct t as [hash tot offset data|h0 hash offset data|h0 hash offset data|h0 hash offset size|h0 hash offset|h0 hash received buffer|h0 hash o|h0 hash o]; cbn [task_step task_id] in *.
    + assert (Hn : hash <> i) by (intros E; exact (Ht E)).
      destruct (c_table s !! hash) as [h0|]; injection Es as <- <-; cbn [c_table c_heap c_clock c_tasks c_timers]; [exact HW|].
      rewrite lookup_insert_ne by congruence.
      destruct HW as [HW|(W1 & (x & Hx & Hl) & tm & Htm & HQt)]; [left; exact HW|right].
      split; [exact W1|]. split.
      * exists x. split; [apply lookup_app_l_Some; exact Hx|exact Hl].
      * exists tm. split; [apply lookup_app_l_Some; exact Htm|exact HQt].
    + assert (Hn : hash <> i) by (intros E; exact (Ht E)).
      destruct (Hold h0 eq_refl) as (x0 & Hx0 & Hi0). rewrite Hx0 in Es. injection Es as <- <-.
      cbn [with_transfer c_table c_heap c_clock c_tasks c_timers].
      destruct HW as [HW|(W1 & (x & Hx & Hl) & W3)]; [left; exact HW|right]. split; [exact W1|]. split; [|exact W3].
      exists x. split; [|exact Hl]. rewrite list_lookup_alter_ne; [exact Hx|]. intros ->.
      destruct (sn_table _ _ _ _ HS i h W1) as (y & Hy & Hyi). assert (y = x0) by congruence. subst y. cbn [task_id] in Hi0. congruence.
    + destruct (Hold h0 eq_refl) as (x0 & Hx0 & _). rewrite Hx0 in Es. injection Es as <- <-.
      cbn [with_transfer c_table c_heap c_clock c_tasks c_timers].
      destruct HW as [HW|(W1 & W2 & W3)]; [left; exact HW|right]. split; [exact W1|]. split; [|exact W3].
      apply Halter; [reflexivity|reflexivity|exact W2].
    + injection Es as <- <-. cbn [with_transfer c_table c_heap c_clock c_tasks c_timers].
      destruct HW as [HW|(W1 & W2 & W3)]; [left; exact HW|right]. split; [exact W1|]. split; [|exact W3].
      apply Halter; [reflexivity|reflexivity|exact W2].
    + destruct (Hold h0 eq_refl) as (x0 & Hx0 & _). rewrite Hx0 in Es.
      destruct (x_received x0 ?= x_total x0); injection Es as <- <-; cbn [with_transfer c_table c_heap c_clock c_tasks c_timers]; try exact HW.
      destruct HW as [HW|(W1 & W2 & W3)]; [left; exact HW|right]. split; [exact W1|]. split; [|exact W3].
      apply Halter; [reflexivity|reflexivity|exact W2].
    + destruct (Hold h0 eq_refl) as (x0 & Hx0 & _). rewrite Hx0 in Es. injection Es as <- _. exact HW.
    + injection Es as <- <-. cbn [without c_table c_heap c_clock c_tasks c_timers].
      destruct (decide (hash = i)) as [->|Hn]; [left; apply lookup_delete|].
      rewrite lookup_delete_ne by exact Hn. exact HW.
    + injection Es as <- _. exact HW.
  - destruct (c_heap s !! h0) as [x0|] eqn:Hx0; [|split; [exact Hc|exact HW]].
    destruct (c_timers s !! h0) as [tm0|] eqn:Ht0; [|split; [exact Hc|exact HW]].
    destruct tm0 as [due| |]; cbn [timer_step].
    + destruct (N.ltb_spec (c_clock s) due) as [Hd|Hd]; [split; [exact Hc|exact HW]|].
      cbn [c_table c_heap c_clock c_tasks c_timers]. split; [exact Hc|].
      destruct HW as [HW|(W1 & (x & Hx & Hl) & tm & Htm & HQt)]; [left; exact HW|right].
      split; [exact W1|]. split; [exists x; split; assumption|].
      destruct (decide (h = h0)) as [->|Hn].
      * assert (x0 = x) by congruence. subst x0. assert (tm = Sleeping due) by congruence. subst tm.
        eexists. split; [apply list_lookup_insert; apply lookup_lt_Some in Ht0; exact Ht0|].
        destruct (transfer_expired timeout s x) eqn:Ex; [exact (Qexp2 _ _ Hc HQt Hd)|].
        destruct (N.lt_ge_cases (c_clock s) (tl + T)) as [Hlt|Hge].
        -- exact (Qren _ _ Hc HQt Hd Hlt).
        -- exfalso. unfold transfer_expired, elapsed_secs in Ex.
           assert (x_updated x + timeout <= (c_clock s - x_started x) / 1000); [|lia].
           apply N.div_le_lower_bound; lia.
      * exists tm. rewrite list_lookup_insert_ne by congruence. split; [exact Htm|exact HQt].
    + cbn [c_table c_heap c_clock c_tasks c_timers]. split; [exact Hc|].
      destruct HW as [HW|(W1 & (x & Hx & Hl) & tm & Htm & HQt)].
      * left. apply lookup_delete_None. right. exact HW.
      * destruct (decide (x_hash x0 = i)) as [Ei|Ei]; [left; rewrite Ei; apply lookup_delete|right].
        rewrite lookup_delete_ne by exact Ei. split; [exact W1|]. split; [exists x; split; assumption|].
        exists tm. rewrite list_lookup_insert_ne; [split; assumption|]. intros ->.
        destruct (sn_table _ _ _ _ HS i h W1) as (y & Hy & Hyi). congruence.
    + split; [exact Hc|exact HW].
  - cbn [c_table c_heap c_clock c_tasks c_timers]. split; [lia|].
    destruct HW as [HW|(W1 & W2 & tm & Htm & HQt)]; [left; exact HW|right]. split; [exact W1|]. split; [exact W2|].
    exists tm. split; [exact Htm|]. apply (Qmono (c_clock s)); [lia|exact HQt].
Qed.

Lemma no_part_app : forall i l1 l2, no_part i (l1 ++ l2) -> no_part i l1 /\ no_part i l2.
Proof.
  intros i l1 l2 H. unfold no_part in *. rewrite came_app in H.
  split; intros p Hp; apply H; apply in_app_iff; [left|right]; exact Hp.
Qed.

Lemma clock_step : forall s e, c_clock (receiving_step P timeout s e) = c_clock s + passed [e].
Proof.
  intros s e. destruct e as [hash tot offset data|k|h|ms]; cbn [receiving_step passed fold_right]; rewrite ?N.add_0_r; try reflexivity.
  - destruct (c_tasks s !! k) as [t|]; [|reflexivity].
    pose proof (task_step_shape P timeout s t) as HT. destruct (task_step P timeout s t) as [s' t']. cbn [c_clock]. apply HT.
  - destruct (c_heap s !! h) as [x|]; [|reflexivity]. destruct (c_timers s !! h) as [[due| |]|]; try reflexivity.
    cbn [timer_step]. destruct (c_clock s <? due); reflexivity.
Qed.
Lemma clock_run : forall l s, c_clock (receiving_run P timeout s l) = c_clock s + passed l.
Proof.
  induction l as [|e l IH]; intros s; [cbn; lia|].
  change (receiving_run P timeout s (e :: l)) with (receiving_run P timeout (receiving_step P timeout s e) l).
  rewrite IH, clock_step. destruct e; cbn [passed fold_right]; unfold passed; lia.
Qed.

Lemma waiting_run : forall i h tl (Q : N -> timer -> Prop),
  (forall c c' t, c <= c' -> Q c t -> Q c' t) ->
  (forall c due, tl <= c -> Q c (Sleeping due) -> due <= c -> c < tl + T -> Q c (Sleeping (c + T))) ->
  (forall c due, tl <= c -> Q c (Sleeping due) -> due <= c -> Q c Expiring) ->
  forall l s, sane_state P s -> timed s -> waiting i h tl Q s -> no_part i l ->
  waiting i h tl Q (receiving_run P timeout s l).
Proof.
  intros i h tl Q Q1 Q2 Q3. induction l as [|e l IH]; intros s HS HT HW Hl; [exact HW|].
  change (receiving_run P timeout s (e :: l)) with (receiving_run P timeout (receiving_step P timeout s e) l).
  change (e :: l) with ([e] ++ l) in Hl. apply no_part_app in Hl as [He Hl].
  apply IH; [now apply sane_step|now apply timed_step| |exact Hl].
  now apply waiting_step.
Qed.

Lemma waiting_weaken : forall i h tl (Q Q' : N -> timer -> Prop) s, waiting i h tl Q s ->
  (forall t, Q (c_clock s) t -> Q' (c_clock s) t) -> waiting i h tl Q' s.
Proof.
  intros i h tl Q Q' s (H1 & H2 & H3) HQ. split; [exact H1|]. split; [exact H2|].
  destruct H3 as [H3|(W1 & W2 & tm & W3 & W4)]; [left; exact H3|right].
  split; [exact W1|]. split; [exact W2|]. exists tm. split; [exact W3|exact (HQ tm W4)].
Qed.

(** The timer runs after the time has come. *)
Lemma waiting_timer : forall i h tl (Q Q' : N -> timer -> Prop) s,
  sane_state P s -> waiting i h tl Q s -> tl + T <= c_clock s ->
  (forall due, c_clock s < due -> Q (c_clock s) (Sleeping due) -> Q' (c_clock s) (Sleeping due)) ->
  Q' (c_clock s) Expiring -> ~ Q (c_clock s) Stopped ->
  waiting i h tl Q' (receiving_step P timeout s (TimerRuns h)).
Proof.
  intros i h tl Q Q' s HS (H1 & H2 & H3) Hc Q1 Q2 Q3. split; [apply silent_step; [exact H1|intros p []]|].
  rewrite clock_step. cbn [passed fold_right]. rewrite N.add_0_r. split; [exact H2|]. cbn [receiving_step].
  destruct H3 as [H3|(W1 & (x & Hx & Hl) & tm & W3 & W4)].
  - left. destruct (c_heap s !! h) as [x|]; [|exact H3]. destruct (c_timers s !! h) as [[due| |]|]; try exact H3; cbn [timer_step].
    + destruct (c_clock s <? due); exact H3.
    + cbn [c_table]. apply lookup_delete_None. right. exact H3.
  - rewrite Hx, W3. destruct tm as [due| |]; cbn [timer_step].
    + destruct (N.ltb_spec (c_clock s) due) as [Hd|Hd].
      * right. split; [exact W1|]. split; [exists x; split; assumption|]. exists (Sleeping due). split; [exact W3|]. exact (Q1 due Hd W4).
      * right. cbn [c_table c_heap c_timers]. split; [exact W1|]. split; [exists x; split; assumption|].
        exists Expiring. split; [|exact Q2]. rewrite list_lookup_insert by (apply lookup_lt_Some in W3; exact W3). f_equal.
        assert (E : transfer_expired timeout s x = true); [|now rewrite E]. unfold transfer_expired, elapsed_secs. apply N.leb_le.
        apply N.div_le_lower_bound; lia.
    + left. cbn [c_table]. destruct (sn_table _ _ _ _ HS i h W1) as (y & Hy & Hyi). assert (y = x) by congruence. subst y.
      rewrite Hyi. apply lookup_delete.
    + contradiction.
Qed.

(** The last run of the timer. *)
Lemma waiting_last : forall i h tl s, sane_state P s -> waiting i h tl (fun _ t => t = Expiring) s ->
  c_table (receiving_step P timeout s (TimerRuns h)) !! i = None.
Proof.
  intros i h tl s HS (H1 & H2 & H3). cbn [receiving_step].
  destruct H3 as [H3|(W1 & (x & Hx & Hl) & tm & W3 & W4)].
  - destruct (c_heap s !! h) as [x|]; [|exact H3]. destruct (c_timers s !! h) as [[due| |]|]; try exact H3; cbn [timer_step].
    + destruct (c_clock s <? due); exact H3.
    + cbn [c_table]. apply lookup_delete_None. right. exact H3.
  - subst tm. rewrite Hx, W3. cbn [timer_step c_table]. destruct (sn_table _ _ _ _ HS i h W1) as (y & Hy & Hyi).
    assert (y = x) by congruence. subst y. rewrite Hyi. apply lookup_delete.
Qed.

Lemma silent_dropped : forall clock l i h e1 e2 e3,
  let s := receiving_run P timeout (receiving_new clock) l in
  c_table s !! i = Some h -> silent i s ->
  no_part i (e1 ++ e2 ++ e3) -> T <= passed e1 -> T <= passed e2 ->
  c_table (receiving_run P timeout s (e1 ++ [TimerRuns h] ++ e2 ++ [TimerRuns h] ++ e3 ++ [TimerRuns h])) !! i = None.
Proof.
  intros clock l i h e1 e2 e3 s Ht Hq Hn Hp1 Hp2.
  apply no_part_app in Hn as [N1 Hn]. apply no_part_app in Hn as [N2 N3].
  assert (HS : sane_state P s) by apply sane_run, sane_new.
  assert (HT : timed s) by (apply timed_run; [apply sane_new|apply timed_new]).
  set (tl := c_clock s).
  assert (W0 : waiting i h tl (fun _ t => match t with Stopped => False | _ => True end) s).
  { split; [exact Hq|]. split; [unfold tl; lia|]. right. split; [exact Ht|].
    destruct (sn_table _ _ _ _ HS i h Ht) as (x & Hx & _). split; [exists x; split; [exact Hx|exact (tm_time _ HT h x Hx)]|].
    destruct (c_timers s !! h) as [tm|] eqn:Etm.
    - exists tm. split; [reflexivity|]. destruct tm; try exact I. exact (tm_live _ HT i h Ht Etm).
    - exfalso. apply lookup_ge_None in Etm. apply lookup_lt_Some in Hx. pose proof (tm_len _ HT). lia. }
  rewrite run_app. set (s1 := receiving_run P timeout s e1).
  assert (HS1 : sane_state P s1) by now apply sane_run.
  assert (HT1 : timed s1) by now apply timed_run.
  assert (W1 : waiting i h tl (fun _ t => match t with Stopped => False | _ => True end) s1).
  { apply waiting_run; try assumption; auto. }
  assert (C1 : c_clock s1 = tl + passed e1) by apply clock_run.
  rewrite run_app. change (receiving_run P timeout s1 [TimerRuns h]) with (receiving_step P timeout s1 (TimerRuns h)).
  set (s2 := receiving_step P timeout s1 (TimerRuns h)).
  assert (HS2 : sane_state P s2) by now apply sane_step.
  assert (HT2 : timed s2) by now apply timed_step.
  set (Q2 := fun (c : N) (t : timer) => match t with Sleeping due => tl + T <= due /\ due <= c_clock s1 + T | Expiring => True | Stopped => False end).
  assert (W2 : waiting i h tl Q2 s2).
  { destruct (c_timers s1 !! h) as [[due| |]|] eqn:Etm.
    - pose proof (tm_due _ HT1 h due Etm) as Hdue.
      assert (W1' : waiting i h tl (fun _ t => t = Sleeping due) s1).
      { destruct W1 as (A1 & A2 & A3). split; [exact A1|]. split; [exact A2|]. destruct A3 as [A3|(A3 & A4 & tm & A5 & A6)]; [left; exact A3|right].
        split; [exact A3|]. split; [exact A4|]. exists tm. split; [exact A5|congruence]. }
      apply (waiting_timer _ _ _ _ _ _ HS1 W1').
      + lia.
      + intros d Hd E. injection E as ->. unfold Q2. lia.
      + exact I.
      + discriminate.
    - assert (W1' : waiting i h tl (fun _ t => t = Expiring) s1).
      { destruct W1 as (A1 & A2 & A3). split; [exact A1|]. split; [exact A2|]. destruct A3 as [A3|(A3 & A4 & tm & A5 & A6)]; [left; exact A3|right].
        split; [exact A3|]. split; [exact A4|]. exists tm. split; [exact A5|congruence]. }
      apply (waiting_timer _ _ _ _ _ _ HS1 W1'); [lia|discriminate|exact I|discriminate].
    - assert (W1' : waiting i h tl (fun _ t => False) s1).
      { destruct W1 as (A1 & A2 & A3). split; [exact A1|]. split; [exact A2|]. destruct A3 as [A3|(A3 & A4 & tm & A5 & A6)]; [left; exact A3|].
        assert (tm = Stopped) by congruence. subst tm. destruct A6. }
      apply (waiting_timer _ _ _ _ _ _ HS1 W1'); [lia|intros d _ []|exact I|intros []].
    - assert (W1' : waiting i h tl (fun _ t => False) s1).
      { destruct W1 as (A1 & A2 & A3). split; [exact A1|]. split; [exact A2|]. destruct A3 as [A3|(A3 & A4 & tm & A5 & A6)]; [left; exact A3|]. congruence. }
      apply (waiting_timer _ _ _ _ _ _ HS1 W1'); [lia|intros d _ []|exact I|intros []]. }
  rewrite run_app. set (s3 := receiving_run P timeout s2 e2).
  assert (HS3 : sane_state P s3) by now apply sane_run.
  assert (HT3 : timed s3) by now apply timed_run.
  assert (W3 : waiting i h tl Q2 s3).
  { apply waiting_run; try assumption.
    - intros c c' t _ H. exact H.
    - intros c due _ [H _] Hd Hc. lia.
    - intros c due _ _ _. exact I. }
  assert (C3 : c_clock s3 = tl + passed e1 + passed e2).
  { unfold s3. rewrite clock_run. unfold s2. rewrite clock_step. cbn [passed fold_right]. lia. }
  rewrite run_app. change (receiving_run P timeout s3 [TimerRuns h]) with (receiving_step P timeout s3 (TimerRuns h)).
  set (s4 := receiving_step P timeout s3 (TimerRuns h)).
  assert (HS4 : sane_state P s4) by now apply sane_step.
  assert (HT4 : timed s4) by now apply timed_step.
  assert (W4 : waiting i h tl (fun _ t => t = Expiring) s4).
  { apply (waiting_timer _ _ _ _ _ _ HS3 W3).
    - lia.
    - intros due Hd [_ H]. lia.
    - reflexivity.
    - intros []. }
  rewrite run_app. apply (waiting_last i h tl).
  - now apply sane_run.
  - apply waiting_run; try assumption.
    + intros c c' t _ H. exact H.
    + intros c due _ H. discriminate H.
    + intros c due _ H. discriminate H.
Qed.
End Timers.
