(** A message sent again: what earlier transfers of its id left behind does not matter. *)
From stdpp Require Import gmap.
From Coq Require Import NArith ZArith Lia.
From Coq Require Import ZifyBool ZifyNat ZifyN.
From Verif.Base Require Import Bytes BytesFacts.
From Verif.Model Require Import Crypto Transfer TransferConc.
From Verif.Spec Require Import TransferSpec TransferConcSpec.
From Verif.Proof Require Import TransferConcFacts TransferHonestFacts TransferTimerFacts.
Open Scope N_scope.

Section Masked.
Context (P : prims) (timeout : N) (id other : bytes) (Hother : other <> id) (dead : nat -> Prop) (old : list task).

(** Two states that differ in what is over only. *)
Record alike (s s' : receiving_state) : Prop := mk_alike
  { al_table : c_table s' = c_table s;
    al_clock : c_clock s' = c_clock s;
    al_timers : c_timers s' = c_timers s;
    al_len : length (c_heap s') = length (c_heap s);
    al_heap : forall h, ~ dead h -> c_heap s' !! h = c_heap s !! h;
    al_dead : forall h, dead h -> (h < length (c_heap s))%nat /\ c_timers s !! h = Some Stopped;
    al_live : forall (i : bytes) h, c_table s !! i = Some h -> ~ dead h;
    al_many : length (c_tasks s') = length (c_tasks s);
    al_old : (length old <= length (c_tasks s))%nat;
    al_tasks : forall k t, c_tasks s !! k = Some t ->
      (exists h o h', t = Ended h id o /\ c_tasks s' !! k = Some (Ended h' other Pending) /\ old !! k = Some t)
      \/ (c_tasks s' !! k = Some t
          /\ (forall u, old !! k = Some u -> task_id u <> id /\ task_id t <> id)
          /\ forall h, task_handle t = Some h -> ~ dead h) }.

Lemma alter_heap : forall f h (l l' : list shared_transfer), ~ dead h ->
  (forall h, ~ dead h -> l' !! h = l !! h) -> forall h', ~ dead h' -> alter f h l' !! h' = alter f h l !! h'.
Proof.
  intros f h l l' Hh H h' Hh'. destruct (decide (h' = h)) as [->|Hn].
  - rewrite !list_lookup_alter. now rewrite H.
  - rewrite !list_lookup_alter_ne by congruence. now apply H.
Qed.

(** One task's step: what it does to the shared state. *)
Lemma alike_with : forall s s' h f, alike s s' -> ~ dead h -> alike (with_transfer s h f) (with_transfer s' h f).
Proof.
  intros s s' h f [A1 A2 A3 A4 A5 A6 A7 A8 A9 A10] Hh. split; cbn [with_transfer c_table c_clock c_timers c_heap c_tasks]; try assumption.
  - rewrite !alter_length. exact A4.
  - apply alter_heap; assumption.
  - intros h' Hd. rewrite alter_length. exact (A6 h' Hd).
Qed.
Lemma alike_without : forall s s' i, alike s s' -> alike (without s i) (without s' i).
Proof.
  intros s s' i [A1 A2 A3 A4 A5 A6 A7 A8 A9 A10]. split; cbn [without c_table c_clock c_timers c_heap c_tasks]; try assumption.
  - now rewrite A1.
  - intros j h H. apply lookup_delete_Some in H as [_ H]. exact (A7 j h H).
Qed.

Lemma alike_task : forall s s' t, alike s s' -> (forall h, task_handle t = Some h -> ~ dead h) ->
  alike (fst (task_step P timeout s t)) (fst (task_step P timeout s' t))
  /\ snd (task_step P timeout s' t) = snd (task_step P timeout s t)
  /\ (forall h, task_handle (snd (task_step P timeout s t)) = Some h -> ~ dead h).
Proof.
  intros s s' t HA Hh.
  destruct t as [hash tot offset data|h hash offset data|h hash offset data|h hash offset size|h hash offset|h hash received buffer|h hash o|h hash o]; cbn [task_step task_handle] in *.
  - rewrite (al_table _ _ HA). destruct (c_table s !! hash) as [h|] eqn:Eh; cbn [fst snd].
    + split; [exact HA|]. split; [reflexivity|]. intros h' E. injection E as <-. exact (al_live _ _ HA hash h Eh).
    + rewrite (al_len _ _ HA). assert (Hnew : ~ dead (length (c_heap s))).
      { intros Hd. destruct (al_dead _ _ HA _ Hd). lia. }
      split; [|split; [reflexivity|]].
      * destruct HA as [A1 A2 A3 A4 A5 A6 A7 A8 A9 A10]. split; cbn [c_table c_clock c_timers c_heap c_tasks]; try assumption.
        -- reflexivity.
        -- now rewrite A3, A2.
        -- rewrite !app_length. cbn [length]. lia.
        -- intros h Hd. rewrite A2. destruct (decide (h < length (c_heap s))%nat) as [Hlt|Hge].
           ++ rewrite !lookup_app_l by lia. exact (A5 h Hd).
           ++ rewrite !lookup_app_r by lia. now rewrite A4.
        -- intros h Hd. destruct (A6 h Hd) as [B1 B2]. rewrite app_length. split; [lia|]. apply lookup_app_l_Some. exact B2.
        -- intros i h H. destruct (decide (i = hash)) as [->|Hn].
           ++ rewrite lookup_insert in H. injection H as <-. exact Hnew.
           ++ rewrite lookup_insert_ne in H by congruence. exact (A7 i h H).
      * intros h' E. injection E as <-. exact Hnew.
  - pose proof (Hh h eq_refl) as Hd. rewrite (al_heap _ _ HA h Hd). cbn [fst snd].
    split; [|split; [reflexivity|exact Hh]].
    destruct (c_heap s !! h); [|exact HA]. unfold elapsed_secs. rewrite (al_clock _ _ HA). now apply alike_with.
  - pose proof (Hh h eq_refl) as Hd. rewrite (al_heap _ _ HA h Hd). destruct (c_heap s !! h) as [x|]; cbn [fst snd].
    + split; [now apply alike_with|]. split; [reflexivity|]. intros h' E. destruct (x_parts x !! offset); exact (Hh h' E).
    + split; [exact HA|]. split; [reflexivity|exact Hh].
  - cbn [fst snd]. split; [apply alike_with; [exact HA|exact (Hh h eq_refl)]|]. split; [reflexivity|exact Hh].
  - pose proof (Hh h eq_refl) as Hd. rewrite (al_heap _ _ HA h Hd). destruct (c_heap s !! h) as [x|]; cbn [fst snd].
    + destruct (x_received x ?= x_total x); cbn [fst snd]; (split; [|split; [reflexivity|exact Hh]]); [now apply alike_with|exact HA|exact HA].
    + split; [exact HA|]. split; [reflexivity|exact Hh].
  - pose proof (Hh h eq_refl) as Hd. rewrite (al_heap _ _ HA h Hd). destruct (c_heap s !! h) as [x|]; cbn [fst snd].
    + split; [exact HA|]. split; [reflexivity|]. intros h' E.
      destruct (received <? x_total x); [destruct (x_parts x !! received)|destruct (bytes_eqb _ _)]; exact (Hh h' E).
    + split; [exact HA|]. split; [reflexivity|exact Hh].
  - cbn [fst snd]. split; [now apply alike_without|]. split; [reflexivity|exact Hh].
  - cbn [fst snd]. split; [exact HA|]. split; [reflexivity|exact Hh].
Qed.

Lemma alike_step : forall s s' e, alike s s' -> alike (receiving_step P timeout s e) (receiving_step P timeout s' e).
Proof.
  intros s s' e HA. destruct e as [hash tot offset data|k|h|ms]; cbn [receiving_step].
  - destruct HA as [A1 A2 A3 A4 A5 A6 A7 A8 A9 A10]. split; cbn [c_table c_clock c_timers c_heap c_tasks]; try assumption.
    + rewrite !app_length, A8. reflexivity.
    + rewrite app_length. lia.
    + intros k t H. apply lookup_app_Some in H as [H|[H1 H2]].
      * destruct (A10 k t H) as [(h & o & h' & B1 & B2 & B3)|(B1 & B2 & B3)].
        -- left. exists h, o, h'. split; [exact B1|]. split; [apply lookup_app_l_Some; exact B2|exact B3].
        -- right. split; [apply lookup_app_l_Some; exact B1|]. split; assumption.
      * right. split; [rewrite lookup_app_r by lia; rewrite A8; exact H2|]. split.
        -- intros u Hu. apply lookup_lt_Some in Hu. lia.
        -- apply list_lookup_singleton_Some in H2 as [_ <-]. discriminate.
  - destruct (c_tasks s !! k) as [t|] eqn:Ht.
    2:{ destruct (c_tasks s' !! k) eqn:Ht'; [|exact HA]. apply lookup_ge_None in Ht. apply lookup_lt_Some in Ht'. pose proof (al_many _ _ HA). lia. }
    destruct (al_tasks _ _ HA k t Ht) as [(h & o & h' & -> & B2 & B3)|(B1 & B2 & B3)].
    + rewrite B2. cbn [task_step]. rewrite !list_insert_id by assumption. destruct s, s'; exact HA.
    + rewrite B1. destruct (alike_task s s' t HA B3) as (C1 & C2 & C3).
      pose proof (task_step_shape P timeout s t) as S1. pose proof (task_step_shape P timeout s' t) as S2.
      destruct (task_step P timeout s t) as [s2 t2]. destruct (task_step P timeout s' t) as [s2' t2']. cbn [fst snd] in *. subst t2'.
      destruct S1 as (I1 & T1 & _). destruct S2 as (_ & T2 & _).
      destruct C1 as [A1 A2 A3 A4 A5 A6 A7 A8 A9 A10]. split; cbn [c_table c_clock c_timers c_heap c_tasks]; try assumption.
      * rewrite !insert_length. exact A8.
      * rewrite insert_length. exact A9.
      * intros k' u Hu. destruct (decide (k' = k)) as [->|Hn].
        -- rewrite list_lookup_insert in Hu by (rewrite T1; apply lookup_lt_Some in Ht; exact Ht). injection Hu as <-.
           right. rewrite list_lookup_insert by (rewrite T2; apply lookup_lt_Some in B1; exact B1).
           split; [reflexivity|]. split; [|exact C3]. intros v Hv. rewrite I1. exact (B2 v Hv).
        -- rewrite list_lookup_insert_ne in Hu by congruence. rewrite list_lookup_insert_ne by congruence. exact (A10 k' u Hu).
  - rewrite (al_timers _ _ HA). destruct (c_timers s !! h) as [tm|] eqn:Etm.
    2:{ destruct (c_heap s !! h), (c_heap s' !! h); exact HA. }
    assert (Hcase : tm = Stopped \/ ~ dead h).
    { destruct tm as [due| |]; [right|right|left; reflexivity]; intros Hd; destruct (al_dead _ _ HA h Hd); congruence. }
    destruct Hcase as [->|Hd].
    + destruct (c_heap s !! h), (c_heap s' !! h); exact HA.
    + rewrite (al_heap _ _ HA h Hd). destruct (c_heap s !! h) as [x|]; [|exact HA].
      assert (Hset : forall t', forall h', dead h' -> <[h := t']> (c_timers s) !! h' = Some Stopped).
      { intros t' h' Hd'. rewrite list_lookup_insert_ne by (intros ->; contradiction). apply (al_dead _ _ HA h' Hd'). }
      destruct HA as [A1 A2 A3 A4 A5 A6 A7 A8 A9 A10]. destruct tm as [due| |]; cbn [timer_step].
      * rewrite A2. destruct (c_clock s <? due); [split; assumption|]. unfold transfer_expired, elapsed_secs. rewrite A2, A3.
        split; cbn [c_table c_clock c_timers c_heap c_tasks]; try assumption; try reflexivity.
        intros h' Hd'. split; [apply A6, Hd'|]. apply Hset, Hd'.
      * rewrite A3. split; cbn [c_table c_clock c_timers c_heap c_tasks]; try assumption; try reflexivity.
        -- now rewrite A1.
        -- intros h' Hd'. split; [apply A6, Hd'|]. apply Hset, Hd'.
        -- intros i h' H. apply lookup_delete_Some in H as [_ H]. exact (A7 i h' H).
      * split; assumption.
  - destruct HA as [A1 A2 A3 A4 A5 A6 A7 A8 A9 A10]. split; cbn [c_table c_clock c_timers c_heap c_tasks]; try assumption. congruence.
Qed.
Lemma alike_run : forall l s s', alike s s' -> alike (receiving_run P timeout s l) (receiving_run P timeout s' l).
Proof.
  induction l as [|e l IH]; intros s s' H; [exact H|].
  exact (IH _ _ (alike_step s s' e H)).
Qed.
End Masked.

(** The same, without the old transfers of [id]. *)
Definition masked_task (id : bytes) (t : task) : task :=
  if bytes_eqb (task_id t) id then match t with Ended h _ _ => Ended h (0 :: id) Pending | _ => t end else t.
Definition masked_transfer (id : bytes) (x : shared_transfer) : shared_transfer :=
  if bytes_eqb (x_hash x) id then mk_shared (0 :: id) (x_parts x) (x_received x) (x_total x) (x_started x) (x_updated x) else x.
Definition masked (id : bytes) (s : receiving_state) : receiving_state :=
  mk_receiving (c_table s) (map (masked_transfer id) (c_heap s)) (c_clock s) (map (masked_task id) (c_tasks s)) (c_timers s).

Lemma longer_neq : forall (id : bytes), 0 :: id <> id.
Proof. intros id E. apply (f_equal (@length N)) in E. cbn [length] in E. lia. Qed.

Lemma masked_ended : forall id s t, all_ended id s -> In t (c_tasks s) -> task_id t = id ->
  exists h o, t = Ended h id o /\ masked_task id t = Ended h (0 :: id) Pending.
Proof.
  intros id s t He Ht Hi. destruct (He t Ht Hi) as (h & o & ->). exists h, o. split; [reflexivity|].
  unfold masked_task. cbn [task_id]. now rewrite bytes_eqb_refl.
Qed.
Lemma masked_same : forall id t, task_id t <> id -> masked_task id t = t.
Proof. intros id t H. unfold masked_task. apply bytes_eqb_neq in H. now rewrite H. Qed.

Lemma lookup_mapped : forall {A B} (f : A -> B) l k, map f l !! k = f <$> l !! k.
Proof. intros A B f l. induction l as [|a l IH]; intros [|k]; try reflexivity. exact (IH k). Qed.

Lemma masked_sane : forall P id s, sane_state P s -> quiet id s -> sane_state P (masked id s).
Proof.
  intros P id s HS (Q1 & Q2 & Q3). split; cbn [masked c_table c_heap c_tasks].
  - intros t' h Ht' Hh. apply in_map_iff in Ht' as (t & <- & Ht).
    destruct (decide (task_id t = id)) as [E|E].
    + destruct (masked_ended id s t Q1 Ht E) as (h0 & o & -> & Em). rewrite Em in *. cbn [task_handle] in Hh. injection Hh as ->.
      destruct (sn_tasks _ _ _ _ HS _ h Ht eq_refl) as (x & Hx & Hxi). cbn [task_id] in *.
      exists (masked_transfer id x). split; [rewrite lookup_mapped, Hx; reflexivity|].
      unfold masked_transfer. rewrite Hxi, bytes_eqb_refl. reflexivity.
    + rewrite masked_same in * by exact E. destruct (sn_tasks _ _ _ _ HS t h Ht Hh) as (x & Hx & Hxi).
      exists x. split; [|exact Hxi]. rewrite lookup_mapped, Hx. cbn. f_equal. unfold masked_transfer.
      apply bytes_eqb_neq in E. now rewrite Hxi, E.
  - intros i h Hi. destruct (sn_table _ _ _ _ HS i h Hi) as (x & Hx & Hxi). exists x. split; [|exact Hxi].
    rewrite lookup_mapped, Hx. cbn. f_equal. unfold masked_transfer. rewrite Hxi.
    destruct (bytes_eqb i id) eqn:E; [|reflexivity]. apply bytes_eqb_eq in E. subst i. congruence.
  - intros h x' Hx' Hpos. rewrite lookup_mapped in Hx'. destruct (c_heap s !! h) as [x|] eqn:Hx; [|discriminate Hx'].
    cbn in Hx'. injection Hx' as <-.
    assert (Et : x_total (masked_transfer id x) = x_total x) by (unfold masked_transfer; destruct (bytes_eqb _ _); reflexivity).
    assert (Er : x_received (masked_transfer id x) = x_received x) by (unfold masked_transfer; destruct (bytes_eqb _ _); reflexivity).
    rewrite Et in *. rewrite Er. destruct (sn_wins _ _ _ _ HS h x Hx Hpos) as [W1 W2].
    assert (Hle : sum (wins h) (map (masked_task id) (c_tasks s)) <= sum (wins h) (c_tasks s)).
    { assert (Hall : forall t, In t (c_tasks s) -> wins h (masked_task id t) <= wins h t).
      { intros t Ht. destruct (decide (task_id t = id)) as [E|E].
        - destruct (masked_ended id s t Q1 Ht E) as (h0 & o & -> & Em). rewrite Em, (wins_none h (Ended h0 (0 :: id) Pending)) by reflexivity. lia.
        - rewrite masked_same by exact E. lia. }
      revert Hall. generalize (c_tasks s). intros l. induction l as [|t l IH]; intros Hall; [cbn; lia|].
      cbn [map sum]. pose proof (Hall t (or_introl eq_refl)). specialize (IH (fun u Hu => Hall u (or_intror Hu))). lia. }
    split; [lia|]. intros Hw. apply W2. lia.
  - intros t' Ht'. apply in_map_iff in Ht' as (t & <- & Ht). destruct (decide (task_id t = id)) as [E|E].
    + destruct (masked_ended id s t Q1 Ht E) as (h0 & o & -> & Em). rewrite Em. exact I.
    + rewrite masked_same by exact E. exact (sn_whole _ _ _ _ HS t Ht).
Qed.

Lemma masked_clean : forall id s, all_ended id s ->
  (forall t, In t (c_tasks (masked id s)) -> task_id t <> id)
  /\ (forall h x, c_heap (masked id s) !! h = Some x -> x_hash x <> id).
Proof.
  intros id s He. cbn [masked c_tasks c_heap]. split.
  - intros t' Ht'. apply in_map_iff in Ht' as (t & <- & Ht). destruct (decide (task_id t = id)) as [E|E].
    + destruct (masked_ended id s t He Ht E) as (h & o & -> & Em). rewrite Em. apply longer_neq.
    + now rewrite masked_same.
  - intros h x' Hx'. rewrite lookup_mapped in Hx'. destruct (c_heap s !! h) as [x|]; [|discriminate Hx'].
    cbn in Hx'. injection Hx' as <-. unfold masked_transfer. destruct (bytes_eqb (x_hash x) id) eqn:E.
    + apply longer_neq.
    + apply bytes_eqb_neq. exact E.
Qed.

Definition dead_of (id : bytes) (s : receiving_state) (h : nat) : Prop := exists x, c_heap s !! h = Some x /\ x_hash x = id.

Lemma masked_alike : forall P id s, sane_state P s -> quiet id s ->
  alike id (0 :: id) (dead_of id s) (c_tasks s) s (masked id s).
Proof.
  intros P id s HS (Q1 & Q2 & Q3). split; cbn [masked c_table c_heap c_clock c_tasks c_timers]; try reflexivity.
  - apply map_length.
  - intros h Hd. rewrite lookup_mapped. destruct (c_heap s !! h) as [x|] eqn:Hx; [|reflexivity]. cbn. f_equal.
    unfold masked_transfer. destruct (bytes_eqb (x_hash x) id) eqn:E; [|reflexivity]. apply bytes_eqb_eq in E.
    exfalso. apply Hd. exists x. split; assumption.
  - intros h (x & Hx & Hi). split; [apply lookup_lt_Some in Hx; exact Hx|exact (Q3 h x Hx Hi)].
  - intros i h Hi (x & Hx & Hxi). destruct (sn_table _ _ _ _ HS i h Hi) as (y & Hy & Hyi). congruence.
  - apply map_length.
  - intros k t Hk. rewrite lookup_mapped, Hk. cbn. pose proof (lookup_In _ _ _ Hk) as Ht.
    destruct (decide (task_id t = id)) as [E|E].
    + left. destruct (masked_ended id s t Q1 Ht E) as (h & o & -> & Em). exists h, o, h. rewrite Em. repeat split.
    + right. rewrite masked_same by exact E. split; [reflexivity|]. split.
      * intros u Hu. assert (u = t) by congruence. subst u. split; exact E.
      * intros h Hh (x & Hx & Hxi). destruct (sn_tasks _ _ _ _ HS t h Ht Hh) as (y & Hy & Hyi). congruence.
Qed.

(** What the old tasks ended with, and what the others ended with. *)
Definition result_of (i : bytes) (t : task) : list part_outcome :=
  match t with Ended _ j o => if bytes_eqb j i then [o] else [] | _ => [] end.
Lemma result_other : forall i t, task_id t <> i -> result_of i t = [].
Proof. intros i t H. destruct t; try reflexivity. cbn [result_of task_id] in *. apply bytes_eqb_neq in H. now rewrite H. Qed.

Lemma flat_map_pointwise : forall {A B} (f g : A -> list B) l l', length l = length l' ->
  (forall k a b, l !! k = Some a -> l' !! k = Some b -> f a = g b) -> flat_map f l = flat_map g l'.
Proof.
  intros A B f g l. induction l as [|a l IH]; intros [|b l'] Hl H; try discriminate Hl; [reflexivity|].
  cbn [flat_map]. rewrite (H 0%nat a b eq_refl eq_refl). f_equal. apply IH; [cbn in Hl; lia|].
  intros k x y Hx Hy. exact (H (S k) x y Hx Hy).
Qed.

Lemma alike_results : forall id other dead old s s', other <> id ->
  alike id other dead old s s' ->
  results id s = flat_map (result_of id) old ++ results id s'
  /\ (all_ended id s -> all_ended id s').
Proof.
  intros id other dead old s s' Hother HA. split.
  - unfold results. fold (result_of id). change (fun t => match t with Ended _ j o => if bytes_eqb j id then [o] else [] | _ => [] end) with (result_of id).
    rewrite <- (firstn_skipn (length old) (c_tasks s)), <- (firstn_skipn (length old) (c_tasks s')).
    rewrite !flat_map_app. 
    assert (E1 : flat_map (result_of id) (firstn (length old) (c_tasks s)) = flat_map (result_of id) old).
    { apply flat_map_pointwise.
      - rewrite firstn_length. pose proof (al_old _ _ _ _ _ _ HA). lia.
      - intros k a b Ha Hb. rewrite lookup_take in Ha by (apply lookup_lt_Some in Hb; exact Hb).
        destruct (al_tasks _ _ _ _ _ _ HA k a Ha) as [(h & o & h' & -> & B2 & B3)|(B1 & B2 & B3)]; [congruence|].
        destruct (B2 b Hb) as [C1 C2]. now rewrite !result_other. }
    assert (E2 : flat_map (result_of id) (firstn (length old) (c_tasks s')) = []).
    { assert (Hz : forall l, (forall t, In t l -> result_of id t = []) -> flat_map (result_of id) l = []).
      { induction l as [|t l IH]; intros H; [reflexivity|]. cbn [flat_map]. rewrite (H t (or_introl eq_refl)), IH; [reflexivity|]. intros u Hu. apply H. now right. }
      apply Hz. intros t Ht. apply elem_of_list_In, elem_of_list_lookup in Ht as [k Hk].
      assert (Hlt : (k < length old)%nat) by (apply lookup_lt_Some in Hk; rewrite firstn_length in Hk; lia).
      rewrite lookup_take in Hk by exact Hlt.
      destruct (lookup_lt_is_Some_2 (c_tasks s) k) as [a Ha].
      { apply lookup_lt_Some in Hk. pose proof (al_many _ _ _ _ _ _ HA). lia. }
      destruct (al_tasks _ _ _ _ _ _ HA k a Ha) as [(h & o & h' & -> & B2 & B3)|(B1 & B2 & B3)].
      - assert (t = Ended h' other Pending) by congruence. subst t. apply result_other. exact Hother.
      - assert (t = a) by congruence. subst t. destruct (lookup_lt_is_Some_2 old k Hlt) as [u Hu]. apply result_other. apply (B2 u Hu). }
    assert (E3 : flat_map (result_of id) (skipn (length old) (c_tasks s)) = flat_map (result_of id) (skipn (length old) (c_tasks s'))).
    { apply flat_map_pointwise.
      - rewrite !skipn_length. pose proof (al_many _ _ _ _ _ _ HA). lia.
      - intros k a b Ha Hb. rewrite lookup_drop in Ha, Hb.
        destruct (al_tasks _ _ _ _ _ _ HA _ a Ha) as [(h & o & h' & -> & B2 & B3)|(B1 & B2 & B3)].
        + apply lookup_lt_Some in B3. lia.
        + congruence. }
    now rewrite E1, E2, E3.
  - intros He t' Ht' Hi. apply elem_of_list_In, elem_of_list_lookup in Ht' as [k Hk].
    destruct (lookup_lt_is_Some_2 (c_tasks s) k) as [a Ha].
    { apply lookup_lt_Some in Hk. pose proof (al_many _ _ _ _ _ _ HA). lia. }
    destruct (al_tasks _ _ _ _ _ _ HA k a Ha) as [(h & o & h' & -> & B2 & B3)|(B1 & B2 & B3)].
    + assert (t' = Ended h' other Pending) by congruence. subst t'. contradiction.
    + assert (t' = a) by congruence. subst t'. exact (He a (lookup_In _ _ _ Ha) Hi).
Qed.

Lemma sent_again : forall P pieces, Forall (fun d => d <> []) pieces -> pieces <> [] ->
  let id := sha256 P (concat pieces) in
  let cut := cut_from id (len (concat pieces)) 0 pieces in
  forall timeout clock before during,
  let s0 := receiving_run P timeout (receiving_new clock) before in
  quiet id s0 ->
  (forall p, In p (came during) -> pt_hash p = id -> In p cut) ->
  (forall p, In p cut -> In p (came during)) ->
  passed during < timeout * 1000 ->
  let s := receiving_run P timeout s0 during in
  all_ended id s ->
  exists more, messages id s = messages id s0 ++ more /\ more <> []
  /\ (forall m, In m more -> m = concat pieces)
  /\ (forall p, In p cut -> (length more <= times_came p during)%nat).
Proof.
  intros P pieces Hne Hsome id cut timeout clock before during s0 HQ Hd Hall Hp s Hend.
  assert (HS : sane_state P s0) by apply sane_run, sane_new.
  pose proof (masked_alike P id s0 HS HQ) as HA.
  pose proof (alike_run P timeout id (0 :: id) _ _ during _ _ HA) as HA2. fold s in HA2.
  destruct (alike_results _ _ _ _ _ _ (longer_neq id) HA2) as [HR HE].
  assert (HM : timers_match (masked id s0)).
  { unfold timers_match. cbn [masked c_timers c_heap]. rewrite map_length. unfold s0.
    assert (Hm : forall l s, timers_match s -> timers_match (receiving_run P timeout s l)).
    { induction l as [|e l IH]; intros u Hu; [exact Hu|]. exact (IH _ (timers_match_step P timeout u e Hu)). }
    apply (Hm before (receiving_new clock)). reflexivity. }
  destruct (reassembled_from P pieces Hne Hsome timeout (masked id s0) during (masked_sane P id s0 HS HQ) HM
    (masked_clean id s0 (proj1 HQ)) Hd Hall Hp (HE Hend)) as (R1 & R2 & R3).
  exists (messages id (receiving_run P timeout (masked id s0) during)).
  split; [unfold messages; rewrite HR, flat_map_app; reflexivity|]. split; [exact R1|]. split; [|exact R2].
  intros m Hm. unfold messages in Hm. apply in_flat_map in Hm as (o & Ho & Hm).
  destruct (R3 o Ho) as [->|[->| ->]]; [|destruct Hm|destruct Hm]. destruct Hm as [->|[]]. reflexivity.
Qed.
