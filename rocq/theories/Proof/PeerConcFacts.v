(** C92: packets of one peer handled at the same time. *)
From Coq Require Import List NArith Arith Lia Bool Permutation.
From Coq Require Import ZifyBool ZifyNat ZifyN.
From Verif.Base Require Import Bytes BytesFacts Res.
From Verif.Model Require Import History Peer PeerConc.
From Verif.Spec Require Import PeerConcSpec.
Import ListNotations.
Open Scope N_scope.

Lemma set_nth_nth : forall (A : Type) (l : list A) i j x y, nth_error l i = Some y ->
  nth_error (set_nth i x l) j = if Nat.eqb i j then Some x else nth_error l j.
Proof.
  intros A l. induction l as [|a l IH]; intros i j x y H; [destruct i; discriminate|].
  destruct i as [|i], j as [|j]; cbn in *; try reflexivity. now apply (IH i j x y).
Qed.
Lemma peers_run_last : forall checks x sched i, peers_run checks x (sched ++ [i]) = peers_step checks (peers_run checks x sched) i.
Proof. intros. unfold peers_run. now rewrite fold_left_app. Qed.

Lemma reset_one_date : forall p w, ss_reinit (p_send (reset_one p w)) = ss_reinit (p_send p).
Proof. intros p [[] []]; reflexivity. Qed.

(** ** The date never falls below what it was when nothing was going on *)
Definition above (d0 : N) (t : ptask) : Prop :=
  match t with
  | StoreDate loaded d _ _ => d0 <= loaded /\ loaded < d
  | Resets _ d _ _ => d0 <= d
  | Handled (Some d) _ v => v = TooOld \/ d0 <= d
  | _ => True
  end.
Lemma above_step : forall checks d0 p t, d0 <= ss_reinit (p_send p) -> above d0 t ->
  d0 <= ss_reinit (p_send (fst (peer_step checks p t))) /\ above d0 (snd (peer_step checks p t)).
Proof.
  intros checks d0 p t Hp Ht. destruct t as [d s pr|loaded d s pr|[|w todo] d s pr|s pr|od s v|pr|pr n]; cbn [peer_step above] in *.
  - destruct (N.compare_spec d (ss_reinit (p_send p))); cbn [fst snd above]; try (split; [exact Hp|]); [lia|now left|lia].
  - cbn [fst snd above set_send p_send ss_reinit]. lia.
  - destruct (deliver checks _ s) as [o h]. cbn [fst snd above set_recv p_send]. split; [exact Hp|now right].
  - cbn [fst snd above]. rewrite reset_one_date. now split.
  - destruct (deliver checks _ s) as [o h]. cbn [fst snd above set_recv p_send]. now split.
  - now split.
  - cbn [fst snd above]. split; [|exact I]. destruct pr; exact Hp.
  - now split.
Qed.

Lemma floor : forall checks p ts sched, Forall waiting ts ->
  ss_reinit (p_send p) <= known_date (peers_run checks (p, ts) sched)
  /\ forall j d s v, nth_error (snd (peers_run checks (p, ts) sched)) j = Some (Handled (Some d) s v) ->
     d < ss_reinit (p_send p) -> v = TooOld.
Proof.
  intros checks p ts sched Hw.
  assert (H : ss_reinit (p_send p) <= known_date (peers_run checks (p, ts) sched)
    /\ forall j t, nth_error (snd (peers_run checks (p, ts) sched)) j = Some t -> above (ss_reinit (p_send p)) t).
  { induction sched as [|i sched IH] using rev_ind.
    - split; [cbn; unfold known_date; cbn; lia|]. intros j t Ht. cbn in Ht. apply nth_error_In in Ht.
      rewrite Forall_forall in Hw. specialize (Hw t Ht). destruct t; cbn in *; try exact I; destruct Hw.
    - rewrite peers_run_last. destruct (peers_run checks (p, ts) sched) as [q l]. destruct IH as [H1 H2].
      unfold peers_step. cbn [fst snd]. destruct (nth_error l i) as [t|] eqn:Ei; [|now split].
      destruct (above_step checks _ q t H1 (H2 i t Ei)) as [H3 H4].
      destruct (peer_step checks q t) as [q' t']. cbn [fst snd] in *. unfold known_date. cbn [fst snd]. split; [exact H3|].
      intros j u Hu. rewrite (set_nth_nth _ l i j t' t Ei) in Hu. destruct (Nat.eqb i j); [now injection Hu as <-|now apply (H2 j)]. }
  destruct H as [H1 H2]. split; [exact H1|]. intros j d s v Hj Hd. specialize (H2 j _ Hj). cbn in H2. destruct H2 as [H2|H2]; [exact H2|lia].
Qed.

(** ** Numbers *)
Definition calm (D : N) (t : ptask) : Prop :=
  match t with
  | CheckDate d _ _ => d = D
  | StoreDate loaded d _ _ => loaded = 0 /\ d = D
  | Resets l _ _ _ => l = []
  | _ => True
  end.
Definition is_send (t : ptask) : bool := match t with Send _ => true | _ => false end.
Lemma calm_step : forall checks D p t, (ss_reinit (p_send p) = D \/ ss_reinit (p_send p) = 0) -> calm D t ->
  let p' := fst (peer_step checks p t) in let t' := snd (peer_step checks p t) in
  (ss_reinit (p_send p') = D \/ ss_reinit (p_send p') = 0) /\ calm D t' /\ is_send t' = false
  /\ ((is_send t = false /\ forall pr, ss_seqno pr (p_send p') = ss_seqno pr (p_send p) /\ numbers pr [t'] = numbers pr [t])
      \/ exists pr, t = Send pr /\ t' = Sent pr ((ss_seqno pr (p_send p) + 1) mod 2 ^ 64)
         /\ ss_seqno pr (p_send p') = (ss_seqno pr (p_send p) + 1) mod 2 ^ 64
         /\ ss_seqno (negb pr) (p_send p') = ss_seqno (negb pr) (p_send p)).
Proof.
  intros checks D p t Hp Ht. destruct t as [d s pr|loaded d s pr|[|w todo] d s pr|s pr|od s v|pr|pr n]; cbn [peer_step calm] in *.
  - subst d. destruct (N.compare_spec D (ss_reinit (p_send p))) as [E|E|E]; cbn [fst snd calm is_send].
    + split; [exact Hp|]. split; [reflexivity|]. split; [reflexivity|]. left. split; [reflexivity|]. intros pr'. now split.
    + split; [exact Hp|]. split; [exact I|]. split; [reflexivity|]. left. split; [reflexivity|]. intros pr'. now split.
    + split; [exact Hp|]. split; [split; [destruct Hp; lia|reflexivity]|]. split; [reflexivity|]. left. split; [reflexivity|]. intros pr'. now split.
  - destruct Ht as [-> ->]. cbn. split; [now left|]. split; [reflexivity|]. split; [reflexivity|]. left. split; [reflexivity|].
    intros pr'. split; [now destruct pr'|reflexivity].
  - destruct (deliver checks _ s) as [o h]. cbn. split; [exact Hp|]. split; [exact I|]. split; [reflexivity|]. left. split; [reflexivity|]. intros pr'. now split.
  - discriminate.
  - destruct (deliver checks _ s) as [o h]. cbn. split; [exact Hp|]. split; [exact I|]. split; [reflexivity|]. left. split; [reflexivity|]. intros pr'. now split.
  - cbn. split; [exact Hp|]. split; [exact I|]. split; [reflexivity|]. left. split; [reflexivity|]. intros pr'. now split.
  - cbn [fst snd calm is_send set_send p_send]. split; [destruct pr; exact Hp|]. split; [exact I|]. split; [reflexivity|]. right.
    exists pr. split; [reflexivity|]. split; [reflexivity|]. now destruct pr.
  - cbn. split; [exact Hp|]. split; [exact I|]. split; [reflexivity|]. left. split; [reflexivity|]. intros pr'. now split.
Qed.

Lemma numbers_app : forall pr a b, numbers pr (a ++ b) = numbers pr a ++ numbers pr b.
Proof. intros. unfold numbers. apply flat_map_app. Qed.
Lemma set_nth_split : forall (A : Type) (l : list A) i y, nth_error l i = Some y ->
  exists a b, l = a ++ y :: b /\ forall x, set_nth i x l = a ++ x :: b.
Proof.
  intros A l. induction l as [|h l IH]; intros i y H; [destruct i; discriminate|]. destruct i as [|i].
  - injection H as ->. exists [], l. split; reflexivity.
  - destruct (IH i y H) as (a & b & -> & Hs). exists (h :: a), b. split; [reflexivity|]. intros x. cbn. now rewrite Hs.
Qed.

Lemma to_send_cons : forall t l, to_send (t :: l) = (if is_send t then 1 else 0) + to_send l.
Proof. intros t l. unfold to_send. cbn [filter]. destruct t; cbn [is_send length]; lia. Qed.
Lemma to_send_app : forall a b, to_send (a ++ b) = to_send a + to_send b.
Proof. induction a as [|t a IH]; intros b; [reflexivity|]. cbn [app]. rewrite !to_send_cons, IH. lia. Qed.

Lemma numbered : forall checks p ts sched D, Forall waiting ts -> Forall (dated D) ts ->
  (ss_reinit (p_send p) = D \/ ss_reinit (p_send p) = 0) ->
  forall pr, ss_seqno pr (p_send p) + to_send ts < 2 ^ 64 ->
  let sent := numbers pr (snd (peers_run checks (p, ts) sched)) in
  Permutation sent (map (fun k => ss_seqno pr (p_send p) + 1 + N.of_nat k) (seq 0 (length sent)))
  /\ ss_seqno pr (p_send (fst (peers_run checks (p, ts) sched))) = ss_seqno pr (p_send p) + N.of_nat (length sent).
Proof.
  intros checks p ts sched D Hw Hd Hp pr Hroom.
  set (n0 := ss_seqno pr (p_send p)) in *.
  assert (H : let x := peers_run checks (p, ts) sched in
    (ss_reinit (p_send (fst x)) = D \/ ss_reinit (p_send (fst x)) = 0) /\ (forall t, In t (snd x) -> calm D t)
    /\ N.of_nat (length (numbers pr (snd x))) + to_send (snd x) <= to_send ts
    /\ ss_seqno pr (p_send (fst x)) = n0 + N.of_nat (length (numbers pr (snd x)))
    /\ Permutation (numbers pr (snd x)) (map (fun k => n0 + 1 + N.of_nat k) (seq 0 (length (numbers pr (snd x)))))).
  { cbv zeta. induction sched as [|i sched IH] using rev_ind.
    - cbn [peers_run fold_left fst snd]. assert (Hn : numbers pr ts = []).
      { clear -Hw. induction Hw as [|t l Ht Hw IH]; [reflexivity|]. cbn. unfold numbers in IH. rewrite IH. destruct t; try reflexivity; destruct Ht. }
      rewrite Hn. cbn [length]. split; [exact Hp|]. split; [|split; [lia|split; [lia|constructor]]].
      intros t Ht. rewrite Forall_forall in Hw, Hd. specialize (Hw t Ht). specialize (Hd t Ht). destruct t; cbn in *; try exact I; try exact Hd; destruct Hw.
    - rewrite peers_run_last. destruct (peers_run checks (p, ts) sched) as [q l]. cbn [fst snd] in IH. destruct IH as (H1 & H2 & H3 & H4 & H5).
      unfold peers_step. cbn [fst snd]. destruct (nth_error l i) as [t|] eqn:Ei; [|now split].
      destruct (set_nth_split _ l i t Ei) as (a & b & -> & Hset).
      destruct (calm_step checks D q t H1 (H2 t ltac:(apply in_or_app; right; now left))) as (S1 & S2 & S3 & S4).
      destruct (peer_step checks q t) as [q' t']. cbn [fst snd] in *. rewrite Hset. split; [exact S1|]. split.
      { intros u Hu. apply in_app_or in Hu as [Hu|[<-|Hu]]; [|exact S2|]; apply H2; apply in_or_app; [now left|right; now right]. }
      change (a ++ t :: b) with (a ++ [t] ++ b) in *. change (a ++ t' :: b) with (a ++ [t'] ++ b).
      rewrite !numbers_app, !to_send_app, ?(to_send_cons t'), ?(to_send_cons t), ?S3 in *.
      destruct S4 as [[Hs Hsame]|(pr0 & -> & -> & Hn & Ho)].
      + destruct (Hsame pr) as [-> ->]. rewrite Hs in H3. now split.
      + cbn [is_send] in H3. destruct (Bool.eqb pr0 pr) eqn:Epr.
        * apply eqb_prop in Epr. subst pr0. cbn [numbers flat_map app] in *. rewrite Bool.eqb_reflx. cbn [app].
          assert (Hlen : length (numbers pr a ++ (ss_seqno pr (p_send q) + 1) mod 2 ^ 64 :: numbers pr b) = S (length (numbers pr a ++ numbers pr b)))
            by (rewrite !app_length; cbn [length]; lia).
          rewrite Hlen. rewrite N.mod_small in * by (unfold to_send in *; cbn [filter length] in *; lia).
          split; [lia|]. split; [lia|]. rewrite <- Permutation_middle. rewrite seq_S, map_app. cbn [map Nat.add].
          rewrite <- Permutation_cons_append. rewrite H4.
          replace (n0 + N.of_nat (length (numbers pr a ++ numbers pr b)) + 1) with (n0 + 1 + N.of_nat (length (numbers pr a ++ numbers pr b))) by lia.
          now apply perm_skip.
        * assert (Hneg : pr = negb pr0) by (destruct pr, pr0; (reflexivity || discriminate)). subst pr.
          cbn [numbers flat_map app] in *. rewrite Epr. cbn [app]. rewrite Ho. split; [lia|now split]. }
  cbv zeta in H. destruct H as (_ & _ & _ & H4 & H5). now split.
Qed.

(** ** A task alone does what the sequential model does *)
Lemma alone : forall checks p d s pr, exists n,
  let r := try_reinit_sender p d in
  peers_run checks (p, [CheckDate d s pr]) (repeat 0%nat n)
  = if fst r then
      let (o, h) := deliver checks (rs_history pr (p_recv (snd r))) s in
      (set_recv (snd r) (set_rs_history pr h (p_recv (snd r))),
       [Handled (Some d) s (match o with Accepted => Passed | Rejected => Repeated | Panicked => Overflow end)])
    else (snd r, [Handled (Some d) s TooOld]).
Proof.
  intros checks p d s pr. unfold try_reinit_sender. destruct (d ?= ss_reinit (p_send p)) eqn:E.
  - exists 2%nat. cbn [fst snd repeat peers_run fold_left]. unfold peers_step at 2. cbn [snd nth_error fst peer_step]. rewrite E. cbn [set_nth].
    unfold peers_step. cbn [snd nth_error fst peer_step]. destruct (deliver checks _ s). reflexivity.
  - exists 1%nat. cbn [fst snd repeat peers_run fold_left]. unfold peers_step. cbn [snd nth_error fst peer_step]. now rewrite E.
  - destruct (ss_reinit (p_send p) =? 0) eqn:E0; cbn [negb].
    + exists 3%nat. cbn [fst snd repeat peers_run fold_left]. unfold peers_step at 3. cbn [snd nth_error fst peer_step]. rewrite E. cbn [set_nth].
      unfold peers_step at 2. cbn [snd nth_error fst peer_step]. rewrite E0. cbn [set_nth].
      unfold peers_step. cbn [snd nth_error fst peer_step p_recv set_send]. destruct (deliver checks _ s). reflexivity.
    + exists 7%nat. cbn [fst snd repeat peers_run fold_left]. unfold peers_step at 7. cbn [snd nth_error fst peer_step]. rewrite E. cbn [set_nth].
      unfold peers_step at 6. cbn [snd nth_error fst peer_step]. rewrite E0. cbn [set_nth all_resets].
      unfold peers_step at 5. cbn [snd nth_error fst peer_step set_nth reset_one].
      unfold peers_step at 4. cbn [snd nth_error fst peer_step set_nth reset_one].
      unfold peers_step at 3. cbn [snd nth_error fst peer_step set_nth reset_one].
      unfold peers_step at 2. cbn [snd nth_error fst peer_step set_nth reset_one].
      unfold peers_step. cbn -[deliver history_reset]. destruct p as [k a c [ro rp rd] [so sp sd]]. cbn -[deliver history_reset].
      destruct (deliver checks _ s). reflexivity.
Qed.

(** ** Witnesses *)
Lemma date_falls : exists p ts before after, Forall waiting ts
  /\ known_date (peers_run true (p, ts) (before ++ after)) < known_date (peers_run true (p, ts) before)
  /\ snd (peers_run true (p, ts) (before ++ after)) = [Handled (Some 6) 1 Passed; Handled (Some 9) 1 Passed; Handled (Some 7) 2 Passed]
  /\ known_date (peers_run true (p, ts) before) = 9 /\ nth_error (snd (peers_run true (p, ts) before)) 2 = Some (CheckDate 7 2 false).
Proof.
  exists (known_peer 5), [CheckDate 6 1 false; CheckDate 9 1 false; CheckDate 7 2 false], ([0; 1] ++ repeat 1 6)%nat, (repeat 0 6 ++ repeat 2 7)%nat.
  split; [repeat constructor|]. vm_compute. repeat split; reflexivity.
Qed.
Lemma number_twice : exists p ts before after, Forall waiting ts /\ Forall (dated 9) ts
  /\ nth_error (snd (peers_run true (p, ts) before)) 0 = Some (Handled (Some 9) 1 Passed)
  /\ nth_error (snd (peers_run true (p, ts) before)) 2 = Some (CheckDate 9 1 false)
  /\ nth_error (snd (peers_run true (p, ts) (before ++ after))) 2 = Some (Handled (Some 9) 1 Passed).
Proof.
  exists (known_peer 5), [CheckDate 9 1 false; CheckDate 9 2 false; CheckDate 9 1 false], ([0; 1] ++ repeat 0 6)%nat, (repeat 1 6 ++ repeat 2 2)%nat.
  split; [repeat constructor|]. split; [repeat constructor|]. vm_compute. repeat split; reflexivity.
Qed.
Lemma sent_twice : exists p ts sched, Forall waiting ts /\ Forall (dated 9) ts
  /\ snd (peers_run true (p, ts) sched) = [Handled (Some 9) 1 Passed; Handled (Some 9) 2 Passed; Sent false 1; Sent false 1].
Proof.
  exists (known_peer 5), [CheckDate 9 1 false; CheckDate 9 2 false; Send false; Send false], ([0; 1] ++ repeat 0 6 ++ [2] ++ repeat 1 6 ++ [3])%nat.
  split; [repeat constructor|]. split; [repeat constructor|]. vm_compute. reflexivity.
Qed.
