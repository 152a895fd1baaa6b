From Coq Require Import List NArith Arith Lia Bool Permutation.
From Verif.Base Require Import Bytes BytesFacts.
From Verif.Spec Require Import PeersSetSpec.
Import ListNotations.
Local Open Scope nat_scope.

Lemma member_In : forall p q, member p q = true <-> In p q.
Proof.
  intros p q. unfold member. rewrite existsb_exists. split.
  - intros (x & Hin & He). apply bytes_eqb_eq in He. now subst.
  - intros H. exists p. split; [exact H|apply bytes_eqb_refl].
Qed.

Lemma member_false : forall p q, member p q = false <-> ~ In p q.
Proof. intros p q. rewrite <- member_In. destruct (member p q); split; congruence. Qed.

Lemma last_n_all : forall A n (l : list A), length l <= n -> last_n n l = l.
Proof. intros A n l H. unfold last_n. replace (length l - n) with 0 by lia. reflexivity. Qed.

Lemma last_n_snoc_full : forall A n (l : list A) x, length l = n -> 0 < n -> last_n n (l ++ [x]) = tl l ++ [x].
Proof.
  intros A n [|y l] x H Hn; cbn in H; [lia|]. unfold last_n. rewrite app_length. cbn [length].
  replace (S (length l) + 1 - n) with 1 by lia. reflexivity.
Qed.

Lemma last_n_length : forall A n (l : list A), length (last_n n l) = Nat.min n (length l).
Proof. intros. unfold last_n. rewrite skipn_length. lia. Qed.

Lemma skipn_add : forall A m n (l : list A), skipn m (skipn n l) = skipn (n + m) l.
Proof.
  intros A m n. induction n as [|n IH]; intros l; [reflexivity|]. destruct l as [|x l]; cbn; [now rewrite skipn_nil|apply IH].
Qed.

Lemma skipn_app_le : forall A n (a b : list A), n <= length a -> skipn n (a ++ b) = skipn n a ++ b.
Proof. intros. rewrite skipn_app. replace (n - length a) with 0 by lia. reflexivity. Qed.

Lemma skipn_app_ge : forall A n (a b : list A), length a <= n -> skipn n (a ++ b) = skipn (n - length a) b.
Proof. intros. rewrite skipn_app, skipn_all2 by lia. reflexivity. Qed.

(** Forgetting twice is forgetting once. *)
Lemma last_n_app : forall A n (l r : list A), last_n n (last_n n l ++ r) = last_n n (l ++ r).
Proof.
  intros A n l r. destruct (Nat.le_gt_cases (length l) n) as [Hle|Hgt].
  - now rewrite (last_n_all _ n l) by exact Hle.
  - unfold last_n. rewrite !app_length, skipn_length.
    replace (skipn (length l - n) l ++ r) with (skipn (length l - n) (l ++ r)).
    2:{ rewrite skipn_app. replace (length l - n - length l) with 0 by lia. reflexivity. }
    rewrite skipn_add. f_equal. lia.
Qed.

(** The rotation kept in the index vector. *)
Definition rotated (u : nat) (l : list bytes) : list bytes := skipn u l ++ firstn u l.

Lemma rotated_step : forall l u x c, length l = c -> u < c ->
  tl (rotated u l) ++ [x]
  = rotated ((u + 1) mod c) (firstn u l ++ x :: skipn (S u) l).
Proof.
  intros l u x c Hl Hu.
  assert (Hf : length (firstn u l) = u) by (rewrite firstn_length; lia).
  destruct (skipn u l) as [|y r] eqn:Hs.
  { apply (f_equal (@length _)) in Hs. rewrite skipn_length in Hs. cbn in Hs. lia. }
  assert (Hr : skipn (S u) l = r).
  { replace (S u) with (u + 1) by lia. rewrite <- skipn_add, Hs. reflexivity. }
  assert (Hlr : length r = c - S u) by (rewrite <- Hr, skipn_length; lia).
  unfold rotated at 1. rewrite Hs. cbn [app tl]. rewrite Hr.
  destruct (Nat.eq_dec (u + 1) c) as [He|Hne].
  - rewrite He, Nat.mod_same by lia. unfold rotated. cbn [skipn firstn]. rewrite app_nil_r.
    assert (r = []) as -> by (destruct r; [reflexivity|cbn in Hlr; lia]). reflexivity.
  - rewrite Nat.mod_small by lia. unfold rotated.
    rewrite skipn_app_ge by lia. rewrite firstn_app, Hf.
    replace (u + 1 - u) with 1 by lia. cbn [skipn firstn].
    rewrite (firstn_all2 (n := u + 1) (firstn u l)) by lia. now rewrite <- !app_assoc.
Qed.

Lemma rotated_perm : forall u l, Permutation (rotated u l) l.
Proof.
  intros. unfold rotated. rewrite <- (firstn_skipn u l) at 3. apply Permutation_app_comm.
Qed.

Lemma rotated_length : forall u l, length (rotated u l) = length l.
Proof. intros. apply Permutation_length, rotated_perm. Qed.

(** ** The queue *)
Lemma fifo_adds_last : forall c l q bs q', 0 < c -> length q <= c ->
  fifo_adds c q l = (bs, q') -> q' = last_n c (q ++ accepted l bs).
Proof.
  induction l as [|p r IH]; intros q bs q' Hc Hq H; cbn in H.
  - apply pair_equal_spec in H as [<- <-]. cbn. now rewrite app_nil_r, last_n_all.
  - unfold fifo_add in H. destruct (member p q) eqn:Hm.
    + destruct (fifo_adds c q r) as [bs1 q1] eqn:Hf. apply pair_equal_spec in H as [<- <-].
      cbn [accepted]. now apply IH.
    + destruct (fifo_adds c (last_n c (q ++ [p])) r) as [bs1 q1] eqn:Hf. apply pair_equal_spec in H as [<- <-].
      cbn [accepted]. apply IH in Hf; [|exact Hc|rewrite last_n_length; lia].
      rewrite Hf, last_n_app, <- app_assoc. reflexivity.
Qed.

Lemma NoDup_parts : forall A (a b : list A), NoDup (a ++ b) -> NoDup a /\ NoDup b.
Proof.
  induction a as [|x a IH]; intros b H; cbn in H; [split; [constructor|exact H]|].
  inversion H as [|? ? Hni Hr]; subst. destruct (IH b Hr) as [Ha Hb]. split; [|exact Hb].
  constructor; [|exact Ha]. intros Hx. apply Hni, in_or_app. now left.
Qed.

Lemma NoDup_skipn : forall A n (l : list A), NoDup l -> NoDup (skipn n l).
Proof.
  intros A n l H. rewrite <- (firstn_skipn n l) in H. now apply NoDup_parts in H.
Qed.

Lemma fifo_add_nodup : forall c q p, NoDup q -> NoDup (snd (fifo_add c q p)).
Proof.
  intros c q p H. unfold fifo_add. destruct (member p q) eqn:Hm; [exact H|]. cbn.
  apply NoDup_skipn. apply member_false in Hm.
  apply (Permutation_NoDup (l := p :: q)).
  - apply Permutation_cons_append.
  - now constructor.
Qed.

Lemma distinct_facts : forall l seen,
  NoDup (distinct seen l) /\ (forall x, In x (distinct seen l) -> ~ In x seen /\ In x l)
  /\ (forall x, In x l -> In x seen \/ In x (distinct seen l)).
Proof.
  induction l as [|p r IH]; intros seen; cbn [distinct].
  - split; [constructor|split; intros x []].
  - destruct (member p seen) eqn:Hm.
    + destruct (IH seen) as (Hn & Hi & Hc). apply member_In in Hm. repeat split.
      * exact Hn.
      * now apply Hi.
      * right. now apply Hi.
      * intros x [<-|Hx]; [now left|now apply Hc].
    + destruct (IH (p :: seen)) as (Hn & Hi & Hc). apply member_false in Hm. repeat split.
      * constructor; [|exact Hn]. intros H. apply Hi in H as [H _]. apply H. now left.
      * destruct H as [<-|H]; [exact Hm|]. apply Hi in H as [H _]. intros H'. apply H. now right.
      * destruct H as [<-|H]; [now left|]. right. now apply Hi.
      * intros x [<-|Hx]; [right; now left|]. destruct (Hc x Hx) as [[<-|H]|H];
          [right; now left|now left|right; now right].
Qed.

(** ** Random selection *)
Definition choose (l : list bytes) (picks : list nat) : list bytes :=
  flat_map (fun i => match nth_error l i with Some x => [x] | None => [] end) picks.

Lemma choose_In : forall l picks x, In x (choose l picks) <-> exists i, In i picks /\ nth_error l i = Some x.
Proof.
  intros. unfold choose. rewrite in_flat_map. split; intros (i & Hi & H); exists i; split; try exact Hi.
  - destruct (nth_error l i); [destruct H as [<-|[]]; reflexivity|destruct H].
  - rewrite H. now left.
Qed.

Lemma choose_cons : forall l i r,
  choose l (i :: r) = match nth_error l i with Some x => [x] | None => [] end ++ choose l r.
Proof. reflexivity. Qed.

Lemma choose_length : forall l picks, (forall i, In i picks -> i < length l) -> length (choose l picks) = length picks.
Proof.
  intros l picks. induction picks as [|i r IH]; intros H; [reflexivity|]. rewrite choose_cons.
  cbn [length]. rewrite app_length, IH by (intros j Hj; apply H; now right).
  destruct (nth_error l i) eqn:Hn; [reflexivity|]. apply nth_error_None in Hn.
  specialize (H i (or_introl eq_refl)). lia.
Qed.

Lemma choose_NoDup : forall l picks, NoDup l -> NoDup picks -> NoDup (choose l picks).
Proof.
  intros l picks Hl. induction picks as [|i r IH]; intros H; [constructor|].
  inversion H as [|? ? Hni Hr]; subst. rewrite choose_cons. destruct (nth_error l i) as [x|] eqn:Hn; [|now apply IH].
  cbn [app]. constructor; [|now apply IH]. intros Hx. apply choose_In in Hx as (j & Hj & Hnj).
  assert (i = j); [|now subst]. apply (NoDup_nth_error l); [exact Hl| |congruence].
  apply nth_error_Some. congruence.
Qed.

Lemma filter_split_length : forall (f : bytes -> bool) l,
  length (filter f l) + length (filter (fun x => negb (f x)) l) = length l.
Proof. intros f l. induction l as [|x r IH]; [reflexivity|]. cbn. destruct (f x); cbn; lia. Qed.

Lemma filter_NoDup : forall (f : bytes -> bool) l, NoDup l -> NoDup (filter f l).
Proof. intros. now apply NoDup_filter. Qed.

Lemma firstn_NoDup : forall A n (l : list A), NoDup l -> NoDup (firstn n l).
Proof.
  intros A n l H. rewrite <- (firstn_skipn n l) in H. now apply NoDup_parts in H.
Qed.

Lemma firstn_In : forall A n (l : list A) x, In x (firstn n l) -> In x l.
Proof. intros A n l x H. rewrite <- (firstn_skipn n l). apply in_or_app. now left. Qed.

(** Choosing [amount] more than there are exceptions, then leaving the exceptions out. *)
Lemma selection : forall l except amount picks,
  NoDup l ->
  sample_of (length l) (amount + length except) picks ->
  let r := firstn amount (filter (fun x => negb (member x except)) (choose l picks)) in
  NoDup r /\ (forall x, In x r -> In x l /\ ~ In x except)
  /\ length r = Nat.min amount (length (eligible except l)).
Proof.
  intros l except amount picks Hl (Hnd & Hlt & Hlen) r.
  pose proof (choose_NoDup l picks Hl Hnd) as Hc.
  assert (Hincl : incl (choose l picks) l).
  { intros x Hx. apply choose_In in Hx as (i & _ & Hi). now apply nth_error_In in Hi. }
  split; [|split].
  - apply firstn_NoDup, filter_NoDup, Hc.
  - intros x Hx. apply firstn_In, filter_In in Hx as [Hx Hm]. split; [now apply Hincl|].
    apply negb_true_iff, member_false in Hm. exact Hm.
  - unfold r. rewrite firstn_length. unfold eligible.
    set (f := fun x => negb (member x except)).
    assert (Hup : length (filter f (choose l picks)) <= length (filter f l)).
    { apply NoDup_incl_length; [now apply filter_NoDup|]. intros x Hx. apply filter_In in Hx as [Hx Hfx].
      apply filter_In. split; [now apply Hincl|exact Hfx]. }
    pose proof (choose_length l picks Hlt) as Hcl.
    destruct (Nat.le_gt_cases (length l) (amount + length except)) as [Hbig|Hsmall].
    + assert (Hp : Permutation (choose l picks) l).
      { apply NoDup_Permutation_bis; [exact Hc|lia|exact Hincl]. }
      assert (length (filter f (choose l picks)) = length (filter f l)); [|lia].
      apply Nat.le_antisymm; [exact Hup|].
      apply NoDup_incl_length; [now apply filter_NoDup|]. intros x Hx. apply filter_In in Hx as [Hx Hfx].
      apply filter_In. split; [|exact Hfx]. now apply (Permutation_in x (Permutation_sym Hp)).
    + pose proof (filter_split_length f (choose l picks)) as Hs.
      assert (Hex : length (filter (fun x => negb (f x)) (choose l picks)) <= length except).
      { apply NoDup_incl_length; [now apply filter_NoDup|]. intros x Hx. apply filter_In in Hx as [_ Hx].
        unfold f in Hx. rewrite negb_involutive in Hx. now apply member_In in Hx. }
      lia.
Qed.
