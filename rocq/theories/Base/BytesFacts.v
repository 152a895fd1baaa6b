(** Facts about [Base.Bytes]. *)
From Coq Require Import List ZArith NArith Lia Bool Arith.
From Coq Require Import ZifyBool ZifyNat ZifyN.
From Verif.Base Require Import Bytes.
Import ListNotations.
Open Scope N_scope.

Ltac Zify.zify_post_hook ::= Z.div_mod_to_equations.
Global Arguments N.add : simpl never.
Global Arguments N.mul : simpl never.
Global Arguments N.div : simpl never.
Global Arguments N.modulo : simpl never.
Global Arguments N.pow : simpl never.
Global Arguments N.sub : simpl never.
Global Arguments N.lxor : simpl never.

Lemma bytes_ok_cons : forall b l, bytes_ok (b :: l) = true <-> (b < 256 /\ bytes_ok l = true).
Proof.
  intros b l. unfold bytes_ok, is_byte; cbn [forallb].
  rewrite andb_true_iff, N.ltb_lt. tauto.
Qed.

Lemma bytes_ok_app : forall a b, bytes_ok (a ++ b) = true <-> (bytes_ok a = true /\ bytes_ok b = true).
Proof. intros a b. unfold bytes_ok. rewrite forallb_app, andb_true_iff. tauto. Qed.

Lemma bytes_ok_firstn : forall n l, bytes_ok l = true -> bytes_ok (firstn n l) = true.
Proof.
  intros n l H. rewrite <- (firstn_skipn n l) in H. apply bytes_ok_app in H. tauto.
Qed.

Lemma bytes_ok_skipn : forall n l, bytes_ok l = true -> bytes_ok (skipn n l) = true.
Proof.
  intros n l H. rewrite <- (firstn_skipn n l) in H. apply bytes_ok_app in H. tauto.
Qed.

Lemma bytes_ok_rev : forall l, bytes_ok l = true -> bytes_ok (rev l) = true.
Proof.
  induction l as [|b l IH]; intros H; [reflexivity|].
  cbn [rev]. apply bytes_ok_cons in H. apply bytes_ok_app. split; [tauto|].
  apply bytes_ok_cons. split; [tauto|reflexivity].
Qed.

Lemma bytes_eqb_eq : forall a b, bytes_eqb a b = true <-> a = b.
Proof.
  induction a as [|x a IH]; intros [|y b]; cbn [bytes_eqb]; try (split; congruence).
  rewrite andb_true_iff, N.eqb_eq, IH. split; [intros [-> ->]; reflexivity|].
  intros E; inversion E; auto.
Qed.

Lemma bytes_eqb_refl : forall a, bytes_eqb a a = true.
Proof. intros a. apply bytes_eqb_eq. reflexivity. Qed.

Lemma bytes_eqb_neq : forall a b, bytes_eqb a b = false <-> a <> b.
Proof.
  intros a b. rewrite <- (bytes_eqb_eq a b). destruct (bytes_eqb a b); split; congruence.
Qed.

Lemma bytes_cmp_eq : forall a b, bytes_cmp a b = Eq <-> a = b.
Proof.
  induction a as [|x a IH]; intros [|y b]; cbn [bytes_cmp]; try (split; congruence).
  destruct (x ?= y) eqn:E.
  - apply N.compare_eq_iff in E. subst y. rewrite IH. split; [intros ->; reflexivity|].
    intros H; inversion H; auto.
  - split; [congruence|]. intros H; inversion H; subst. rewrite N.compare_refl in E. congruence.
  - split; [congruence|]. intros H; inversion H; subst. rewrite N.compare_refl in E. congruence.
Qed.

Lemma bytes_cmp_antisym : forall a b, bytes_cmp b a = CompOpp (bytes_cmp a b).
Proof.
  induction a as [|x a IH]; intros [|y b]; cbn [bytes_cmp]; try reflexivity.
  rewrite (N.compare_antisym x y). destruct (x ?= y); cbn [CompOpp]; auto.
Qed.

Lemma le_bytes_length : forall n v, length (le_bytes n v) = n.
Proof. induction n as [|n IH]; intros v; cbn [le_bytes length]; auto. Qed.

Lemma be_bytes_length : forall n v, length (be_bytes n v) = n.
Proof. intros n v. unfold be_bytes. rewrite rev_length. apply le_bytes_length. Qed.

Lemma le_bytes_ok : forall n v, bytes_ok (le_bytes n v) = true.
Proof.
  induction n as [|n IH]; intros v; cbn [le_bytes]; [reflexivity|].
  apply bytes_ok_cons. split; [lia|apply IH].
Qed.

Lemma be_bytes_ok : forall n v, bytes_ok (be_bytes n v) = true.
Proof. intros. apply bytes_ok_rev, le_bytes_ok. Qed.

Lemma of_le_le_bytes : forall n v, of_le (le_bytes n v) = v mod 256 ^ N.of_nat n.
Proof.
  induction n as [|n IH]; intros v.
  - cbn [le_bytes of_le]. change (N.of_nat 0) with 0. rewrite N.pow_0_r, N.mod_1_r. reflexivity.
  - cbn [le_bytes of_le]. rewrite IH, Nat2N.inj_succ, N.pow_succ_r'.
    assert (256 ^ N.of_nat n <> 0) by (apply N.pow_nonzero; lia).
    rewrite N.mod_mul_r by lia. reflexivity.
Qed.

Lemma of_le_le_bytes_small : forall n v, v < 256 ^ N.of_nat n -> of_le (le_bytes n v) = v.
Proof. intros n v H. rewrite of_le_le_bytes. apply N.mod_small. exact H. Qed.

Lemma of_le_bound : forall l, bytes_ok l = true -> of_le l < 256 ^ N.of_nat (length l).
Proof.
  induction l as [|b l IH]; intros H.
  - cbn. lia.
  - apply bytes_ok_cons in H. cbn [of_le length]. rewrite Nat2N.inj_succ, N.pow_succ_r'.
    destruct H as [Hb Hl]. specialize (IH Hl). lia.
Qed.

Lemma le_bytes_of_le : forall l, bytes_ok l = true -> le_bytes (length l) (of_le l) = l.
Proof.
  induction l as [|b l IH]; intros H; [reflexivity|].
  apply bytes_ok_cons in H. destruct H as [Hb Hl].
  cbn [length of_le le_bytes]. f_equal; [lia|].
  replace ((b + 256 * of_le l) / 256) with (of_le l) by lia. auto.
Qed.

Lemma of_be_be_bytes : forall n v, of_be (be_bytes n v) = v mod 256 ^ N.of_nat n.
Proof. intros. unfold of_be, be_bytes. rewrite rev_involutive. apply of_le_le_bytes. Qed.

Lemma of_be_be_bytes_small : forall n v, v < 256 ^ N.of_nat n -> of_be (be_bytes n v) = v.
Proof. intros n v H. rewrite of_be_be_bytes. apply N.mod_small. exact H. Qed.

Lemma be_bytes_of_be : forall l, bytes_ok l = true -> be_bytes (length l) (of_be l) = l.
Proof.
  intros l H. unfold be_bytes, of_be. rewrite <- (rev_length l).
  rewrite le_bytes_of_le by (apply bytes_ok_rev; exact H). apply rev_involutive.
Qed.

Lemma le_bytes_inj : forall n v w,
  v < 256 ^ N.of_nat n -> w < 256 ^ N.of_nat n -> le_bytes n v = le_bytes n w -> v = w.
Proof.
  intros n v w Hv Hw E.
  rewrite <- (of_le_le_bytes_small n v Hv), <- (of_le_le_bytes_small n w Hw), E. reflexivity.
Qed.

Lemma xor_bytes_length : forall a k, length (xor_bytes a k) = length a.
Proof. induction a as [|x a IH]; intros [|y k]; cbn [xor_bytes length]; auto. Qed.

Lemma xor_bytes_nil_r : forall a, xor_bytes a [] = a.
Proof. induction a as [|x a IH]; cbn [xor_bytes]; congruence. Qed.

Lemma xor_bytes_involutive : forall a k, xor_bytes (xor_bytes a k) k = a.
Proof.
  induction a as [|x a IH]; intros [|y k]; cbn [xor_bytes]; auto.
  - rewrite IH. reflexivity.
  - rewrite IH. f_equal. rewrite N.lxor_assoc, N.lxor_nilpotent. apply N.lxor_0_r.
Qed.

Lemma lxor_byte : forall a b, a < 256 -> b < 256 -> N.lxor a b < 256.
Proof.
  intros a b Ha Hb. change 256 with (2 ^ 8) in *.
  destruct (N.eq_dec (N.lxor a b) 0) as [->|Hn]; [reflexivity|].
  apply N.log2_lt_pow2; [lia|].
  eapply N.le_lt_trans; [apply N.log2_lxor|].
  destruct (N.eq_dec a 0) as [->|Ha0]; destruct (N.eq_dec b 0) as [->|Hb0];
    rewrite ?N.max_lub_lt_iff; cbn [N.log2]; try lia.
  - split; [lia|]. apply N.log2_lt_pow2; lia.
  - split; [|lia]. apply N.log2_lt_pow2; lia.
  - split; apply N.log2_lt_pow2; lia.
Qed.

Lemma xor_bytes_ok : forall a k, bytes_ok a = true -> bytes_ok k = true -> bytes_ok (xor_bytes a k) = true.
Proof.
  induction a as [|x a IH]; intros [|y k] Ha Hk; cbn [xor_bytes]; auto.
  - rewrite xor_bytes_nil_r. exact Ha.
  - apply bytes_ok_cons in Ha. apply bytes_ok_cons in Hk. apply bytes_ok_cons.
    split; [apply lxor_byte; tauto|apply IH; tauto].
Qed.

Lemma set_nth_length : forall A (l : list A) i v, length (set_nth i v l) = length l.
Proof.
  induction l as [|x l IH]; intros [|i] v; cbn [set_nth length]; auto.
Qed.

Lemma nth_error_set_nth_eq : forall A (l : list A) i v,
  (i < length l)%nat -> nth_error (set_nth i v l) i = Some v.
Proof.
  induction l as [|x l IH]; intros [|i] v H; cbn [set_nth nth_error length] in *; try lia; auto.
  apply IH. lia.
Qed.

Lemma nth_error_set_nth_neq : forall A (l : list A) i j v,
  i <> j -> nth_error (set_nth i v l) j = nth_error l j.
Proof.
  induction l as [|x l IH]; intros [|i] [|j] v H; cbn [set_nth nth_error]; auto; try congruence.
Qed.

Lemma slice_length : forall f t l, (t <= length l)%nat -> (f <= t)%nat -> length (slice f t l) = (t - f)%nat.
Proof. intros f t l Ht Hf. unfold slice. rewrite firstn_length, skipn_length. lia. Qed.

Lemma firstn_app_exact : forall A (a b : list A), firstn (length a) (a ++ b) = a.
Proof.
  intros A a b. rewrite firstn_app, firstn_all, Nat.sub_diag. cbn. apply app_nil_r.
Qed.

Lemma skipn_app_exact : forall A (a b : list A), skipn (length a) (a ++ b) = b.
Proof. intros A a b. rewrite skipn_app, skipn_all, Nat.sub_diag. reflexivity. Qed.
