(** Round-trip lemmas for the TL primitives and all message codecs. *)
From Coq Require Import List NArith ZArith Lia Bool Arith.
From Coq Require Import ZifyBool ZifyNat ZifyN.
From Verif.Base Require Import Bytes BytesFacts.
From Verif.Model Require Import Tl.
From Verif.Spec Require Import Codec.
Import ListNotations.
Open Scope N_scope.

Lemma bind_ok : forall A B (p : parser A) (f : A -> parser B) l a r,
  p l = Some (a, r) -> bind p f l = f a r.
Proof. intros * H. unfold bind. now rewrite H. Qed.

Lemma take_app : forall n a r, length a = n -> take n (a ++ r) = Some (a, r).
Proof.
  intros n a r H. unfold take. subst n.
  rewrite app_length.
  replace (Nat.leb (length a) (length a + length r)) with true
    by (symmetry; apply Nat.leb_le; lia).
  now rewrite firstn_app_exact, skipn_app_exact.
Qed.

Lemma u32_reads : reads put_u32 get_u32 u32_ok.
Proof.
  intros a r H. unfold get_u32.
  rewrite (bind_ok _ _ _ _ _ (put_u32 a) r) by (apply take_app, le_bytes_length).
  unfold ret, put_u32. rewrite of_le_le_bytes_small; [reflexivity | exact H].
Qed.

Lemma u64_reads : reads put_u64 get_u64 u64_ok.
Proof.
  intros a r H. unfold get_u64.
  rewrite (bind_ok _ _ _ _ _ (put_u64 a) r) by (apply take_app, le_bytes_length).
  unfold ret, put_u64. rewrite of_le_le_bytes_small; [reflexivity | exact H].
Qed.

Lemma hash_reads : reads put_hash get_hash hash_ok.
Proof. intros a r H. apply take_app, H. Qed.

Lemma pad_len_lt : forall n, pad_len n < 4.
Proof. intros n. unfold pad_len. apply N.mod_lt. lia. Qed.

Lemma get_body_app : forall pl d r p,
  length p = N.to_nat (pad_len (pl + N.of_nat (length d))) ->
  get_body pl (N.of_nat (length d)) (d ++ p ++ r) = Some (d, r).
Proof.
  intros pl d r p Hp. unfold get_body.
  set (q := pad_len (pl + N.of_nat (length d))) in *.
  assert (Hl : N.of_nat (length (d ++ p ++ r)) <? N.of_nat (length d) + q = false).
  { apply N.ltb_ge. rewrite !app_length. lia. }
  rewrite Hl. f_equal. f_equal.
  - rewrite Nnat.Nat2N.id. apply firstn_app_exact.
  - replace (N.to_nat (N.of_nat (length d) + q)) with (length (d ++ p)).
    + rewrite app_assoc. apply skipn_app_exact.
    + rewrite app_length. lia.
Qed.

Lemma bytes_reads : reads put_bytes get_bytes blob_ok.
Proof.
  intros d r H. unfold blob_ok in H. unfold put_bytes, get_bytes.
  destruct (N.of_nat (length d) <? 254) eqn:E.
  - apply N.ltb_lt in E. rewrite <- app_comm_cons.
    destruct (N.of_nat (length d) =? 254) eqn:E2; [apply N.eqb_eq in E2; lia|].
    rewrite <- app_assoc. apply get_body_app.
    now rewrite repeat_length.
  - apply N.ltb_ge in E. rewrite <- app_comm_cons. rewrite N.eqb_refl.
    rewrite <- !app_assoc.
    rewrite (bind_ok _ _ _ _ _ (le_bytes 3 (N.of_nat (length d)))
      (d ++ repeat 0 (N.to_nat (pad_len (N.of_nat (length d)))) ++ r))
      by (apply take_app, le_bytes_length).
    rewrite of_le_le_bytes_small by exact H.
    apply get_body_app. rewrite repeat_length.
    f_equal. unfold pad_len. f_equal.
    replace (4 + N.of_nat (length d)) with (N.of_nat (length d) + 1 * 4) by lia.
    rewrite N.mod_add by lia. reflexivity.
Qed.

Lemma many_reads : forall A (put : A -> bytes) get (wf : A -> Prop),
  reads put get wf ->
  forall l fuel r, Forall wf l -> (length l < fuel)%nat ->
  get_many fuel get (N.of_nat (length l)) (flat_map put l ++ r) = Some (l, r).
Proof.
  intros A put get wf Hr l.
  induction l as [|a l IH]; intros fuel r Hwf Hf; destruct fuel as [|k]; try (cbn in Hf; lia).
  - reflexivity.
  - inversion Hwf; subst. cbn [flat_map get_many].
    destruct (N.of_nat (length (a :: l)) =? 0) eqn:E; [apply N.eqb_eq in E; cbn in E; lia|].
    rewrite <- app_assoc, Hr by assumption.
    replace (N.of_nat (length (a :: l)) - 1) with (N.of_nat (length l)) by (cbn [length]; lia).
    rewrite IH; [reflexivity | assumption | cbn in Hf; lia].
Qed.

Lemma flat_map_length_ge : forall A (put : A -> bytes) l,
  (forall a, put a <> []) -> (length l <= length (flat_map put l))%nat.
Proof.
  intros A put l H. induction l as [|a l IH]; cbn; [lia|].
  rewrite app_length. specialize (H a). destruct (put a); [congruence | cbn; lia].
Qed.

Lemma vector_reads : forall A (put : A -> bytes) get wf,
  reads put get wf -> (forall a, put a <> []) ->
  reads (put_vector put) (get_vector get) (vec_ok wf).
Proof.
  intros A put get wf Hr Hne l r [Hwf Hlen]. unfold put_vector, get_vector.
  rewrite <- app_assoc.
  rewrite (bind_ok _ _ _ _ _ _ _ (u32_reads _ _ Hlen)).
  eapply many_reads; eauto.
  rewrite app_length. pose proof (flat_map_length_ge _ put l Hne). lia.
Qed.

Lemma put_u32_cons : forall v r, put_u32 v ++ r <> [].
Proof. intros. unfold put_u32. cbn. congruence. Qed.

Lemma put_bytes_ne : forall v, put_bytes v <> [].
Proof. intros. unfold put_bytes. destruct (_ <? _); discriminate. Qed.

Lemma put_bytes_length : forall d,
  length (put_bytes d) =
    if N.of_nat (length d) <? 254
    then (1 + length d + N.to_nat (pad_len (1 + N.of_nat (length d))))%nat
    else (4 + length d + N.to_nat (pad_len (N.of_nat (length d))))%nat.
Proof.
  intros d. unfold put_bytes. destruct (_ <? _);
    cbn [length]; rewrite !app_length, repeat_length; try rewrite le_bytes_length; lia.
Qed.

(** A reader that round-trips makes the writer injective, even with arbitrary suffixes. *)
Lemma reads_unambiguous : forall A put get (wf : A -> Prop), reads put get wf ->
  unambiguous put wf.
Proof.
  intros A put get wf H a b r s Ha Hb E.
  pose proof (H a r Ha) as H1. pose proof (H b s Hb) as H2. rewrite E in H1.
  rewrite H1 in H2. inversion H2; auto.
Qed.

(** Reads a chain of [let*] over concatenated encodings. *)
Lemma bind_reads : forall A B put get (wf : A -> Prop) (f : A -> parser B) a r,
  reads put get wf -> wf a -> bind get f (put a ++ r) = f a r.
Proof. intros. apply bind_ok. auto. Qed.

Lemma bind_reads_nil : forall A B put get (wf : A -> Prop) (f : A -> parser B) a,
  reads put get wf -> wf a -> bind get f (put a) = f a [].
Proof. intros. rewrite <- (app_nil_r (put a)) at 1. eapply bind_reads; eauto. Qed.

Create HintDb tl.
#[export] Hint Resolve u32_reads u64_reads hash_reads bytes_reads : tl.

Ltac tl_step :=
  first
    [ rewrite <- app_assoc
    | erewrite bind_reads; [ | solve [eauto with tl] | solve [assumption | unfold u32_ok; reflexivity | eauto with tl] ] ].
Ltac tl_run := repeat tl_step.

Lemma put_fec_ne : forall v (r : bytes), put_u32 v ++ r = [] -> False.
Proof. intros v r H. now apply put_u32_cons in H. Qed.
