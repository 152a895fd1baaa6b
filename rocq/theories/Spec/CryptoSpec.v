(** Laws of the external primitives used by theorems, and a toy instance showing that they
    can be met together. *)
From Coq Require Import List NArith Bool Lia.
From Verif.Base Require Import Bytes BytesFacts.
From Verif.Model Require Import Crypto.
Import ListNotations.
Open Scope N_scope.

Record prims_ok (P : prims) : Prop := mk_prims_ok
  { sha_len : forall m, length (sha256 P m) = 32%nat;
    sha_ok : forall m, bytes_ok (sha256 P m) = true;
    aes_len : forall k c n, length (aes_ctr P k c n) = n;
    pub_len : forall s, length (pub_of P s) = 32%nat;
    pub_ok : forall s, bytes_ok (pub_of P s) = true;
    pub_valid : forall s, valid_pub P (pub_of P s) = true;
    dh_comm : forall a b, dh P a (pub_of P b) = dh P b (pub_of P a);
    dh_len : forall a b, length (dh P a b) = 32%nat;
    sign_len : forall s m, length (sign P s m) = 64%nat;
    sign_verifies : forall s m, verify P (pub_of P s) m (sign P s m) = true }.

(** A toy instance: not secure, but computable and lawful. *)
Definition toy_number (l : bytes) : N := fold_left (fun a b => (a * 257 + b + 1) mod (2 ^ 61 - 1)) l 7.
Definition toy_sha (m : bytes) : bytes := le_bytes 32 (toy_number m * 0x9E3779B97F4A7C15F39CC0605CEDC835).
Definition toy_pub (s : bytes) : bytes := le_bytes 32 (toy_number s).
Definition toy : prims :=
  mk_prims toy_sha
    (fun k c n => let x := toy_number (k ++ c) in map (fun i => (x + N.of_nat i * 77) mod 256) (seq 0 n))
    toy_pub
    (fun p => bytes_eqb p (le_bytes 32 (of_le p)) && (of_le p <? 2 ^ 61))
    (fun a b => le_bytes 32 (toy_number a * of_le b))
    (fun s m => toy_pub s ++ toy_sha m)
    (fun p m g => bytes_eqb g (p ++ toy_sha m)).

Lemma toy_number_bound : forall l, toy_number l < 2 ^ 61.
Proof.
  intros l. unfold toy_number. cut (forall a, a < 2 ^ 61 -> fold_left (fun a b => (a * 257 + b + 1) mod (2 ^ 61 - 1)) l a < 2 ^ 61).
  - intros H. apply H. reflexivity.
  - induction l as [|b l IH]; intros a Ha; cbn [fold_left]; [exact Ha|].
    apply IH. eapply N.lt_trans; [apply N.mod_lt; discriminate|reflexivity].
Qed.

Lemma toy_ok : prims_ok toy.
Proof.
  split; intros; cbn [sha256 aes_ctr pub_of valid_pub dh sign verify toy].
  - apply le_bytes_length.
  - apply le_bytes_ok.
  - now rewrite map_length, seq_length.
  - apply le_bytes_length.
  - apply le_bytes_ok.
  - assert (H : of_le (toy_pub s) = toy_number s).
    { unfold toy_pub. apply of_le_le_bytes_small. eapply N.lt_trans; [apply toy_number_bound | reflexivity]. }
    rewrite H. unfold toy_pub. rewrite bytes_eqb_refl. apply N.ltb_lt, toy_number_bound.
  - unfold toy_pub. rewrite !of_le_le_bytes_small
      by (eapply N.lt_trans; [apply toy_number_bound | reflexivity]).
    now rewrite N.mul_comm.
  - apply le_bytes_length.
  - rewrite app_length. unfold toy_pub, toy_sha. now rewrite !le_bytes_length.
  - apply bytes_eqb_refl.
Qed.

(** A second instance that is cheap to run, for the sample nodes: keys are their own public
    keys and hashes are prefixes. *)
Definition prefix32 (s : bytes) : bytes := map (fun i => nth i s 0 mod 256) (seq 0 32).
Definition light : prims :=
  mk_prims prefix32 (fun k c n => repeat 0 n) prefix32
    (fun p => Nat.eqb (length p) 32)
    (fun a b => map (fun i => (nth i a 0 + nth i b 0) mod 256) (seq 0 32))
    (fun s m => prefix32 s ++ prefix32 m)
    (fun p m g => bytes_eqb g (p ++ prefix32 m)).

Lemma prefix32_nth : forall s i, (i < 32)%nat -> nth i (prefix32 s) 0 = nth i s 0 mod 256.
Proof.
  intros s i H. unfold prefix32.
  rewrite (nth_indep _ 0 (nth 0 s 0 mod 256)) by (now rewrite map_length, seq_length).
  rewrite (map_nth (fun i => nth i s 0 mod 256)). now rewrite seq_nth.
Qed.

Lemma light_ok : prims_ok light.
Proof.
  assert (Hlen : forall s, length (prefix32 s) = 32%nat) by (intros; unfold prefix32; now rewrite map_length, seq_length).
  assert (Hok : forall s, bytes_ok (prefix32 s) = true).
  { intros s. unfold prefix32, bytes_ok. apply forallb_forall. intros x Hx. apply in_map_iff in Hx as (i & <- & _).
    apply N.ltb_lt, N.mod_lt. discriminate. }
  split; intros; cbn [sha256 aes_ctr pub_of valid_pub dh sign verify light].
  - apply Hlen.
  - apply Hok.
  - apply repeat_length.
  - apply Hlen.
  - apply Hok.
  - now rewrite Hlen.
  - apply map_ext_in. intros i Hi. apply in_seq in Hi. rewrite !prefix32_nth by lia.
    rewrite !N.add_mod_idemp_r by discriminate. now rewrite N.add_comm.
  - now rewrite map_length, seq_length.
  - rewrite app_length, !Hlen. reflexivity.
  - apply bytes_eqb_refl.
Qed.

(** As [light], with hashes made of both ends of the message, so that longer messages differ. *)
Definition ends32 (m : bytes) : bytes := prefix32 (firstn 16 (skipn 4 m) ++ rev (firstn 16 (rev m))).
Definition brief : prims :=
  mk_prims ends32 (aes_ctr light) (pub_of light) (valid_pub light) (dh light)
    (fun s m => prefix32 s ++ ends32 m)
    (fun p m g => bytes_eqb g (p ++ ends32 m)).

Lemma brief_ok : prims_ok brief.
Proof.
  pose proof light_ok as H.
  assert (Hsign : forall s m, length (sign brief s m) = 64%nat).
  { intros s m. change (length (sha256 light s ++ sha256 light (firstn 16 (skipn 4 m) ++ rev (firstn 16 (rev m)))) = 64%nat).
    now rewrite app_length, !(sha_len light H). }
  split; intros; try apply Hsign; cbn [sha256 aes_ctr pub_of valid_pub dh sign verify brief]; try apply H; apply bytes_eqb_refl.
Qed.
