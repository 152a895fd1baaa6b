(** Parts of a transfer. *)
From Coq Require Import List NArith Arith Bool Lia.
From Coq Require Import ZifyBool ZifyNat ZifyN.
From Verif.Base Require Import Bytes BytesFacts.
From Verif.Model Require Import ProtoRldp Fec RldpTransfer.
From Verif.Spec Require Import FecSpec RldpSpec.
From Verif.Proof Require Import FecFacts.
Import ListNotations.
Open Scope N_scope.

Lemma numbers_succ : forall n, numbers (n + 1) = numbers n ++ [n].
Proof.
  intros n. unfold numbers. rewrite N2Nat.inj_add. change (N.to_nat 1) with 1%nat.
  rewrite Nat.add_1_r, seq_S, map_app. cbn [map Nat.add]. now rewrite N2Nat.id.
Qed.

Lemma numbers_in : forall n i, In i (numbers n) <-> i < n.
Proof.
  intros n i. unfold numbers. rewrite in_map_iff. split.
  - intros [k [<- H]]. apply in_seq in H. lia.
  - intros H. exists (N.to_nat i). split; [lia|]. apply in_seq. lia.
Qed.

Lemma numbers_nth : forall n i, (i < N.to_nat n)%nat -> nth_error (numbers n) i = Some (N.of_nat i).
Proof.
  intros n i H. unfold numbers. rewrite nth_error_map.
  assert (nth_error (seq 0 (N.to_nat n)) i = Some i) as ->; [|reflexivity].
  rewrite (nth_error_nth' _ 0%nat) by (now rewrite seq_length). f_equal. rewrite seq_nth by exact H. reflexivity.
Qed.

Lemma part_count_spec : forall slice data j, 0 < slice ->
  (j < part_count slice data <-> j * slice < N.of_nat (length data)).
Proof.
  intros slice data j Hs. unfold part_count. set (l := N.of_nat (length data)).
  pose proof (N.div_mod (l + slice - 1) slice) as Hd. pose proof (N.mod_lt (l + slice - 1) slice) as Hm.
  set (q := (l + slice - 1) / slice) in *. set (r := (l + slice - 1) mod slice) in *.
  split; intros H; nia.
Qed.

Lemma part_of_length : forall slice data j,
  N.of_nat (length (part_of slice data j)) = N.min slice (N.of_nat (length data) - j * slice).
Proof. intros. unfold part_of. rewrite firstn_length, skipn_length. lia. Qed.

Lemma part_of_size : forall slice data j, 0 < slice -> j < part_count slice data ->
  0 < N.of_nat (length (part_of slice data j)) /\ N.of_nat (length (part_of slice data j)) <= slice.
Proof. intros slice data j Hs H. rewrite part_of_length. apply part_count_spec in H; [|exact Hs]. lia. Qed.

Lemma first_parts_succ : forall slice data j,
  first_parts slice data (j + 1) = first_parts slice data j ++ part_of slice data j.
Proof.
  intros. unfold first_parts. rewrite numbers_succ, map_app, concat_app. cbn [map concat]. now rewrite app_nil_r.
Qed.

Lemma first_parts_firstn : forall slice data j,
  first_parts slice data j = firstn (N.to_nat (j * slice)) data.
Proof.
  intros slice data j. induction j as [|j IH] using N.peano_ind; [reflexivity|].
  rewrite <- N.add_1_r, first_parts_succ, IH. unfold part_of.
  replace (N.to_nat ((j + 1) * slice)) with (N.to_nat (j * slice) + N.to_nat slice)%nat by lia.
  generalize (N.to_nat (j * slice)) as a, (N.to_nat slice) as b. clear.
  intros a. revert data. induction a as [|a IH]; intros data b; [reflexivity|].
  destruct data as [|x data]; [now rewrite !firstn_nil|]. cbn [Nat.add firstn skipn app]. now rewrite IH.
Qed.

Lemma first_parts_all : forall slice data j, 0 < slice -> part_count slice data <= j ->
  first_parts slice data j = data.
Proof.
  intros slice data j Hs Hj. rewrite first_parts_firstn. apply firstn_all2.
  destruct (N.lt_ge_cases (j * slice) (N.of_nat (length data))) as [H|H]; [|lia].
  apply (part_count_spec slice data j Hs) in H. lia.
Qed.

Lemma first_parts_length : forall slice data j,
  N.of_nat (length (first_parts slice data j)) = N.min (j * slice) (N.of_nat (length data)).
Proof. intros. rewrite first_parts_firstn, firstn_length. lia. Qed.

(** The part the sender cuts out (outgoing_transfer.rs:54-57). *)
Lemma part_of_cut : forall slice data j, j * slice <= N.of_nat (length data) ->
  firstn (N.to_nat (N.min (N.of_nat (length data) - j * slice) slice)) (skipn (N.to_nat (j * slice)) data)
  = part_of slice data j.
Proof.
  intros slice data j H. unfold part_of.
  destruct (N.le_gt_cases slice (N.of_nat (length data) - j * slice)) as [Hle|Hgt].
  - now rewrite N.min_r by exact Hle.
  - rewrite N.min_l by lia. rewrite !firstn_all2; [reflexivity| |]; rewrite skipn_length; lia.
Qed.

(** Everything about the parts, for the property. *)
Lemma parts_cover : forall slice data, 0 < slice ->
  concat (map (part_of slice data) (numbers (part_count slice data))) = data
  /\ forall j, j < part_count slice data ->
       0 < N.of_nat (length (part_of slice data j)) <= slice
       /\ first_parts slice data (j + 1) = first_parts slice data j ++ part_of slice data j.
Proof.
  intros slice data Hs. split.
  - apply (first_parts_all slice data (part_count slice data) Hs). lia.
  - intros j Hj. split; [now apply part_of_size|apply first_parts_succ].
Qed.

Lemma fec_count_bounds : forall F d, fec_ok F -> 0 < N.of_nat (length d) -> N.of_nat (length d) < u32_max ->
  0 < fe_count F d < u32_max.
Proof.
  intros F d HF H0 H. rewrite (fec_count F HF). unfold symbol_size, u32_max in *.
  pose proof (N.div_mod (N.of_nat (length d) + 768 - 1) 768).
  pose proof (N.mod_lt (N.of_nat (length d) + 768 - 1) 768). lia.
Qed.
