(** Compression. *)
From Coq Require Import List NArith Arith Bool Lia.
From Coq Require Import ZifyBool ZifyNat ZifyN.
From Verif.Base Require Import Bytes BytesFacts.
From Verif.Model Require Import Compression.
From Verif.Spec Require Import CompressionSpec.
Import ListNotations.
Open Scope N_scope.

Lemma compress_short : forall z d, N.of_nat (length d) <= 256 -> compress z d = d.
Proof.
  intros z d H. unfold compress, compression_threshold. cbv zeta.
  destruct (N.of_nat (length d) <=? 256) eqn:E; [reflexivity|lia].
Qed.

Lemma compress_long : forall z d, 256 < N.of_nat (length d) ->
  compress z d = z_encode z d ++ z_encode z (be_bytes 4 (N.of_nat (length d))) ++ [tag_compressed].
Proof.
  intros z d H. unfold compress, compression_threshold. cbv zeta.
  destruct (N.of_nat (length d) <=? 256) eqn:E; [lia|reflexivity].
Qed.

Lemma compress_roundtrip : forall z d, zstd_ok z -> bytes_ok d = true ->
  256 < N.of_nat (length d) -> N.of_nat (length d) < 2 ^ 32 ->
  decompress z (compress z d) = Some d.
Proof.
  intros z d Hz Hd H1 H2. rewrite compress_long by exact H1.
  unfold decompress. rewrite app_assoc, rev_app_distr. cbn [rev app].
  rewrite N.eqb_refl, rev_involutive.
  rewrite (zstd_frames z Hz) by
    (try assumption; try apply be_bytes_ok; rewrite ?be_bytes_length; unfold u32_max; lia).
  cbv zeta. rewrite app_length, be_bytes_length.
  destruct (N.of_nat (length d + 4) <? 4) eqn:E; [lia|].
  replace (length d + 4 - 4)%nat with (length d) by lia.
  rewrite firstn_app_exact, skipn_app_exact.
  rewrite of_be_be_bytes_small by (change (256 ^ N.of_nat 4) with (2 ^ 32); lia).
  destruct (N.eqb_spec (N.of_nat (length d)) (N.of_nat (length d + 4) - 4)) as [_|Hn]; [reflexivity|lia].
Qed.

Lemma received_compressed : forall z d, zstd_ok z -> bytes_ok d = true ->
  256 < N.of_nat (length d) -> N.of_nat (length d) < 2 ^ 32 ->
  received_payload z (compress z d) = d.
Proof. intros. unfold received_payload. rewrite compress_roundtrip by assumption. reflexivity. Qed.

(** What arrives, exactly. *)
Lemma delivered_iff : forall z force p, zstd_ok z -> bytes_ok p = true ->
  N.of_nat (length p) < 2 ^ 32 ->
  (received_payload z (sent_payload z force p) = p
   <-> (force = true /\ 256 < N.of_nat (length p)) \/ decompress z p = None \/ decompress z p = Some p).
Proof.
  intros z force p Hz Hp Hl. unfold sent_payload.
  destruct (N.ltb_spec 256 (N.of_nat (length p))) as [Hlong|Hshort].
  - destruct force.
    + rewrite received_compressed by assumption. tauto.
    + unfold received_payload. destruct (decompress z p) as [x|] eqn:E.
      * split; [intros ->; right; right; reflexivity|].
        intros [[H _]|[H|H]]; [discriminate|discriminate|]. now injection H.
      * tauto.
  - replace (if force then compress z p else p) with p
      by (destruct force; [symmetry; apply compress_short; lia|reflexivity]).
    unfold received_payload. destruct (decompress z p) as [x|] eqn:E.
    + split; [intros ->; right; right; reflexivity|].
      intros [[_ H]|[H|H]]; [lia|discriminate|]. now injection H.
    + tauto.
Qed.

(** A payload that is itself a compression result is replaced by what it contains. *)
Lemma compressed_payload_replaced : forall z x, zstd_ok z -> bytes_ok x = true ->
  256 < N.of_nat (length x) -> N.of_nat (length x) < 2 ^ 32 -> last x 0 <> 128 ->
  let p := compress z x in
  received_payload z (sent_payload z false p) = x
  /\ (N.of_nat (length p) <= 256 -> received_payload z (sent_payload z true p) = x)
  /\ x <> p.
Proof.
  intros z x Hz Hx H1 H2 Hl p. unfold sent_payload. split; [|split].
  - now apply received_compressed.
  - intros Hp. rewrite compress_short by exact Hp. now apply received_compressed.
  - intros He. apply Hl. rewrite He. unfold p. rewrite compress_long by exact H1.
    rewrite app_assoc, last_last. reflexivity.
Qed.

(** The stand-in is lawful. *)
Lemma toy_encode_length : forall a, (9 <= length (toy_encode a))%nat.
Proof.
  intros a. unfold toy_encode, toy_frame.
  destruct (all_zero a && (64 <=? length a)%nat); cbn [length]; rewrite app_length, le_bytes_length; lia.
Qed.

Lemma all_zero_repeat : forall a, all_zero a = true -> repeat 0 (length a) = a.
Proof.
  induction a as [|x a IH]; cbn [all_zero forallb length repeat]; [reflexivity|].
  intros H. apply andb_true_iff in H as [H1 H2]. apply N.eqb_eq in H1. subst x. f_equal. now apply IH.
Qed.

Lemma toy_frames_step : forall k a l, N.of_nat (length a) < u32_max ->
  toy_frames (S k) (toy_encode a ++ l) = option_map (app a) (toy_frames k l).
Proof.
  intros k a l Ha. unfold toy_encode, toy_frame.
  assert (Hv : N.to_nat (of_le (le_bytes 8 (N.of_nat (length a)))) = length a).
  { rewrite of_le_le_bytes_small; [lia|]. change (256 ^ N.of_nat 8) with (2 ^ 64).
    unfold u32_max in Ha. lia. }
  destruct (all_zero a && (64 <=? length a)%nat) eqn:Hc.
  - apply andb_true_iff in Hc as [Hz _].
    cbn [app toy_frames]. rewrite app_nil_r.
    replace (firstn 8 (le_bytes 8 (N.of_nat (length a)) ++ l)) with (le_bytes 8 (N.of_nat (length a)))
      by (symmetry; apply (firstn_app_exact _ (le_bytes 8 (N.of_nat (length a))) l)).
    replace (skipn 8 (le_bytes 8 (N.of_nat (length a)) ++ l)) with l
      by (symmetry; apply (skipn_app_exact _ (le_bytes 8 (N.of_nat (length a))) l)).
    cbv zeta. rewrite Hv, app_length, le_bytes_length.
    destruct (8 + length l <? 8)%nat eqn:E; [lia|].
    change (1 =? 1) with true. cbn iota. rewrite all_zero_repeat by exact Hz. reflexivity.
  - cbn [app toy_frames]. rewrite <- app_assoc.
    replace (firstn 8 (le_bytes 8 (N.of_nat (length a)) ++ a ++ l)) with (le_bytes 8 (N.of_nat (length a)))
      by (symmetry; apply (firstn_app_exact _ (le_bytes 8 (N.of_nat (length a))) (a ++ l))).
    replace (skipn 8 (le_bytes 8 (N.of_nat (length a)) ++ a ++ l)) with (a ++ l)
      by (symmetry; apply (skipn_app_exact _ (le_bytes 8 (N.of_nat (length a))) (a ++ l))).
    cbv zeta. rewrite Hv, !app_length, le_bytes_length.
    destruct (8 + (length a + length l) <? 8)%nat eqn:E; [lia|].
    change (0 =? 1) with false. cbn iota.
    destruct (8 + (length a + length l) <? 8 + length a)%nat eqn:E2; [lia|].
    rewrite firstn_app_exact.
    replace (skipn (8 + length a) (le_bytes 8 (N.of_nat (length a)) ++ a ++ l)) with l; [reflexivity|].
    rewrite app_assoc.
    rewrite <- (skipn_app_exact _ (le_bytes 8 (N.of_nat (length a)) ++ a) l) at 1.
    rewrite app_length, le_bytes_length. reflexivity.
Qed.

Lemma toy_zstd_ok : zstd_ok toy_zstd.
Proof.
  constructor. intros a b _ _ Ha Hb. cbn [z_decode z_encode toy_zstd].
  pose proof (toy_encode_length a) as La. pose proof (toy_encode_length b) as Lb.
  assert (L : (3 <= length (toy_encode a ++ toy_encode b))%nat) by (rewrite app_length; lia).
  destruct (length (toy_encode a ++ toy_encode b)) as [|n]; [lia|].
  rewrite toy_frames_step by exact Ha.
  rewrite <- (app_nil_r (toy_encode b)), toy_frames_step by exact Hb.
  destruct n as [|n]; [lia|]. cbn [toy_frames option_map]. rewrite app_nil_r. reflexivity.
Qed.
