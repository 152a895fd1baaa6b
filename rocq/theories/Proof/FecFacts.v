(** The stand-in code is lawful. *)
From Coq Require Import List NArith Arith Bool Lia.
From Coq Require Import ZifyBool ZifyNat ZifyN.
From Verif.Base Require Import Bytes BytesFacts.
From Verif.Model Require Import ProtoRldp Fec.
From Verif.Spec Require Import FecSpec.
Import ListNotations.
Open Scope N_scope.
Local Open Scope nat_scope.

Lemma skipn_add : forall A (l : list A) a b, skipn a (skipn b l) = skipn (b + a) l.
Proof.
  intros A l a b. revert l. induction b as [|b IH]; intros l; [reflexivity|].
  destruct l as [|x l]; [now rewrite !skipn_nil|]. cbn [Nat.add skipn]. apply IH.
Qed.

Lemma piece_length : forall d i, length (piece d i) = 768.
Proof.
  intros d i. unfold piece. rewrite app_length, repeat_length.
  pose proof (firstn_le_length 768 (skipn (768 * i) d)). lia.
Qed.

Lemma pieces_concat : forall d c from, length d <= 768 * (from + c) ->
  firstn (length d - 768 * from) (concat (map (piece d) (seq from c))) = skipn (768 * from) d.
Proof.
  intros d c. induction c as [|c IH]; intros from H.
  - replace (length d - 768 * from) with 0 by lia. cbn [seq map concat]. rewrite firstn_nil.
    symmetry. apply skipn_all2. lia.
  - cbn [seq map concat].
    destruct (Nat.le_gt_cases (768 * S from) (length d)) as [Hle|Hgt].
    + assert (Hs : length (firstn 768 (skipn (768 * from) d)) = 768)
        by (apply firstn_length_le; rewrite skipn_length; lia).
      unfold piece at 1. cbv zeta. rewrite Hs. cbn [Nat.sub repeat]. rewrite app_nil_r.
      rewrite firstn_app, Hs.
      rewrite firstn_all2 by (rewrite Hs; lia).
      replace (length d - 768 * from - 768) with (length d - 768 * S from) by lia.
      rewrite IH by lia.
      rewrite <- (firstn_skipn 768 (skipn (768 * from) d)) at 2. f_equal.
      rewrite skipn_add. f_equal. lia.
    + assert (Hs : firstn 768 (skipn (768 * from) d) = skipn (768 * from) d)
        by (apply firstn_all2; rewrite skipn_length; lia).
      unfold piece at 1. cbv zeta. rewrite Hs. rewrite <- app_assoc.
      rewrite <- (skipn_length (768 * from) d). apply firstn_app_exact.
Qed.

Lemma find_packet_in : forall i packets s, find_packet i packets = Some s -> In (i, s) packets.
Proof.
  intros i packets s. unfold find_packet. destruct (find _ packets) as [[j t]|] eqn:E; [|discriminate].
  intros H. injection H as <-. apply find_some in E as [H1 H2]. cbn [fst] in H2.
  apply N.eqb_eq in H2. now subst j.
Qed.

Lemma find_packet_some : forall i packets, (exists s, In (i, s) packets) -> exists s, find_packet i packets = Some s.
Proof.
  intros i packets [s H]. unfold find_packet.
  destruct (find (fun p => N.eqb (fst p) i) packets) as [p|] eqn:E.
  - exists (snd p). reflexivity.
  - exfalso. pose proof (find_none _ _ E _ H) as Hn. cbn [fst] in Hn. rewrite N.eqb_refl in Hn. discriminate.
Qed.

Lemma gather_sound : forall d packets c from r, symbols_of toy_fec d packets ->
  gather packets from c = Some r -> r = concat (map (piece d) (seq from c)).
Proof.
  intros d packets c. induction c as [|c IH]; intros from r Hs H; cbn [gather seq map concat] in *.
  - now injection H as <-.
  - destruct (find_packet (N.of_nat from) packets) as [s|] eqn:E; [|discriminate].
    destruct (gather packets (S from) c) as [t|] eqn:Eg; [|discriminate].
    injection H as <-. apply find_packet_in in E.
    assert (Hx : s = piece d from).
    { unfold symbols_of in Hs. rewrite Forall_forall in Hs. specialize (Hs _ E).
      cbn [fst snd fe_symbol toy_fec] in Hs. unfold toy_symbol in Hs. now rewrite Nat2N.id in Hs. }
    subst s.
    f_equal. apply IH with (1 := Hs); exact Eg.
Qed.

Lemma gather_complete : forall packets c from,
  (forall i, from <= i < from + c -> exists s, In (N.of_nat i, s) packets) ->
  exists r, gather packets from c = Some r.
Proof.
  intros packets c. induction c as [|c IH]; intros from H; cbn [gather]; [eexists; reflexivity|].
  destruct (find_packet_some (N.of_nat from) packets) as [s ->]; [apply H; lia|].
  destruct (IH (S from)) as [r ->]; [intros; apply H; lia|]. eexists; reflexivity.
Qed.

Lemma toy_fec_ok : fec_ok toy_fec.
Proof.
  assert (Hk : forall d, (N.of_nat (length d) < u32_max)%N ->
            (toy_count d < u32_max)%N /\ length d <= 768 * N.to_nat (toy_count d)).
  { intros d Hd. unfold toy_count, symbol_size, u32_max in *.
    pose proof (N.div_mod (N.of_nat (length d) + 768 - 1) 768). 
    pose proof (N.mod_lt (N.of_nat (length d) + 768 - 1) 768). lia. }
  constructor.
  - reflexivity.
  - intros d i. cbn [fe_symbol toy_fec]. apply piece_length.
  - intros d packets Hd Hs. destruct (Hk d Hd) as [Hc Hl].
    cbn [fe_decode toy_fec]. unfold toy_decode, fec_params. cbn [ft_total_len ft_packet_count fe_count toy_fec].
    rewrite !N.mod_small by assumption. rewrite Nat2N.id.
    destruct (gather packets 0 (N.to_nat (toy_count d))) as [r|] eqn:E; [right|left; reflexivity].
    apply (gather_sound d) in E; [|exact Hs]. subst r. cbn [option_map]. f_equal.
    pose proof (pieces_concat d (N.to_nat (toy_count d)) 0) as Hp.
    rewrite Nat.mul_0_r, Nat.sub_0_r in Hp. cbn [skipn] in Hp. apply Hp. lia.
  - intros d packets Hd Hs _ Ha. destruct (Hk d Hd) as [Hc Hl].
    cbn [fe_decode toy_fec]. unfold toy_decode, fec_params. cbn [ft_total_len ft_packet_count fe_count toy_fec].
    rewrite !N.mod_small by assumption. rewrite Nat2N.id.
    destruct (gather_complete packets (N.to_nat (toy_count d)) 0) as [r Hr].
    { intros i Hi. apply Ha. cbn [fe_count toy_fec]. lia. }
    rewrite Hr. apply (gather_sound d) in Hr; [|exact Hs]. subst r. cbn [option_map]. f_equal.
    pose proof (pieces_concat d (N.to_nat (toy_count d)) 0) as Hp.
    rewrite Nat.mul_0_r, Nat.sub_0_r in Hp. cbn [skipn] in Hp. apply Hp. lia.
Qed.
