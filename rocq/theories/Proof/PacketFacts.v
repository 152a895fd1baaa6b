(** Packet contents: round trip and removal of the signature. *)
From Coq Require Import List NArith ZArith Lia Bool Arith.
From Coq Require Import ZifyBool ZifyNat ZifyN.
From Verif.Base Require Import Bytes BytesFacts.
From Verif.Model Require Import Tl Scheme ProtoAdnl.
From Verif.Spec Require Import Codec.
From Verif.Proof Require Import TlFacts ProtoFacts.
Import ListNotations.
Open Scope N_scope.

Lemma opt_some_reads : forall A B put get (wf : A -> Prop) (f : option A -> parser B) fl bit a r,
  N.testbit fl bit = true -> reads put get wf -> wf a ->
  bind (get_optional fl bit get) f (put a ++ r) = f (Some a) r.
Proof.
  intros * Hb Hr Hw. apply bind_ok. unfold get_optional. rewrite Hb.
  unfold bind. now rewrite (Hr _ _ Hw).
Qed.

Lemma opt_none_reads : forall A B get (f : option A -> parser B) fl bit r,
  N.testbit fl bit = false -> bind (get_optional fl bit get) f r = f None r.
Proof. intros * Hb. apply bind_ok. unfold get_optional. now rewrite Hb. Qed.

Definition off (whole rest : bytes) : N := N.of_nat (length whole - length rest) mod 2 ^ 16.

Lemma bind_off : forall B whole (f : N -> parser B) r, bind (offset_u16 whole) f r = f (off whole r) r.
Proof. reflexivity. Qed.

Lemma pair_reads : forall a b r, message_ok a -> message_ok b ->
  get_vector get_message (put_u32 2 ++ put_message a ++ put_message b ++ r) = Some ([a; b], r).
Proof.
  intros a b r Ha Hb.
  pose proof (vector_reads _ put_message get_message message_ok message_reads put_message_ne
    [a; b] r) as H.
  unfold put_vector in H. cbn [flat_map length] in H. rewrite app_nil_r, <- !app_assoc in H.
  apply H. split; [repeat constructor; assumption | reflexivity].
Qed.

Lemma opt_pair_reads : forall B (f : option (list message) -> parser B) fl bit a b r,
  N.testbit fl bit = true -> message_ok a -> message_ok b ->
  bind (get_optional fl bit (get_vector get_message)) f (put_u32 2 ++ put_message a ++ put_message b ++ r)
  = f (Some [a; b]) r.
Proof.
  intros * Hb H1 H2. apply bind_ok. unfold get_optional. rewrite Hb. unfold bind.
  now rewrite pair_reads.
Qed.

Lemma sig_blob : forall s : bytes, length s = 64%nat -> blob_ok s.
Proof. intros s H. unfold blob_ok. rewrite H. reflexivity. Qed.

Lemma sig_some_reads : forall B (f : option packet_signature -> parser B) whole fl fo sg r,
  N.testbit fl 11 = true -> length sg = 64%nat ->
  bind (get_signature whole fl fo) f (put_bytes sg ++ r)
  = f (Some (mk_packet_signature sg fo (off whole (put_bytes sg ++ r)) (off whole r))) r.
Proof.
  intros * Hb Hl. apply bind_ok. unfold get_signature. rewrite Hb, bind_off.
  erewrite bind_reads; [ | exact bytes_reads | now apply sig_blob ].
  rewrite bind_off, Hl. reflexivity.
Qed.

Lemma sig_none_reads : forall B (f : option packet_signature -> parser B) whole fl fo r,
  N.testbit fl 11 = false -> bind (get_signature whole fl fo) f r = f None r.
Proof. intros * Hb. apply bind_ok. unfold get_signature. now rewrite Hb. Qed.

(** The bytes of a packet around flags and signature. *)
Definition part_a (p : out_packet) : bytes := put_u32 id_packet_contents ++ put_bytes (op_rand1 p).
Definition part_b (p : out_packet) : bytes :=
  put_opt put_public_key (op_from p) ++ put_out_messages (op_messages p)
  ++ put_address_list (op_address p) ++ put_u64 (op_seqno p) ++ put_u64 (op_confirm_seqno p)
  ++ put_opt put_reinit_dates (op_reinit_dates p).

Lemma put_out_packet_split : forall p,
  put_out_packet p = part_a p ++ put_u32 (out_flags p) ++ part_b p
    ++ put_opt put_bytes (op_signature p) ++ put_bytes (op_rand2 p).
Proof. intros p. unfold put_out_packet, part_a, part_b. now rewrite <- !app_assoc. Qed.

Lemma out_flags_ok : forall p, u32_ok (out_flags p).
Proof.
  intros [r1 [f|] [m|m] ad s c [d|] [g|] r2]; unfold u32_ok; vm_compute; reflexivity.
Qed.

(** Reads the fields one by one; presence bits are computed. *)
Ltac opt_go :=
  first
    [ rewrite <- app_assoc
    | rewrite app_nil_l
    | erewrite opt_some_reads; [ | vm_compute; reflexivity | solve [eauto with tl] | solve [assumption | eauto with tl] ]
    | rewrite opt_pair_reads by first [assumption | vm_compute; reflexivity]
    | rewrite sig_some_reads by first [assumption | vm_compute; reflexivity]
    | rewrite sig_none_reads by (vm_compute; reflexivity)
    | rewrite opt_none_reads by (vm_compute; reflexivity)
    | erewrite bind_reads; [ | solve [eauto with tl] | solve [assumption | eauto with tl] ] ].

Lemma get_in_packet_ok : forall whole p msgs r,
  out_packet_ok p -> carries (op_messages p) msgs ->
  get_in_packet_at whole (put_out_packet p ++ r)
  = Some (mk_in_packet (op_from p) None msgs (Some (op_address p)) (Some (op_seqno p))
            (Some (op_confirm_seqno p)) (op_reinit_dates p)
            (option_map (fun s => mk_packet_signature s
               (off whole (put_u32 (out_flags p) ++ part_b p ++ put_opt put_bytes (op_signature p)
                             ++ put_bytes (op_rand2 p) ++ r))
               (off whole (put_opt put_bytes (op_signature p) ++ put_bytes (op_rand2 p) ++ r))
               (off whole (put_bytes (op_rand2 p) ++ r))) (op_signature p)), r).
Proof.
  intros whole p msgs r (H1 & H2 & H3 & H4 & H5 & H6 & H7 & H8) Hc.
  unfold get_in_packet_at. rewrite put_out_packet_split. unfold part_a.
  rewrite <- !app_assoc.
  erewrite bind_reads; [ | exact u32_reads | unfold u32_ok; reflexivity ].
  change (negb (id_packet_contents =? id_packet_contents)) with false. cbv iota.
  erewrite bind_reads; [ | exact bytes_reads | assumption ].
  rewrite bind_off.
  set (o1 := off whole _).
  erewrite bind_reads; [ | exact u32_reads | apply out_flags_ok ].
  unfold part_b. rewrite <- !app_assoc.
  set (ro := off whole (put_bytes (op_rand2 p) ++ r)).
  set (so := off whole (put_opt put_bytes (op_signature p) ++ put_bytes (op_rand2 p) ++ r)).
  clearbody o1.
  destruct p as [r1 f m ad s c d g r2].
  cbn [op_rand1 op_from op_messages op_address op_seqno op_confirm_seqno op_reinit_dates
       op_signature op_rand2] in *.
  subst so ro.
  destruct Hc as [m Hm | a b Ha Hb]; destruct f as [f|], d as [d|], g as [g|];
    cbn [put_opt opt_ok put_out_messages option_map] in *; repeat opt_go; reflexivity.
Qed.

Lemma packet_survives : forall p msgs trailing,
  out_packet_ok p -> carries (op_messages p) msgs ->
  exists q, parse_packet (put_out_packet p ++ trailing) = Some q /\ same_packet p msgs q.
Proof.
  intros p msgs r Hp Hc. unfold parse_packet, deserialize.
  rewrite (get_in_packet_ok _ p msgs r Hp Hc). eexists. split; [reflexivity|].
  unfold same_packet. cbn. repeat split; try reflexivity.
  now destruct (op_signature p).
Qed.

Lemma off_app : forall a b, N.of_nat (length (a ++ b)) < 2 ^ 16 ->
  off (a ++ b) b = N.of_nat (length a).
Proof.
  intros a b H. unfold off. rewrite app_length in *.
  rewrite N.mod_small by lia. lia.
Qed.

Lemma set_nth_app_r : forall A (a b : list A) i v,
  set_nth (length a + i) v (a ++ b) = a ++ set_nth i v b.
Proof. intros A a. induction a; intros; cbn; [reflexivity | now rewrite IHa]. Qed.

Lemma flags_cleared : forall p s, op_signature p = Some s ->
  set_nth 1 (N.land (nth 1 (put_u32 (out_flags p)) 0) 0xf7) (put_u32 (out_flags p))
  = put_u32 (out_flags (unsigned p)).
Proof.
  intros [r1 f m ad sq c d g r2] s H. cbn in H. subst g.
  destruct f, m, d; vm_compute; reflexivity.
Qed.

Lemma set_nth_app_l : forall A (a b : list A) i v, (i < length a)%nat ->
  set_nth i v (a ++ b) = set_nth i v a ++ b.
Proof.
  intros A a. induction a; intros b i v H; cbn in *; [lia|].
  destruct i; cbn; [reflexivity|]. rewrite IHa by lia. reflexivity.
Qed.

Lemma unsigned_split : forall p,
  put_out_packet (unsigned p)
  = part_a p ++ put_u32 (out_flags (unsigned p)) ++ part_b p ++ put_bytes (op_rand2 p).
Proof. intros p. rewrite put_out_packet_split. reflexivity. Qed.

Lemma extract_app : forall A F B S R F' fo sg,
  length F = 4%nat -> length F' = 4%nat -> R <> [] -> S <> [] ->
  set_nth 1 (N.land (nth 1 F 0) 0xf7) F = F' ->
  N.of_nat (length (A ++ F ++ B ++ S ++ R)) < 2 ^ 16 ->
  fo = N.of_nat (length A) ->
  extract (mk_packet_signature sg fo
     (N.of_nat (length (A ++ F ++ B))) (N.of_nat (length (A ++ F ++ B ++ S))))
     (A ++ F ++ B ++ S ++ R)
  = Some (A ++ F' ++ B ++ R, sg).
Proof.
  intros A F B S R F' fo sg HF HF' HR HS Hset Hlen ->.
  unfold extract. cbn [ps_flags_offset ps_start ps_end ps_signature].
  rewrite (N.mod_small _ _ Hlen).
  assert (HRl : (0 < length R)%nat) by (destruct R; [congruence | cbn; lia]).
  assert (HSl : (0 < length S)%nat) by (destruct S; [congruence | cbn; lia]).
  assert (HL : length (A ++ F ++ B ++ S ++ R)
    = (length A + (4 + (length B + (length S + length R))))%nat)
    by (rewrite !app_length, HF; lia).
  assert (HL1 : length (A ++ F ++ B) = (length A + (4 + length B))%nat)
    by (rewrite !app_length, HF; lia).
  assert (HL2 : length (A ++ F ++ B ++ S) = (length A + (4 + (length B + length S)))%nat)
    by (rewrite !app_length, HF; lia).
  rewrite HL, HL1, HL2.
  match goal with |- (if ?c then _ else _) = _ => replace c with true end.
  2:{ symmetry. rewrite !andb_true_iff, !N.ltb_lt. lia. }
  set (i := N.to_nat (N.of_nat (length A) + 1)).
  assert (Hi : i = (length A + 1)%nat) by (subst i; lia).
  assert (Hset' : set_nth i (N.land (nth i (A ++ F ++ B ++ S ++ R) 0) 247) (A ++ F ++ B ++ S ++ R)
    = (A ++ F' ++ B) ++ S ++ R).
  { rewrite Hi, set_nth_app_r, app_nth2_plus.
    rewrite set_nth_app_l by lia.
    rewrite app_nth1 by lia. rewrite Hset. now rewrite <- !app_assoc. }
  rewrite Hset'.
  assert (HL3 : length (A ++ F' ++ B) = (length A + (4 + length B))%nat)
    by (rewrite !app_length, HF'; lia).
  replace (N.to_nat (N.of_nat (length A + (4 + length B)))) with (length (A ++ F' ++ B)) by lia.
  rewrite firstn_app_exact.
  replace (N.to_nat (N.of_nat (length A + (4 + (length B + length S)))))
    with (length ((A ++ F' ++ B) ++ S)) by (rewrite app_length; lia).
  rewrite (app_assoc _ S R) at 1. rewrite skipn_app_exact.
  f_equal. f_equal.
  rewrite (firstn_all2 R) by lia.
  match goal with |- firstn ?n (_ ++ R ++ ?rest) = _ =>
    replace n with (length ((A ++ F' ++ B) ++ R)) end.
  - rewrite (app_assoc _ R), firstn_app_exact. now rewrite <- !app_assoc.
  - rewrite app_length. lia.
Qed.

Lemma signature_extracted : forall p msgs s,
  out_packet_ok p -> carries (op_messages p) msgs -> op_signature p = Some s ->
  N.of_nat (length (put_out_packet p)) < 2 ^ 16 ->
  exists q sg, parse_packet (put_out_packet p) = Some q /\ ip_signature q = Some sg
    /\ extract sg (put_out_packet p) = Some (put_out_packet (unsigned p), s).
Proof.
  intros p msgs s Hp Hc Hs Hlen. unfold parse_packet, deserialize.
  pose proof (get_in_packet_ok (put_out_packet p) p msgs [] Hp Hc) as H.
  rewrite app_nil_r in H. rewrite H. rewrite Hs. cbn [option_map].
  eexists _, _. split; [reflexivity|]. split; [reflexivity|].
  rewrite !app_nil_r. cbn [put_opt].
  assert (E : put_out_packet p = part_a p ++ put_u32 (out_flags p) ++ part_b p
    ++ put_bytes s ++ put_bytes (op_rand2 p)) by (rewrite put_out_packet_split, Hs; reflexivity).
  rewrite E in *. rewrite unsigned_split.
  assert (E1 : off (part_a p ++ put_u32 (out_flags p) ++ part_b p ++ put_bytes s ++ put_bytes (op_rand2 p))
    (put_u32 (out_flags p) ++ part_b p ++ put_bytes s ++ put_bytes (op_rand2 p))
    = N.of_nat (length (part_a p))) by (apply off_app; exact Hlen).
  assert (E2 : off (part_a p ++ put_u32 (out_flags p) ++ part_b p ++ put_bytes s ++ put_bytes (op_rand2 p))
    (put_bytes s ++ put_bytes (op_rand2 p))
    = N.of_nat (length (part_a p ++ put_u32 (out_flags p) ++ part_b p))).
  { rewrite <- off_app with (b := put_bytes s ++ put_bytes (op_rand2 p)); rewrite <- !app_assoc;
      [reflexivity | exact Hlen]. }
  assert (E3 : off (part_a p ++ put_u32 (out_flags p) ++ part_b p ++ put_bytes s ++ put_bytes (op_rand2 p))
    (put_bytes (op_rand2 p))
    = N.of_nat (length (part_a p ++ put_u32 (out_flags p) ++ part_b p ++ put_bytes s))).
  { rewrite <- off_app with (b := put_bytes (op_rand2 p)); rewrite <- !app_assoc;
      [reflexivity | exact Hlen]. }
  rewrite E1, E2, E3.
  apply extract_app; try reflexivity; try apply le_bytes_length; try apply put_bytes_ne.
  - now apply flags_cleared with s.
  - exact Hlen.
Qed.
