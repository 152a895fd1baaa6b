From Coq Require Import List NArith ZArith Lia Bool Arith.
From Coq Require Import ZifyBool ZifyNat ZifyN.
From Verif.Base Require Import Bytes BytesFacts Res.
From Verif.Model Require Import Crypto Encryption Channel Handshake.
From Verif.Spec Require Import CryptoSpec ChannelSpec.
Import ListNotations.
Open Scope N_scope.

Lemma xor_bytes_assoc4 : forall a b c d m n,
  length m = 4%nat -> length n = 4%nat ->
  xor_bytes (xor_bytes [a; b; c; d] m) n = xor_bytes [a; b; c; d] (xor_bytes m n).
Proof.
  intros a b c d m n Hm Hn.
  destruct m as [|m0 [|m1 [|m2 [|m3 [|]]]]]; try discriminate.
  destruct n as [|n0 [|n1 [|n2 [|n3 [|]]]]]; try discriminate.
  cbn [xor_bytes]. now rewrite !N.lxor_assoc.
Qed.

Lemma len4 : forall l : bytes, length l = 4%nat -> exists a b c d, l = [a; b; c; d].
Proof. intros [|a [|b [|c [|d [|]]]]]; try discriminate. intros _. now exists a, b, c, d. Qed.

Definition unit4 (k : nat) (b : N) : bytes := set_nth k b [0; 0; 0; 0].

Lemma xor_step : forall k a b, (k < 4)%nat -> length a = 4%nat ->
  set_nth k (N.lxor (nth k a 0) b) a = xor_bytes a (unit4 k b).
Proof.
  intros k a b Hk Ha. apply len4 in Ha as (a0 & a1 & a2 & a3 & ->).
  unfold unit4.
  destruct k as [|[|[|[|]]]]; try lia; cbn [set_nth nth xor_bytes]; now rewrite !N.lxor_0_r.
Qed.

Lemma xor_into_from_mask : forall l i, exists m, length m = 4%nat
  /\ (bytes_ok l = true -> bytes_ok m = true)
  /\ forall acc, length acc = 4%nat -> xor_into_from i acc l = xor_bytes acc m.
Proof.
  induction l as [|b l IH]; intros i.
  - exists [0; 0; 0; 0]. split; [reflexivity|]. split; [reflexivity|]. intros acc H.
    apply len4 in H as (a0 & a1 & a2 & a3 & ->). cbn [xor_into_from xor_bytes]. now rewrite !N.lxor_0_r.
  - destruct (IH (S i)) as (m & Hm & Hok & H).
    assert (Hk : (i mod 4 < 4)%nat) by (apply Nat.mod_upper_bound; lia).
    exists (xor_bytes (unit4 (i mod 4) b) m). split; [|split].
    + rewrite xor_bytes_length. unfold unit4. now rewrite set_nth_length.
    + intros Hb. apply bytes_ok_cons in Hb as [Hb Hl]. apply xor_bytes_ok; [|now apply Hok].
      unfold unit4. set (k := (i mod 4)%nat) in *. clearbody k.
      destruct k as [|[|[|[|]]]]; try lia; cbn [set_nth]; rewrite !bytes_ok_cons; repeat split; lia || reflexivity.
    + intros acc Ha. cbn [xor_into_from]. rewrite xor_step by assumption.
      rewrite H by (now rewrite xor_bytes_length).
      apply len4 in Ha as (a0 & a1 & a2 & a3 & ->).
      apply xor_bytes_assoc4; [unfold unit4; now rewrite set_nth_length | assumption].
Qed.

Lemma xor_bytes_swap : forall a m n, xor_bytes (xor_bytes a m) n = xor_bytes (xor_bytes a n) m.
Proof.
  induction a as [|x a IH]; intros [|y m] [|z n]; cbn [xor_bytes]; try reflexivity;
    try (rewrite ?xor_bytes_nil_r; reflexivity).
  - rewrite IH. f_equal. rewrite !N.lxor_assoc. now rewrite (N.lxor_comm y z).
Qed.

Lemma encode_version_length : forall v p c, length (encode_version v p c) = 4%nat.
Proof.
  intros v p c. unfold encode_version, xor_into.
  destruct (xor_into_from_mask p 0) as (m & Hm & _ & H).
  destruct (xor_into_from_mask c 0) as (m' & Hm' & _ & H').
  rewrite H by reflexivity. rewrite H' by (now rewrite xor_bytes_length).
  now rewrite !xor_bytes_length.
Qed.

Lemma slice_app : forall a b c n k, length a = n -> length b = k -> slice n (n + k) (a ++ b ++ c) = b.
Proof.
  intros a b c n k Ha Hb. unfold slice. subst n k.
  rewrite skipn_app_exact.
  replace (length a + length b - length a)%nat with (length b) by lia. apply firstn_app_exact.
Qed.

(** [decode_version] on a packet cut into its parts. *)
Lemma decode_version_parts : forall n p x c r,
  length p = n -> length x = 4%nat -> length c = 32%nat ->
  decode_version (n + 36) (p ++ x ++ c ++ r) =
  (let y := xor_into (xor_into x p) c in
   if (nth 0 y 0 =? nth 2 y 0) && (nth 1 y 0 =? nth 3 y 0) then Some (of_be (firstn 2 y)) else None).
Proof.
  intros n p x c r Hp Hx Hc. unfold decode_version.
  replace (firstn (n + 36) (p ++ x ++ c ++ r)) with (p ++ x ++ c).
  2:{ rewrite !app_assoc. rewrite <- (app_assoc p x c).
      replace (n + 36)%nat with (length (p ++ x ++ c)) by (rewrite !app_length; lia).
      now rewrite firstn_app_exact. }
  replace (n + 36 - 32 - 4)%nat with n by lia. replace (n + 36 - 32)%nat with (n + 4)%nat by lia.
  replace (slice n (n + 4) (p ++ x ++ c)) with x by (symmetry; now apply slice_app).
  replace (firstn n (p ++ x ++ c)) with p by (subst n; now rewrite firstn_app_exact).
  replace (skipn (n + 4) (p ++ x ++ c)) with c.
  2:{ rewrite app_assoc. replace (n + 4)%nat with (length (p ++ x)) by (rewrite app_length; lia).
      now rewrite skipn_app_exact. }
  reflexivity.
Qed.

Lemma decode_encode_version : forall n p c r v,
  length p = n -> length c = 32%nat -> v < 2 ^ 16 ->
  decode_version (n + 36) (p ++ encode_version v p c ++ c ++ r) = Some v.
Proof.
  intros n p c r v Hp Hc Hv.
  rewrite decode_version_parts; [| assumption | apply encode_version_length | assumption].
  cbv zeta. unfold encode_version, xor_into.
  destruct (xor_into_from_mask p 0) as (m & Hm & _ & H).
  destruct (xor_into_from_mask c 0) as (m' & Hm' & _ & H').
  rewrite (H [_; _; _; _]) by reflexivity.
  rewrite (H' (xor_bytes [_; _; _; _] _)) by (now rewrite xor_bytes_length).
  rewrite H by (now rewrite !xor_bytes_length).
  rewrite H' by (now rewrite !xor_bytes_length).
  rewrite (xor_bytes_swap (xor_bytes [_; _; _; _] m) m' m).
  rewrite !xor_bytes_involutive.
  cbn [nth firstn]. rewrite !N.eqb_refl. cbn [andb]. f_equal.
  unfold of_be. cbn [rev app of_le]. lia.
Qed.

Lemma decode_version_inv : forall n p x c r v,
  length p = n -> length x = 4%nat -> length c = 32%nat ->
  bytes_ok p = true -> bytes_ok x = true -> bytes_ok c = true ->
  decode_version (n + 36) (p ++ x ++ c ++ r) = Some v ->
  v < 2 ^ 16 /\ x = encode_version v p c.
Proof.
  intros n p x c r v Hp Hx Hc Bp Bx Bc Hd.
  rewrite decode_version_parts in Hd by assumption. cbv zeta in Hd.
  unfold xor_into in Hd. unfold encode_version, xor_into.
  destruct (xor_into_from_mask p 0) as (m & Hm & Bm & H). specialize (Bm Bp).
  destruct (xor_into_from_mask c 0) as (m' & Hm' & Bm' & H'). specialize (Bm' Bc).
  rewrite (H x) in Hd by assumption.
  rewrite (H' (xor_bytes x m)) in Hd by (now rewrite xor_bytes_length).
  remember (xor_bytes (xor_bytes x m) m') as y eqn:Ey.
  assert (Hy : length y = 4%nat) by (subst y; now rewrite !xor_bytes_length).
  assert (By : bytes_ok y = true) by (subst y; apply xor_bytes_ok; [apply xor_bytes_ok|]; assumption).
  assert (Ex : x = xor_bytes (xor_bytes y m) m').
  { subst y. rewrite (xor_bytes_swap (xor_bytes x m) m' m). now rewrite !xor_bytes_involutive. }
  apply len4 in Hy as (y0 & y1 & y2 & y3 & ->).
  cbn [nth firstn] in Hd. rewrite !bytes_ok_cons in By.
  destruct By as (B0 & B1 & B2 & B3 & _).
  destruct ((y0 =? y2) && (y1 =? y3)) eqn:E; [|discriminate].
  apply andb_true_iff in E as [E1%N.eqb_eq E2%N.eqb_eq]. subst y2 y3.
  injection Hd as <-. unfold of_be. cbn [rev app of_le]. split; [lia|].
  rewrite (H [_; _; _; _]) by reflexivity. rewrite H' by (now rewrite xor_bytes_length).
  rewrite Ex. do 2 f_equal.
  replace ((y1 + 256 * (y0 + 256 * 0)) / 256 mod 256) with y0 by lia.
  replace ((y1 + 256 * (y0 + 256 * 0)) mod 256) with y1 by lia. reflexivity.
Qed.

(** Both packet formats: a prefix of [n] bytes, then optional version, checksum, ciphertext. *)
Definition seal (P : prims) (p secret data : bytes) (version : option N) : bytes :=
  let c := packet_data_hash P version data in
  match version with
  | Some v => p ++ encode_version v p c ++ c ++ apply_cipher P secret c data
  | None => p ++ c ++ apply_cipher P secret c data
  end.

Definition unseal (P : prims) (n : nat) (secret buffer : bytes) : option (option N * bytes) :=
  let plain :=
    let checksum := slice n (n + 32) buffer in
    let data := apply_cipher P secret checksum (skipn (n + 32) buffer) in
    if bytes_eqb (packet_data_hash P None data) checksum then Some (None, data) else None in
  if Nat.ltb (n + 36) (length buffer) then
    match decode_version (n + 36) buffer with
    | Some v =>
      let checksum := slice (n + 4) (n + 36) buffer in
      let data := apply_cipher P secret checksum (skipn (n + 36) buffer) in
      if bytes_eqb (packet_data_hash P (Some v) data) checksum then Some (Some v, data) else plain
    | None => plain
    end
  else plain.

Lemma apply_cipher_involutive : forall P, prims_ok P -> forall s c d,
  apply_cipher P s c (apply_cipher P s c d) = d.
Proof.
  intros P HP s c d. unfold apply_cipher. rewrite xor_bytes_length. apply xor_bytes_involutive.
Qed.

Lemma apply_cipher_length : forall P s c d, length (apply_cipher P s c d) = length d.
Proof. intros. unfold apply_cipher. apply xor_bytes_length. Qed.

Lemma hash_length : forall P, prims_ok P -> forall v d, length (packet_data_hash P v d) = 32%nat.
Proof. intros P HP [v|] d; apply (sha_len P HP). Qed.

Lemma skipn_parts : forall (a b : bytes) n, length a = n -> skipn n (a ++ b) = b.
Proof. intros a b n <-. apply skipn_app_exact. Qed.

Lemma unseal_seal : forall P, prims_ok P -> forall n p secret data version,
  length p = n -> sendable P n version data (seal P p secret data version) ->
  unseal P n secret (seal P p secret data version) = Some (version, data).
Proof.
  intros P HP n p secret data version Hp Hs.
  destruct version as [v|].
  - cbn [sendable] in Hs. destruct Hs as [Hv Hne]. unfold seal. cbv zeta.
    set (c := packet_data_hash P (Some v) data).
    set (x := encode_version v p c).
    assert (Hc : length c = 32%nat) by (apply hash_length, HP).
    assert (Hx : length x = 4%nat) by apply encode_version_length.
    unfold unseal. cbv zeta.
    assert (Hlt : Nat.ltb (n + 36) (length (p ++ x ++ c ++ apply_cipher P secret c data)) = true).
    { apply Nat.ltb_lt. rewrite !app_length, apply_cipher_length.
      destruct data; [congruence|]. cbn [length]. lia. }
    rewrite Hlt. unfold x at 1. rewrite decode_encode_version by assumption. fold x.
    replace (slice (n + 4) (n + 36) (p ++ x ++ c ++ apply_cipher P secret c data)) with c.
    2:{ symmetry. rewrite app_assoc. replace (n + 36)%nat with (n + 4 + 32)%nat by lia.
        apply slice_app; [rewrite app_length; lia | assumption]. }
    replace (skipn (n + 36) (p ++ x ++ c ++ apply_cipher P secret c data))
      with (apply_cipher P secret c data).
    2:{ symmetry. rewrite !app_assoc. apply skipn_parts. rewrite !app_length. lia. }
    rewrite apply_cipher_involutive by assumption. fold c. now rewrite bytes_eqb_refl.
  - cbn [sendable] in Hs. unfold unseal. cbv zeta.
    assert (Hplain : (let checksum := slice n (n + 32) (seal P p secret data None) in
      let data0 := apply_cipher P secret checksum (skipn (n + 32) (seal P p secret data None)) in
      if bytes_eqb (packet_data_hash P None data0) checksum then Some (@None N, data0) else None)
      = Some (None, data)).
    { unfold seal. set (c := packet_data_hash P None data).
      assert (Hc : length c = 32%nat) by (apply hash_length, HP). cbv zeta.
      replace (slice n (n + 32) (p ++ c ++ apply_cipher P secret c data)) with c
        by (symmetry; now apply slice_app).
      replace (skipn (n + 32) (p ++ c ++ apply_cipher P secret c data)) with (apply_cipher P secret c data).
      2:{ symmetry. rewrite app_assoc. apply skipn_parts. rewrite app_length. lia. }
      rewrite apply_cipher_involutive by assumption. fold c. now rewrite bytes_eqb_refl. }
    cbv zeta in Hplain. rewrite Hplain.
    destruct (Nat.ltb (n + 36) _) eqn:Hl; [|reflexivity]. apply Nat.ltb_lt in Hl.
    destruct (decode_version _ _) as [v|] eqn:Hd; [|reflexivity].
    destruct (bytes_eqb (packet_data_hash P (Some v) _) _) eqn:He; [|reflexivity]. exfalso. apply Hs.
    apply bytes_eqb_eq in He. cbn [packet_data_hash] in He.
    exists (v mod 2 ^ 16), (apply_cipher P secret (slice (n + 4) (n + 36) (seal P p secret data None))
      (skipn (n + 36) (seal P p secret data None))).
    split; [lia|]. split; [rewrite apply_cipher_length, skipn_length; lia|].
    etransitivity; [|exact He]. apply (f_equal (sha256 P)). apply (f_equal (fun x => x ++ _)).
    unfold be_bytes. apply (f_equal (@rev N)). cbn [le_bytes]. f_equal; [lia|f_equal; lia].
Qed.

Lemma cut : forall n (l : bytes), (n <= length l)%nat ->
  exists a b, l = a ++ b /\ length a = n.
Proof.
  intros n l H. exists (firstn n l), (skipn n l). split; [now rewrite firstn_skipn|].
  rewrite firstn_length. lia.
Qed.

Lemma unseal_inv : forall P, prims_ok P -> forall n secret buffer version data,
  (n + 32 <= length buffer)%nat -> bytes_ok buffer = true ->
  unseal P n secret buffer = Some (version, data) ->
  buffer = seal P (firstn n buffer) secret data version.
Proof.
  intros P HP n secret buffer version data Hlen Hok Hu. unfold unseal in Hu. cbv zeta in Hu.
  assert (Hplain : (if bytes_eqb (packet_data_hash P None (apply_cipher P secret (slice n (n + 32) buffer) (skipn (n + 32) buffer)))
            (slice n (n + 32) buffer)
          then Some (@None N, apply_cipher P secret (slice n (n + 32) buffer) (skipn (n + 32) buffer)) else None)
     = Some (version, data) -> buffer = seal P (firstn n buffer) secret data version).
  { clear Hu. intros Hu.
    destruct (cut n buffer ltac:(lia)) as (p & b1 & E1 & Hp).
    destruct (cut 32 b1) as (c & r & E2 & Hc).
    { subst buffer. rewrite app_length in Hlen. lia. }
    subst b1 buffer.
    rewrite (slice_app p c r n 32 Hp Hc) in Hu.
    assert (Esk : skipn (n + 32) (p ++ c ++ r) = r)
      by (rewrite app_assoc; apply skipn_parts; rewrite app_length; lia).
    rewrite Esk in Hu.
    destruct (bytes_eqb _ _) eqn:E; [|discriminate]. apply bytes_eqb_eq in E.
    injection Hu as <- <-. unfold seal. cbv zeta. rewrite E.
    rewrite apply_cipher_involutive by assumption.
    f_equal. rewrite <- Hp. symmetry. apply firstn_app_exact. }
  destruct (Nat.ltb (n + 36) (length buffer)) eqn:Hl; [|exact (Hplain Hu)].
  apply Nat.ltb_lt in Hl.
  destruct (decode_version (n + 36) buffer) as [v|] eqn:Hd; [|exact (Hplain Hu)].
  destruct (bytes_eqb (packet_data_hash P (Some v) _) _) eqn:E; [|exact (Hplain Hu)].
  clear Hplain. apply bytes_eqb_eq in E. injection Hu as <- <-.
  destruct (cut n buffer ltac:(lia)) as (p & b1 & E1 & Hp). subst buffer.
  destruct (cut 4 b1) as (x & b2 & E2 & Hx). { rewrite app_length in Hl. lia. } subst b1.
  destruct (cut 32 b2) as (c & r & E3 & Hc). { rewrite !app_length in Hl. lia. } subst b2.
  assert (Esl : slice (n + 4) (n + 36) (p ++ x ++ c ++ r) = c).
  { rewrite app_assoc. replace (n + 36)%nat with (n + 4 + 32)%nat by lia.
    apply slice_app; [rewrite app_length; lia | assumption]. }
  assert (Esk : skipn (n + 36) (p ++ x ++ c ++ r) = r).
  { rewrite !app_assoc. apply skipn_parts. rewrite !app_length. lia. }
  rewrite Esl, Esk in *.
  rewrite !bytes_ok_app in Hok. destruct Hok as (Bp & Bx & Bc & Br).
  apply decode_version_inv in Hd as [Hv Hx']; try assumption.
  replace (firstn n (p ++ x ++ c ++ r)) with p by (rewrite <- Hp; symmetry; apply firstn_app_exact).
  unfold seal. cbv zeta. rewrite E. rewrite <- Hx'. now rewrite apply_cipher_involutive by assumption.
Qed.

(** Channels. *)
Lemma encrypt_with_seal : forall P id secret data version,
  encrypt_with P id secret data version = seal P id secret data version.
Proof. reflexivity. Qed.

Lemma decrypt_with_unseal : forall P secret buffer, (64 <= length buffer)%nat ->
  decrypt_with P secret buffer =
  match unseal P 32 secret buffer with Some r => Ok r | None => Err InvalidChecksum end.
Proof.
  intros P secret buffer H. unfold decrypt_with.
  destruct (Nat.ltb_spec (length buffer) 64); [lia|]. unfold unseal.
  change (32 + 36)%nat with 68%nat. change (32 + 32)%nat with 64%nat. change (32 + 4)%nat with 36%nat.
  cbv zeta.
  repeat match goal with |- context [if ?b then _ else _] => destruct b end; try reflexivity;
  destruct (decode_version 68 buffer); try reflexivity;
  repeat match goal with |- context [if ?b then _ else _] => destruct b end; reflexivity.
Qed.

Lemma seal_length : forall P, prims_ok P -> forall p secret data version,
  length (seal P p secret data version)
  = (length p + 32 + match version with Some _ => 4 | None => 0 end + length data)%nat.
Proof.
  intros P HP p secret data [v|]; unfold seal; cbv zeta;
    rewrite !app_length, ?apply_cipher_length, ?encode_version_length, hash_length by assumption; lia.
Qed.

Lemma seal_prefix : forall P p secret data version n, length p = n ->
  firstn n (seal P p secret data version) = p.
Proof. intros P p secret data [v|] n <-; apply firstn_app_exact. Qed.

Lemma channel_ends_match : forall P, prims_ok P -> forall a b ka kb da db ca cb priority,
  pick priority (ch_out (channel_new P a b ka (pub_of P kb) da ca))
  = pick priority (ch_in (channel_new P b a kb (pub_of P ka) db cb)).
Proof.
  intros P HP a b ka kb da db ca cb priority. unfold channel_new.
  rewrite (bytes_cmp_antisym a b). rewrite (dh_comm P HP kb ka).
  destruct (bytes_cmp a b); reflexivity.
Qed.

Lemma sc_id_length : forall P, prims_ok P -> forall a b k pk d c priority,
  length (sc_id (pick priority (ch_out (channel_new P a b k pk d c)))) = 32%nat.
Proof.
  intros P HP a b k pk d c priority. unfold channel_new.
  destruct (bytes_cmp a b); destruct priority; apply (sha_len P HP).
Qed.

Lemma channel_round_trip : forall P, prims_ok P -> forall a b ka kb da db ca cb data priority version,
  let alice := channel_new P a b ka (pub_of P kb) da ca in
  let bob := channel_new P b a kb (pub_of P ka) db cb in
  let packet := channel_encrypt P alice data priority version in
  sendable P 32 version data packet ->
  firstn 32 packet = channel_in_id bob priority
  /\ channel_decrypt P bob packet priority = Ok (version, data).
Proof.
  intros P HP a b ka kb da db ca cb data priority version alice bob packet Hs.
  pose proof (channel_ends_match P HP a b ka kb da db ca cb priority) as Hm. fold alice bob in Hm.
  pose proof (sc_id_length P HP a b ka (pub_of P kb) da ca priority) as Hid. fold alice in Hid.
  unfold packet, channel_encrypt, channel_decrypt, channel_in_id in *.
  rewrite <- Hm. rewrite encrypt_with_seal in *. split; [now apply seal_prefix|].
  rewrite decrypt_with_unseal by (rewrite seal_length by assumption; lia).
  now rewrite unseal_seal.
Qed.

Lemma empty_versioned_lost : forall P, prims_ok P -> forall a b ka kb da db ca cb priority v w,
  channel_decrypt P (channel_new P b a kb (pub_of P ka) db cb)
    (channel_encrypt P (channel_new P a b ka (pub_of P kb) da ca) [] priority (Some v)) priority
  <> Ok (Some w, []).
Proof.
  intros P HP a b ka kb da db ca cb priority v w. unfold channel_decrypt, channel_encrypt.
  rewrite encrypt_with_seal.
  pose proof (sc_id_length P HP a b ka (pub_of P kb) da ca priority) as Hid.
  rewrite decrypt_with_unseal by (rewrite seal_length by assumption; cbn [length]; lia).
  unfold unseal. cbv zeta. rewrite seal_length by assumption. rewrite Hid.
  change (Nat.ltb (32 + 36) (32 + 32 + 4 + length (@nil N))) with false. cbv iota.
  destruct (bytes_eqb _ _); discriminate.
Qed.

Lemma channel_faithful : forall P, prims_ok P -> forall a b ka kb da db ca cb buffer priority version data,
  let alice := channel_new P a b ka (pub_of P kb) da ca in
  let bob := channel_new P b a kb (pub_of P ka) db cb in
  bytes_ok buffer = true ->
  channel_decrypt P bob buffer priority = Ok (version, data) ->
  firstn 32 buffer = channel_in_id bob priority ->
  buffer = channel_encrypt P alice data priority version.
Proof.
  intros P HP a b ka kb da db ca cb buffer priority version data alice bob Hok Hd Hid.
  pose proof (channel_ends_match P HP a b ka kb da db ca cb priority) as Hm. fold alice bob in Hm.
  unfold channel_encrypt, channel_decrypt, channel_in_id in *. rewrite <- Hm in *.
  rewrite encrypt_with_seal.
  assert (Hlen : (64 <= length buffer)%nat).
  { unfold decrypt_with in Hd. destruct (Nat.ltb_spec (length buffer) 64); [discriminate|assumption]. }
  rewrite decrypt_with_unseal in Hd by assumption.
  destruct (unseal P 32 _ buffer) as [[v d]|] eqn:E; [|discriminate]. injection Hd as -> ->.
  apply unseal_inv in E; [now rewrite Hid in E | assumption | lia | assumption].
Qed.

Lemma decrypt_faithful : forall P, prims_ok P -> forall c buffer priority version data,
  bytes_ok buffer = true ->
  channel_decrypt P c buffer priority = Ok (version, data) ->
  exists id, length id = 32%nat
    /\ buffer = encrypt_with P id (sc_secret (pick priority (ch_in c))) data version.
Proof.
  intros P HP c buffer priority version data Hok Hd. unfold channel_decrypt in Hd.
  assert (Hlen : (64 <= length buffer)%nat).
  { unfold decrypt_with in Hd. destruct (Nat.ltb_spec (length buffer) 64); [discriminate|assumption]. }
  rewrite decrypt_with_unseal in Hd by assumption.
  destruct (unseal P 32 _ buffer) as [[v d]|] eqn:E; [|discriminate]. injection Hd as -> ->.
  exists (firstn 32 buffer). split; [rewrite firstn_length; lia|].
  apply unseal_inv in E; [exact E | assumption | lia | assumption].
Qed.

Lemma decrypt_short : forall P c buffer priority, (length buffer < 64)%nat ->
  channel_decrypt P c buffer priority = Err MessageIsTooShort.
Proof.
  intros P c buffer priority H. unfold channel_decrypt, decrypt_with.
  destruct (Nat.ltb_spec (length buffer) 64); [reflexivity|lia].
Qed.

(** Handshakes. *)
Lemma build_handshake_seal : forall P temp id key data version,
  build_handshake P temp id key data version = seal P (id ++ pub_of P temp) (dh P temp key) data version.
Proof. intros P temp id key data [v|]; unfold build_handshake, seal; cbv zeta; now rewrite <- app_assoc. Qed.

Lemma parse_handshake_unseal : forall P keys buffer local_secret, (96 <= length buffer)%nat ->
  keys (firstn 32 buffer) = Some local_secret -> valid_pub P (slice 32 64 buffer) = true ->
  parse_handshake P keys buffer =
  match unseal P 64 (dh P local_secret (slice 32 64 buffer)) buffer with
  | Some (v, d) => Ok (Some (firstn 32 buffer, v, d)) | None => Err BadPacketChecksum end.
Proof.
  intros P keys buffer ls H Hk Hv. unfold parse_handshake.
  destruct (Nat.ltb_spec (length buffer) 96); [lia|]. cbv zeta. rewrite Hk, Hv. cbn [negb]. unfold unseal.
  change (64 + 36)%nat with 100%nat. change (64 + 32)%nat with 96%nat. change (64 + 4)%nat with 68%nat.
  cbv zeta.
  repeat match goal with |- context [if ?b then _ else _] => destruct b end; try reflexivity;
  destruct (decode_version 100 buffer); try reflexivity;
  repeat match goal with |- context [if ?b then _ else _] => destruct b end; reflexivity.
Qed.

Lemma handshake_round_trip : forall P, prims_ok P -> forall keys temp id secret data version,
  let packet := build_handshake P temp id (pub_of P secret) data version in
  length id = 32%nat -> keys id = Some secret -> sendable P 64 version data packet ->
  parse_handshake P keys packet = Ok (Some (id, version, data)).
Proof.
  intros P HP keys temp id secret data version packet Hid Hk Hs. unfold packet in *.
  rewrite build_handshake_seal in *.
  assert (Hp : length (id ++ pub_of P temp) = 64%nat) by (rewrite app_length, (pub_len P HP); lia).
  set (s := seal P (id ++ pub_of P temp) (dh P temp (pub_of P secret)) data version) in *.
  assert (H64 : firstn 64 s = id ++ pub_of P temp) by (now apply seal_prefix).
  assert (H32 : firstn 32 s = id).
  { replace 32%nat with (Nat.min 32 64) by reflexivity. rewrite <- firstn_firstn, H64.
    rewrite <- Hid. apply firstn_app_exact. }
  assert (Hsl : slice 32 64 s = pub_of P temp).
  { unfold slice. change (64 - 32)%nat with (64 - 32)%nat. rewrite <- skipn_firstn_comm, H64. now apply skipn_parts. }
  rewrite parse_handshake_unseal with (local_secret := secret).
  - rewrite H32, Hsl. rewrite (dh_comm P HP secret temp). unfold s. now rewrite unseal_seal.
  - unfold s. rewrite seal_length by assumption. lia.
  - now rewrite H32.
  - rewrite Hsl. apply (pub_valid P HP).
Qed.

Lemma handshake_unknown_key : forall P keys buffer, (96 <= length buffer)%nat ->
  keys (firstn 32 buffer) = None -> parse_handshake P keys buffer = Ok None.
Proof.
  intros P keys buffer H Hk. unfold parse_handshake.
  destruct (Nat.ltb_spec (length buffer) 96); [lia|]. cbv zeta. now rewrite Hk.
Qed.

Lemma handshake_short : forall P keys buffer, (length buffer < 96)%nat ->
  parse_handshake P keys buffer = Err BadPacketLength.
Proof.
  intros P keys buffer H. unfold parse_handshake.
  destruct (Nat.ltb_spec (length buffer) 96); [reflexivity|lia].
Qed.

Lemma handshake_faithful : forall P, prims_ok P -> forall keys buffer id version data,
  bytes_ok buffer = true ->
  parse_handshake P keys buffer = Ok (Some (id, version, data)) ->
  id = firstn 32 buffer /\ exists secret, keys id = Some secret
  /\ valid_pub P (slice 32 64 buffer) = true
  /\ forall temp, pub_of P temp = slice 32 64 buffer ->
     buffer = build_handshake P temp id (pub_of P secret) data version.
Proof.
  intros P HP keys buffer id version data Hok Hd.
  assert (Hlen : (96 <= length buffer)%nat).
  { unfold parse_handshake in Hd. destruct (Nat.ltb_spec (length buffer) 96); [discriminate|assumption]. }
  destruct (keys (firstn 32 buffer)) as [secret|] eqn:Hk.
  2:{ rewrite handshake_unknown_key in Hd by assumption. discriminate. }
  destruct (valid_pub P (slice 32 64 buffer)) eqn:Hv.
  2:{ unfold parse_handshake in Hd. destruct (Nat.ltb_spec (length buffer) 96); [lia|].
      cbv zeta in Hd. rewrite Hk, Hv in Hd. discriminate. }
  rewrite parse_handshake_unseal with (local_secret := secret) in Hd by assumption.
  destruct (unseal P 64 _ buffer) as [[v d]|] eqn:E; [|discriminate]. injection Hd as <- -> ->.
  split; [reflexivity|]. exists secret. split; [exact Hk|]. split; [reflexivity|].
  intros temp Ht. rewrite build_handshake_seal.
  rewrite (dh_comm P HP temp secret), Ht.
  apply unseal_inv in E; [| assumption | lia | assumption]. rewrite E at 1. f_equal.
  unfold slice. rewrite <- skipn_firstn_comm.
  change (32 + (64 - 32))%nat with 64%nat.
  rewrite <- (firstn_skipn 32 (firstn 64 buffer)) at 1. now rewrite firstn_firstn.
Qed.

(** Used by examples: a toy hash always ends with a zero byte. *)
Lemma toy_sha_last : forall m, nth 31 (toy_sha m) 0 = 0.
Proof.
  intros m. unfold toy_sha. cbn [le_bytes nth]. rewrite !N.div_div by discriminate.
  pose proof (toy_number_bound m) as H.
  replace (toy_number m * 0x9E3779B97F4A7C15F39CC0605CEDC835 / _) with 0; [reflexivity|].
  symmetry. apply N.div_small.
  eapply N.lt_le_trans; [apply N.mul_lt_mono_pos_r; [reflexivity|exact H]|]. vm_compute. discriminate.
Qed.

Lemma toy_not_accidental : forall n packet, nth 31 (slice (n + 4) (n + 36) packet) 0 <> 0 ->
  ~ accidentally_versioned toy n packet.
Proof.
  intros n packet H (v & text & _ & _ & E). apply H. rewrite <- E. apply toy_sha_last.
Qed.
