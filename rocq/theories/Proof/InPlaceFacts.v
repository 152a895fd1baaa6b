From Coq Require Import List NArith Arith Lia Bool.
From Coq Require Import ZifyBool ZifyNat ZifyN.
From Verif.Base Require Import Bytes BytesFacts Res.
From Verif.Model Require Import Tl Scheme Crypto Encryption Channel Handshake ProtoAdnl InPlace.
From Verif.Spec Require Import CryptoSpec InPlaceSpec.
From Verif.Proof Require Import TlFacts PacketFacts LocalFacts.
Import ListNotations.
Open Scope N_scope.

Lemma skip_skip : forall a b (l : bytes), skipn a (skipn b l) = skipn (b + a) l.
Proof. intros a b. induction b as [|b IH]; intros l; [reflexivity|]. destruct l; [now rewrite !skipn_nil|]. cbn [skipn Nat.add]. apply IH. Qed.

Definition fits (v : view) : Prop := (v_start v + v_len v <= length (v_memory v))%nat.
Lemma index_ok : forall E a b v, fits v -> (a <= b)%nat -> (b <= v_len v)%nat ->
  @index E a b v = Fine (slice a b (view_bytes v)).
Proof.
  intros E a b v Hf Ha Hb. unfold index, fits in *.
  destruct (Nat.leb_spec a b); [|lia]. destruct (Nat.leb_spec b (v_len v)); [|lia].
  destruct (Nat.leb_spec (v_start v + v_len v) (length (v_memory v))); [|lia]. cbn [andb]. f_equal. unfold slice, view_bytes.
  rewrite skipn_firstn_comm, firstn_firstn, skip_skip. f_equal. lia.
Qed.

Lemma view_bytes_length : forall v, fits v -> length (view_bytes v) = v_len v.
Proof. intros v H. unfold fits, view_bytes in *. rewrite firstn_length, skipn_length. lia. Qed.
Lemma xor_length : forall a k, length (xor_bytes a k) = length a.
Proof. intros a. induction a as [|x a IH]; intros [|y k]; cbn; auto. Qed.
Lemma xor_twice : forall a k, xor_bytes (xor_bytes a k) k = a.
Proof.
  intros a. induction a as [|x a IH]; intros [|y k]; cbn; [reflexivity|reflexivity|now rewrite IH|].
  rewrite IH. f_equal. rewrite N.lxor_assoc, N.lxor_nilpotent. apply N.lxor_0_r.
Qed.

Lemma keystream_ok : forall E P c from v, fits v -> (from <= v_len v)%nat ->
  exists w, @apply_keystream E P c from v = Fine (seek c (ci_pos c + (v_len v - from)), w)
    /\ fits w /\ v_len w = v_len v
    /\ view_bytes w = firstn from (view_bytes v)
         ++ xor_bytes (skipn from (view_bytes v))
              (skipn (ci_pos c) (aes_ctr P (ci_key c) (ci_counter c) (ci_pos c + (v_len v - from)))).
Proof.
  intros E P c from [m s n] Hf Hn. unfold fits, apply_keystream, view_bytes in *. cbn [v_memory v_start v_len] in *.
  destruct (Nat.leb_spec from n); [|lia]. destruct (Nat.leb_spec (s + n) (length m)); [|lia]. cbn [andb]. cbv zeta.
  eexists. split; [reflexivity|]. cbn [v_memory v_start v_len].
  set (k := skipn (ci_pos c) _). clearbody k.
  assert (Hm : m = firstn s m ++ firstn from (skipn s m) ++ firstn (n - from) (skipn (s + from) m) ++ skipn (s + n) m).
  { rewrite <- (firstn_skipn s m) at 1. f_equal. rewrite <- (firstn_skipn from (skipn s m)) at 1. f_equal.
    rewrite skip_skip. rewrite <- (firstn_skipn (n - from) (skipn (s + from) m)) at 1. f_equal. rewrite skip_skip. f_equal. lia. }
  set (a := firstn s m) in *. set (b := firstn from (skipn s m)) in *. set (d := firstn (n - from) (skipn (s + from) m)) in *.
  set (t := skipn (s + n) m) in *.
  assert (La : length a = s) by (unfold a; rewrite firstn_length; lia).
  assert (Lb : length b = from) by (unfold b; rewrite firstn_length, skipn_length; lia).
  assert (Ld : length d = (n - from)%nat) by (unfold d; rewrite firstn_length, skipn_length; lia).
  assert (E1 : firstn (s + from) m = a ++ b).
  { rewrite Hm. rewrite app_assoc. replace (s + from)%nat with (length (a ++ b)) by (rewrite app_length; lia). apply firstn_app_exact. }
  assert (E2 : skipn (s + from + (n - from)) m = t) by (unfold t; f_equal; lia).
  rewrite E1, E2. rewrite <- app_assoc.
  assert (E3 : skipn s (a ++ b ++ xor_bytes d k ++ t) = b ++ xor_bytes d k ++ t) by (rewrite <- La; apply skipn_app_exact).
  assert (E4 : skipn s m = b ++ d ++ t) by (rewrite Hm, <- La; apply skipn_app_exact).
  rewrite E3, E4.
  assert (E5 : forall z, length z = (n - from)%nat -> firstn n (b ++ z ++ t) = b ++ z).
  { intros z Hz. rewrite app_assoc. replace n with (length (b ++ z)) by (rewrite app_length; lia). apply firstn_app_exact. }
  rewrite (E5 d Ld), (E5 (xor_bytes d k)) by (rewrite xor_length; exact Ld).
  split.
  - rewrite !app_length, xor_length. rewrite Hm in H0. rewrite !app_length in H0. lia.
  - split; [reflexivity|]. rewrite <- Lb at 1 2. rewrite firstn_app_exact, skipn_app_exact. reflexivity.
Qed.

Lemma remove_prefix_ok : forall E n v, fits v -> (n <= v_len v)%nat ->
  exists u, @remove_prefix E n v = Fine u /\ view_bytes u = skipn n (view_bytes v).
Proof.
  intros E n v Hf Hn. unfold remove_prefix. destruct (Nat.leb_spec n (v_len v)); [|lia]. eexists. split; [reflexivity|].
  unfold view_bytes. cbn [v_memory v_start v_len]. rewrite skipn_firstn_comm, skip_skip. reflexivity.
Qed.

Lemma array_ok : forall E n l, length l = n -> @array E n l = Fine l.
Proof. intros E n l H. unfold array. now rewrite H, Nat.eqb_refl. Qed.
Lemma slice_len : forall a b (l : bytes), (a <= b)%nat -> (b <= length l)%nat -> length (slice a b l) = (b - a)%nat.
Proof. intros a b l H1 H2. unfold slice. rewrite firstn_length, skipn_length. lia. Qed.
Lemma slice_app : forall a b (x y : bytes), (b <= length x)%nat -> slice a b (x ++ y) = slice a b x.
Proof.
  intros a b x y H. unfold slice. rewrite skipn_app, firstn_app, skipn_length.
  replace (b - a - (length x - a))%nat with 0%nat by lia. now rewrite firstn_O, app_nil_r.
Qed.
Lemma slice_firstn : forall a b n (x : bytes), (b <= n)%nat -> slice a b (firstn n x) = slice a b x.
Proof. intros a b n x H. unfold slice. rewrite skipn_firstn_comm, firstn_firstn. f_equal. lia. Qed.
Lemma slice_all : forall a (x y : bytes), length x = a -> slice a (a + length y) (x ++ y) = y.
Proof. intros a x y <-. unfold slice. rewrite skipn_app_exact. apply firstn_all2. lia. Qed.

Lemma cipher_eq : forall P secret sum data,
  xor_bytes data (skipn 0 (aes_ctr P (ci_key (build_cipher secret sum)) (ci_counter (build_cipher secret sum)) (0 + length data)))
  = apply_cipher P secret sum data.
Proof. reflexivity. Qed.

(** The same on values. *)
Definition plain (P : prims) (secret : bytes) (ds : nat) (bs : bytes) : option (option N * bytes) :=
  let sum := slice (ds - 32) ds bs in
  let data := apply_cipher P secret sum (skipn ds bs) in
  if bytes_eqb (packet_data_hash P None data) sum then Some (None, data) else None.
Definition value (P : prims) (secret : bytes) (ds : nat) (bs : bytes) : option (option N * bytes) :=
  if (ds + 4 <? length bs)%nat then
    match decode_version (ds + 4) bs with
    | Some v =>
      let sum := slice (ds + 4 - 32) (ds + 4) bs in
      let data := apply_cipher P secret sum (skipn (ds + 4) bs) in
      if bytes_eqb (packet_data_hash P (Some v) data) sum then Some (Some v, data) else plain P secret ds bs
    | None => plain P secret ds bs
    end
  else plain P secret ds bs.
Definition seen {E} (o : outcome E (option N * view)) : option (option (option N * bytes)) :=
  match o with Fine (x, u) => Some (Some (x, view_bytes u)) | Refuse _ => Some None | Fault => None end.

Lemma open_plain_ok : forall E P secret ds (bad : E) v, fits v -> (32 <= ds)%nat -> (ds <= v_len v)%nat ->
  seen (open_plain P secret ds bad v) = Some (plain P secret ds (view_bytes v)).
Proof.
  intros E P secret ds bad v Hf H32 Hds. pose proof (view_bytes_length v Hf) as Lv. unfold open_plain, plain. cbv zeta.
  rewrite index_ok by (assumption || lia). cbn [and_then]. set (bs := view_bytes v) in *.
  set (sum := slice (ds - 32) ds bs).
  assert (Hsum : length sum = 32%nat) by (unfold sum; rewrite slice_len; lia).
  rewrite array_ok by exact Hsum. cbn [and_then].
  destruct (keystream_ok E P (build_cipher secret sum) ds v Hf Hds) as (w & -> & Hfw & Lw & Bw). cbn [and_then snd].
  assert (Ln : (v_len v - ds)%nat = length (skipn ds bs)) by (rewrite skipn_length; lia).
  fold bs in Bw. rewrite Ln in Bw. change (ci_pos (build_cipher secret sum)) with 0%nat in Bw. rewrite cipher_eq in Bw.
  set (data := apply_cipher P secret sum (skipn ds bs)) in *.
  assert (Ldata : length data = (v_len v - ds)%nat) by (unfold data, apply_cipher; rewrite xor_length; lia).
  assert (Lf : length (firstn ds bs) = ds) by (rewrite firstn_length; lia).
  rewrite index_ok by (assumption || lia). cbn [and_then]. rewrite index_ok by (assumption || lia). cbn [and_then].
  rewrite Bw. rewrite (slice_app (ds - 32) ds) by lia. rewrite (slice_firstn (ds - 32) ds) by lia. fold sum.
  replace (v_len w) with (ds + length data)%nat by lia. rewrite slice_all by exact Lf.
  destruct (bytes_eqb (packet_data_hash P None data) sum); [|reflexivity].
  destruct (remove_prefix_ok E ds w Hfw) as (u & -> & Bu); [lia|]. cbn [and_then seen]. f_equal. f_equal. f_equal.
  rewrite Bu, Bw, <- Lf at 1. apply skipn_app_exact.
Qed.

Lemma decode_version_firstn : forall n bs, decode_version n (firstn n bs) = decode_version n bs.
Proof. intros n bs. unfold decode_version. now rewrite firstn_firstn, Nat.min_id. Qed.

Lemma open_packet_ok : forall E P secret ds (bad : E) v, fits v -> (32 <= ds)%nat -> (ds <= v_len v)%nat ->
  seen (open_packet P secret ds bad v) = Some (value P secret ds (view_bytes v)).
Proof.
  intros E P secret ds bad v Hf H32 Hds. pose proof (view_bytes_length v Hf) as Lv. unfold open_packet, value. cbv zeta.
  rewrite Lv. destruct (Nat.ltb_spec (ds + 4) (v_len v)) as [Hlt|_]; [|now apply open_plain_ok].
  rewrite index_ok by (assumption || lia). cbn [and_then]. set (bs := view_bytes v) in *.
  assert (E0 : slice 0 (ds + 4) bs = firstn (ds + 4) bs) by (unfold slice; rewrite Nat.sub_0_r; reflexivity).
  rewrite E0. rewrite array_ok by (rewrite firstn_length; lia). cbn [and_then]. rewrite decode_version_firstn.
  destruct (decode_version (ds + 4) bs) as [ver|] eqn:Ed; [|now apply open_plain_ok].
  rewrite index_ok by (assumption || lia). cbn [and_then]. fold bs. set (sum := slice (ds + 4 - 32) (ds + 4) bs).
  assert (Hsum : length sum = 32%nat) by (unfold sum; rewrite slice_len; lia).
  rewrite array_ok by exact Hsum. cbn [and_then].
  destruct (keystream_ok E P (build_cipher secret sum) (ds + 4) v Hf) as (w & -> & Hfw & Lw & Bw); [lia|]. cbn [and_then].
  assert (Ln : (v_len v - (ds + 4))%nat = length (skipn (ds + 4) bs)) by (rewrite skipn_length; lia).
  fold bs in Bw. rewrite Ln in Bw. change (ci_pos (build_cipher secret sum)) with 0%nat in Bw. rewrite cipher_eq in Bw.
  set (data := apply_cipher P secret sum (skipn (ds + 4) bs)) in *.
  assert (Ldata : length data = (v_len v - (ds + 4))%nat) by (unfold data, apply_cipher; rewrite xor_length; lia).
  assert (Lf : length (firstn (ds + 4) bs) = (ds + 4)%nat) by (rewrite firstn_length; lia).
  rewrite index_ok by (assumption || lia). cbn [and_then]. rewrite index_ok by (assumption || lia). cbn [and_then].
  rewrite Bw. rewrite (slice_app (ds + 4 - 32) (ds + 4)) by lia. rewrite (slice_firstn (ds + 4 - 32) (ds + 4)) by lia. fold sum.
  replace (v_len w) with (ds + 4 + length data)%nat by lia. rewrite slice_all by exact Lf.
  destruct (bytes_eqb (packet_data_hash P (Some ver) data) sum).
  - destruct (remove_prefix_ok E (ds + 4) w Hfw) as (u & -> & Bu); [lia|]. cbn [and_then seen]. f_equal. f_equal. f_equal.
    rewrite Bu, Bw, <- Lf at 1. apply skipn_app_exact.
  - set (ci := seek (seek (build_cipher secret sum) _) 0).
    destruct (keystream_ok E P ci (ds + 4) w Hfw) as (y & -> & Hfy & Ly & By); [lia|]. cbn [and_then snd].
    rewrite open_plain_ok by (assumption || lia). f_equal. f_equal. rewrite By, Bw.
    rewrite <- Lf at 1. rewrite firstn_app_exact. rewrite <- Lf at 2. rewrite skipn_app_exact.
    change (ci_pos ci) with 0%nat. change (ci_key ci) with (ci_key (build_cipher secret sum)).
    change (ci_counter ci) with (ci_counter (build_cipher secret sum)). rewrite Lw, Ln.
    unfold data at 1. rewrite <- cipher_eq. rewrite xor_twice. apply firstn_skipn.
Qed.

Lemma decrypt_value : forall P secret bs, (64 <= length bs)%nat ->
  match decrypt_with P secret bs with Ok x => Some x | Err _ => None end = value P secret 64 bs.
Proof.
  intros P secret bs H. unfold decrypt_with, value, plain. cbv zeta. destruct (Nat.ltb_spec (length bs) 64); [lia|].
  change (64 + 4)%nat with 68%nat. change (68 - 32)%nat with 36%nat. change (64 - 32)%nat with 32%nat.
  destruct (68 <? length bs)%nat; [|destruct (bytes_eqb _ _); reflexivity].
  destruct (decode_version 68 bs); [|destruct (bytes_eqb _ _); reflexivity].
  destruct (bytes_eqb _ _); [reflexivity|]. destruct (bytes_eqb _ _); reflexivity.
Qed.

Lemma view_of_fits : forall buffer, fits (view_of buffer).
Proof. intros b. unfold fits, view_of. cbn. lia. Qed.
Lemma view_of_bytes : forall buffer, view_bytes (view_of buffer) = buffer.
Proof. intros b. unfold view_bytes, view_of. cbn [v_len v_start v_memory skipn]. apply firstn_all. Qed.

Lemma slice_start : forall n (l : bytes), slice 0 n l = firstn n l.
Proof. intros n l. unfold slice. now rewrite Nat.sub_0_r. Qed.

Lemma opens_inside : forall P keys channels buffer,
  datagram_seen (open_datagram P keys channels buffer) = Some (datagram_of P keys channels buffer).
Proof.
  intros P keys channels buffer. pose proof (view_of_fits buffer) as Hf. pose proof (view_of_bytes buffer) as Hb.
  assert (Hl : v_len (view_of buffer) = length buffer) by reflexivity.
  unfold open_datagram, datagram_of, parse_in_place, parse_handshake. rewrite Hl.
  destruct (Nat.ltb_spec (length buffer) 96) as [_|H96]; [reflexivity|].
  rewrite index_ok by (assumption || lia). rewrite Hb, slice_start. cbn [and_then].
  destruct (keys (firstn 32 buffer)) as [local_secret|] eqn:Ek.
  - rewrite index_ok by (assumption || lia). rewrite Hb. cbn [and_then]. rewrite array_ok by (rewrite slice_len; lia).
    cbn [and_then]. destruct (negb (valid_pub P (slice 32 64 buffer))); [reflexivity|].
    set (secret := dh P local_secret (slice 32 64 buffer)).
    pose proof (open_packet_ok handshake_error P secret 96 BadPacketChecksum (view_of buffer) Hf) as Ho.
    rewrite Hb, Hl in Ho. specialize (Ho ltac:(lia) H96).
    unfold value, plain in Ho. cbv zeta in *. change (96 + 4)%nat with 100%nat in *. change (100 - 32)%nat with 68%nat in *.
    change (96 - 32)%nat with 64%nat in *.
    destruct (open_packet P secret 96 BadPacketChecksum (view_of buffer)) as [[ver u]|e|]; cbn [seen] in Ho; cbn [and_then fst snd datagram_seen]; [| |discriminate].
    + destruct (100 <? length buffer)%nat.
      * destruct (decode_version 100 buffer).
        -- destruct (bytes_eqb (packet_data_hash P (Some _) _) _); [now injection Ho as -> ->|].
           destruct (bytes_eqb _ _); [now injection Ho as -> ->|discriminate].
        -- destruct (bytes_eqb _ _); [now injection Ho as -> ->|discriminate].
      * destruct (bytes_eqb _ _); [now injection Ho as -> ->|discriminate].
    + destruct (100 <? length buffer)%nat.
      * destruct (decode_version 100 buffer).
        -- destruct (bytes_eqb (packet_data_hash P (Some _) _) _); [discriminate|].
           destruct (bytes_eqb _ _); [discriminate|reflexivity].
        -- destruct (bytes_eqb _ _); [discriminate|reflexivity].
      * destruct (bytes_eqb _ _); [discriminate|reflexivity].
  - rewrite index_ok by (assumption || lia). rewrite Hb, slice_start. cbn [and_then].
    destruct (channels (firstn 32 buffer)) as [secret|]; [|reflexivity].
    unfold decrypt_in_place. rewrite Hl. destruct (Nat.ltb_spec (length buffer) 64); [lia|].
    pose proof (open_packet_ok channel_error P secret 64 InvalidChecksum (view_of buffer) Hf) as Ho.
    rewrite Hb, Hl in Ho. specialize (Ho ltac:(lia) ltac:(lia)).
    rewrite <- decrypt_value in Ho by lia.
    destruct (open_packet P secret 64 InvalidChecksum (view_of buffer)) as [[ver u]|e|], (decrypt_with P secret buffer) as [[v d]|]; cbn [seen] in Ho; cbn [datagram_seen];
      try discriminate; [now injection Ho as -> ->|reflexivity].
Qed.

Lemma set_nth_length : forall A (l : list A) i x, length (set_nth i x l) = length l.
Proof. intros A l. induction l as [|a l IH]; intros [|i] x; cbn; auto. Qed.
Lemma nth_set_nth_other : forall (l : bytes) i j x, i <> j -> nth j (set_nth i x l) 0 = nth j l 0.
Proof.
  intros l. induction l as [|a l IH]; intros i j x H; [destruct i; reflexivity|].
  destruct i, j; cbn; try reflexivity; [contradiction|]. apply IH. lia.
Qed.

Lemma extract_agrees : forall s packet, ps_flags_offset s + 1 < 2 ^ 16 ->
  match extract_in_place s packet with
  | Fine (memory, n, sig) =>
      extract s packet = Some (firstn n memory, sig) /\ length memory = length packet /\ (n <= length memory)%nat
      /\ forall i, (i < N.to_nat (ps_start s))%nat -> i <> N.to_nat (ps_flags_offset s + 1) -> nth i memory 0 = nth i packet 0
  | Refuse _ => extract s packet = None
  | Fault => False
  end.
Proof.
  intros s packet Hfo. unfold extract_in_place, extract. cbv zeta.
  destruct (N.eqb_spec (ps_flags_offset s + 1) (2 ^ 16)) as [|_]; [lia|].
  set (len := N.of_nat (length packet) mod 2 ^ 16).
  assert (Hlen : len <= N.of_nat (length packet)) by (apply N.mod_le; discriminate).
  destruct ((ps_flags_offset s + 1 <? len) && (ps_start s <? ps_end s) && (ps_end s <? len)) eqn:E; [|reflexivity].
  apply andb_prop in E as [E E3]. apply andb_prop in E as [E1 E2]. apply N.ltb_lt in E1, E2, E3.
  destruct (Nat.leb_spec (length packet) (N.to_nat (ps_flags_offset s + 1))); [lia|].
  set (i0 := N.to_nat (ps_flags_offset s + 1)) in *. set (p1 := set_nth i0 _ packet).
  assert (Lp1 : length p1 = length packet) by apply set_nth_length.
  set (src := N.to_nat (ps_end s)). set (dst := N.to_nat (ps_start s)). set (rem := N.to_nat (len - ps_end s)).
  destruct (Nat.ltb_spec (length packet) (src + rem)); [lia|]. destruct (Nat.ltb_spec (length packet) (dst + rem)); [lia|]. cbn [orb].
  destruct (Nat.ltb_spec (length packet) (N.to_nat (ps_end s - ps_start s))); [lia|].
  assert (Ed : N.to_nat (ps_start s + (len - ps_end s)) = (dst + rem)%nat) by lia. rewrite Ed.
  split; [reflexivity|].
  assert (L2 : length (firstn dst p1 ++ firstn rem (skipn src p1) ++ skipn (dst + rem) p1) = length packet)
    by (rewrite !app_length, !firstn_length, !skipn_length; lia).
  split; [exact L2|]. split; [lia|]. intros i Hi Hne. rewrite app_nth1 by (rewrite firstn_length; lia).
  transitivity (nth i p1 0); [|apply nth_set_nth_other; lia].
  rewrite <- (firstn_skipn dst p1) at 2. rewrite app_nth1 by (rewrite firstn_length; lia). reflexivity.
Qed.

Lemma signature_in_place : forall packet q sg, bytes_ok packet = true -> N.of_nat (length packet) < 2 ^ 16 ->
  parse_packet packet = Some q -> ip_signature q = Some sg ->
  exists memory n, extract_in_place sg packet = Fine (memory, n, ps_signature sg)
    /\ length memory = length packet /\ (n <= length memory)%nat
    /\ parse_packet (firstn n memory) = Some (without_signature q)
    /\ forall i, (i < N.to_nat (ps_start sg))%nat -> i <> N.to_nat (ps_flags_offset sg + 1) -> nth i memory 0 = nth i packet 0.
Proof.
  intros packet q sg Hok Hlen Hq Hsg. destruct (signed_part packet q sg Hok Hlen Hq Hsg) as (m & Hm & Hp).
  assert (Hfo : ps_flags_offset sg + 1 < 2 ^ 16).
  { unfold extract in Hm. cbv zeta in Hm. rewrite (N.mod_small _ _ Hlen) in Hm.
    destruct (N.ltb_spec (ps_flags_offset sg + 1) (N.of_nat (length packet))); [lia|discriminate]. }
  pose proof (extract_agrees sg packet Hfo) as Ha. destruct (extract_in_place sg packet) as [[[memory n] sig]|u|].
  - destruct Ha as (He & Hl & Hn & Hi). rewrite Hm in He. injection He as -> <-. exists memory, n. auto.
  - rewrite Hm in Ha. discriminate.
  - contradiction.
Qed.
