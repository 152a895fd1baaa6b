(** Facts about affinities and buckets. *)
From Coq Require Import List NArith Arith Bool Lia Permutation.
From Coq Require Import ZifyBool ZifyNat ZifyN.
From Verif.Base Require Import Bytes BytesFacts.
From Verif.Model Require Import ProtoAdnl ProtoDht DhtBuckets.
From Verif.Spec Require Import DistanceSpec.
Import ListNotations.
Open Scope N_scope.

(** All bytes, by computation. *)
Definition all_bytes : list N := map N.of_nat (seq 0 256).
Lemma all_bytes_in : forall b, b < 256 -> In b all_bytes.
Proof.
  intros b H. unfold all_bytes. apply in_map_iff. exists (N.to_nat b). split; [lia|]. apply in_seq. lia.
Qed.
Lemma byte_cases : forall f : N -> bool, forallb f all_bytes = true -> forall b, b < 256 -> f b = true.
Proof. intros f H b Hb. rewrite forallb_forall in H. apply H, all_bytes_in, Hb. Qed.

Lemma leading_zeros_log2 : forall d, 0 < d -> d < 256 -> leading_zeros d = 7 - N.log2 d.
Proof.
  intros d H0 H. pose proof (byte_cases (fun d => (d =? 0) || (leading_zeros d =? 7 - N.log2 d))%bool) as C.
  specialize (C ltac:(vm_compute; reflexivity) d H). cbv beta in C. apply orb_true_iff in C as [C|C]; apply N.eqb_eq in C; [lia|exact C].
Qed.

(** Big-endian numbers. *)
Lemma of_le_app : forall a b, of_le (a ++ b) = of_le a + 256 ^ N.of_nat (length a) * of_le b.
Proof.
  induction a as [|x a IH]; intros b; cbn [app of_le length].
  - rewrite N.pow_0_r. lia.
  - rewrite IH, Nnat.Nat2N.inj_succ, N.pow_succ_r'. lia.
Qed.
Lemma of_be_cons : forall x l, of_be (x :: l) = x * 2 ^ (8 * N.of_nat (length l)) + of_be l.
Proof.
  intros x l. unfold of_be. cbn [rev]. rewrite of_le_app, rev_length. cbn [of_le].
  replace (2 ^ (8 * N.of_nat (length l))) with (256 ^ N.of_nat (length l)) by (rewrite N.pow_mul_r; reflexivity). lia.
Qed.
Lemma of_be_bound : forall l, bytes_ok l = true -> of_be l < 2 ^ (8 * N.of_nat (length l)).
Proof.
  intros l H. unfold of_be. pose proof (of_le_bound (rev l) (bytes_ok_rev l H)) as B. rewrite rev_length in B.
  now rewrite N.pow_mul_r.
Qed.

Lemma testbit_split : forall h l n i, l < 2 ^ n ->
  N.testbit (h * 2 ^ n + l) i = if i <? n then N.testbit l i else N.testbit h (i - n).
Proof.
  intros h l n i Hl. destruct (N.ltb_spec i n) as [Hi|Hi].
  - rewrite <- (N.mod_pow2_bits_low (h * 2 ^ n + l) n i) by exact Hi.
    rewrite N.add_comm, N.mod_add by (apply N.pow_nonzero; lia). now rewrite N.mod_small.
  - replace i with ((i - n) + n) at 1 by lia. rewrite <- N.div_pow2_bits.
    rewrite N.div_add_l by (apply N.pow_nonzero; lia). rewrite N.div_small by exact Hl. now rewrite N.add_0_r.
Qed.
Lemma lxor_split : forall h1 l1 h2 l2 n, l1 < 2 ^ n -> l2 < 2 ^ n ->
  N.lxor (h1 * 2 ^ n + l1) (h2 * 2 ^ n + l2) = N.lxor h1 h2 * 2 ^ n + N.lxor l1 l2.
Proof.
  intros h1 l1 h2 l2 n H1 H2. apply N.bits_inj. intros i. rewrite N.lxor_spec, !testbit_split by assumption.
  assert (Hx : N.lxor l1 l2 < 2 ^ n).
  { destruct (N.eq_dec (N.lxor l1 l2) 0) as [->|Hne]; [apply N.neq_0_lt_0, N.pow_nonzero; lia|].
    apply N.log2_lt_pow2; [lia|]. pose proof (N.log2_lxor l1 l2) as L.
    assert (Hl : forall x, x < 2 ^ n -> N.lxor l1 l2 <> 0 -> N.log2 x < n \/ x = 0).
    { intros x Hx _. destruct (N.eq_dec x 0); [now right|left]. apply N.log2_lt_pow2; [lia|exact Hx]. }
    destruct (Hl l1 H1 Hne) as [A| ->]; destruct (Hl l2 H2 Hne) as [B| ->].
    - lia.
    - rewrite N.lxor_0_r. exact A.
    - rewrite N.lxor_0_l. exact B.
    - now destruct Hne. }
  rewrite testbit_split by exact Hx. destruct (i <? n); now rewrite N.lxor_spec.
Qed.

Lemma distance_cons : forall x a y b, length a = length b -> bytes_ok a = true -> bytes_ok b = true ->
  xor_distance (x :: a) (y :: b) = N.lxor x y * 2 ^ (8 * N.of_nat (length a)) + xor_distance a b.
Proof.
  intros x a y b Hl Ha Hb. unfold xor_distance. rewrite !of_be_cons, <- Hl. apply lxor_split.
  - now apply of_be_bound.
  - rewrite Hl. now apply of_be_bound.
Qed.
Lemma distance_bound : forall a b, length a = length b -> bytes_ok a = true -> bytes_ok b = true ->
  xor_distance a b < 2 ^ (8 * N.of_nat (length a)).
Proof.
  induction a as [|x a IH]; intros [|y b] Hl Ha Hb; try discriminate; [reflexivity|].
  apply bytes_ok_cons in Ha as [Hx Ha]. apply bytes_ok_cons in Hb as [Hy Hb]. cbn in Hl. injection Hl as Hl.
  rewrite distance_cons by assumption. specialize (IH b Hl Ha Hb). pose proof (lxor_byte x y Hx Hy) as Hxy.
  cbn [length]. replace (8 * N.of_nat (S (length a))) with (8 + 8 * N.of_nat (length a)) by lia.
  rewrite N.pow_add_r. change (2 ^ 8) with 256. nia.
Qed.

Lemma log2_head : forall h n l, 0 < h -> l < 2 ^ n -> N.log2 (h * 2 ^ n + l) = N.log2 h + n.
Proof.
  intros h n l Hh Hl. apply N.log2_unique; [lia|]. destruct (N.log2_spec h Hh) as [S1 S2].
  rewrite N.pow_succ_r' in *. rewrite N.pow_add_r. nia.
Qed.

Lemma affinity_from_log2 : forall a b i, length a = length b -> bytes_ok a = true -> bytes_ok b = true ->
  i + N.of_nat (length a) = 32 ->
  affinity_from i a b = if xor_distance a b =? 0 then 255 else 255 - N.log2 (xor_distance a b).
Proof.
  induction a as [|x a IH]; intros [|y b] i Hl Ha Hb Hi; try discriminate; [reflexivity|].
  apply bytes_ok_cons in Ha as [Hx Ha]. apply bytes_ok_cons in Hb as [Hy Hb]. cbn in Hl. injection Hl as Hl.
  cbn [affinity_from]. rewrite distance_cons by assumption. pose proof (lxor_byte x y Hx Hy) as Hxy.
  pose proof (distance_bound a b Hl Ha Hb) as Hd. cbn [length] in Hi.
  destruct (N.eqb_spec (N.lxor x y) 0) as [Hz|Hz].
  - rewrite Hz, N.mul_0_l, N.add_0_l. apply IH; try assumption. lia.
  - replace (N.lxor x y * 2 ^ (8 * N.of_nat (length a)) + xor_distance a b =? 0) with false.
    2:{ symmetry. apply N.eqb_neq. assert (0 < 2 ^ (8 * N.of_nat (length a))) by (apply N.neq_0_lt_0, N.pow_nonzero; lia). nia. }
    rewrite log2_head by (try lia; assumption). rewrite leading_zeros_log2 by lia.
    assert (N.log2 (N.lxor x y) < 8) by (apply N.log2_lt_pow2; [lia|exact Hxy]).
    rewrite N.mod_small by lia. lia.
Qed.

Lemma affinity_log2 : forall a b, key_ok a -> key_ok b ->
  get_affinity a b = if xor_distance a b =? 0 then 255 else 255 - N.log2 (xor_distance a b).
Proof. intros a b [La Oa] [Lb Ob]. apply affinity_from_log2; try assumption; rewrite La; [now rewrite Lb|reflexivity]. Qed.

Lemma distance_256 : forall a b, key_ok a -> key_ok b -> xor_distance a b < 2 ^ 256.
Proof. intros a b [La Oa] [Lb Ob]. pose proof (distance_bound a b) as H. rewrite La in H. apply H; [now rewrite Lb|assumption..]. Qed.
Lemma distance_log2 : forall a b, key_ok a -> key_ok b -> xor_distance a b <> 0 -> N.log2 (xor_distance a b) < 256.
Proof. intros a b Ha Hb H. apply N.log2_lt_pow2; [lia|]. now apply distance_256. Qed.

Lemma of_be_inj : forall a b, key_ok a -> key_ok b -> of_be a = of_be b -> a = b.
Proof.
  intros a b [La Oa] [Lb Ob] H. rewrite <- (be_bytes_of_be a Oa), <- (be_bytes_of_be b Ob), La, Lb. now f_equal.
Qed.
Lemma distance_zero : forall a b, key_ok a -> key_ok b -> (xor_distance a b = 0 <-> a = b).
Proof.
  intros a b Ha Hb. unfold xor_distance. split.
  - intros H. apply N.lxor_eq in H. now apply of_be_inj.
  - intros ->. apply N.lxor_nilpotent.
Qed.

(** ** C40 *)
Theorem affinity_bound : forall a b, key_ok a -> key_ok b -> get_affinity a b < 256.
Proof. intros a b Ha Hb. rewrite affinity_log2 by assumption. destruct (_ =? 0); lia. Qed.

Theorem affinity_symmetric : forall a b, key_ok a -> key_ok b -> get_affinity a b = get_affinity b a.
Proof.
  intros a b Ha Hb. rewrite !affinity_log2 by assumption. unfold xor_distance. now rewrite N.lxor_comm.
Qed.

Theorem affinity_prefix : forall a b, key_ok a -> key_ok b -> a <> b -> common_prefix a b (get_affinity a b).
Proof.
  intros a b Ha Hb Hne. rewrite affinity_log2 by assumption.
  assert (Hd : xor_distance a b <> 0) by (intros H; apply distance_zero in H; auto).
  destruct (N.eqb_spec (xor_distance a b) 0) as [|_]; [contradiction|].
  pose proof (distance_log2 a b Ha Hb Hd) as Hl. unfold common_prefix, key_bit. split; [lia|]. split.
  - intros i Hi. assert (Hb2 : N.testbit (xor_distance a b) (255 - i) = false) by (apply N.bits_above_log2; lia).
    unfold xor_distance in Hb2. rewrite N.lxor_spec in Hb2. now destruct (N.testbit (of_be a) _), (N.testbit (of_be b) _).
  - pose proof (N.bit_log2 _ Hd) as Hb2. unfold xor_distance in Hb2 at 1. rewrite N.lxor_spec in Hb2.
    replace (255 - (255 - N.log2 (xor_distance a b))) with (N.log2 (xor_distance a b)) by lia.
    intros E. rewrite E, xorb_nilpotent in Hb2. discriminate.
Qed.
Theorem affinity_same : forall a, key_ok a -> get_affinity a a = 255.
Proof. intros a Ha. rewrite affinity_log2 by assumption. unfold xor_distance. now rewrite N.lxor_nilpotent. Qed.

Theorem affinity_closer : forall a b c, key_ok a -> key_ok b -> key_ok c ->
  get_affinity a c < get_affinity a b -> xor_distance a b < xor_distance a c.
Proof.
  intros a b c Ha Hb Hc. rewrite !affinity_log2 by assumption.
  destruct (N.eqb_spec (xor_distance a c) 0) as [Z1|Z1]; destruct (N.eqb_spec (xor_distance a b) 0) as [Z2|Z2]; try lia.
  intros H. apply N.log2_lt_cancel. pose proof (distance_log2 a b Ha Hb Z2). lia.
Qed.

(** ** The buckets visited by [find] *)
Definition set_bits (d : N) : list N := filter (fun j => N.testbit d (7 - j)) (map N.of_nat (seq 0 8)).
Lemma visit_byte_shift : forall d, d < 256 -> visit_byte 9 0 d = set_bits d.
Proof.
  intros d H. pose proof (byte_cases (fun d => if list_eq_dec N.eq_dec (visit_byte 9 0 d) (set_bits d) then true else false)) as C.
  specialize (C ltac:(vm_compute; reflexivity) d H). cbv beta in C. now destruct (list_eq_dec _ _ _).
Qed.

Lemma visit_byte_offset : forall f b c d, b <= 248 -> c <= 8 -> d < 256 -> d mod 2 ^ c = 0 ->
  visit_byte f (b + c) d = map (N.add b) (visit_byte f c d).
Proof.
  induction f as [|f IH]; intros b c d Hb Hc Hd Hm; [reflexivity|]. cbn [visit_byte].
  destruct (N.eqb_spec d 0) as [Hz|Hz]; [reflexivity|]. cbv zeta.
  assert (Hlog : c <= N.log2 d).
  { apply N.log2_le_pow2; [lia|]. apply N.mod_divide in Hm; [|apply N.pow_nonzero; lia].
    apply N.divide_pos_le in Hm; [exact Hm|lia]. }
  assert (Hlog2 : N.log2 d < 8) by (apply N.log2_lt_pow2; [lia|exact Hd]).
  pose proof (leading_zeros_log2 d ltac:(lia) Hd) as Hlz. set (e := leading_zeros d) in *.
  rewrite (N.mod_small (b + c + e)), (N.mod_small (c + e)) by lia. cbn [map]. f_equal; [lia|].
  destruct (N.ltb_spec e 7) as [He|He]; [|reflexivity].
  set (d' := (d * 2 ^ (e + 1)) mod 256).
  assert (Hd' : d' < 256) by (apply N.mod_lt; lia).
  assert (Hm' : d' mod 2 ^ (c + e + 1) = 0).
  { unfold d'. apply N.mod_divide in Hm as [q Hq]; [|apply N.pow_nonzero; lia]. rewrite Hq.
    replace (q * 2 ^ c * 2 ^ (e + 1)) with (q * 2 ^ (c + e + 1)) by (rewrite <- N.mul_assoc, <- N.pow_add_r, <- N.add_assoc; reflexivity).
    assert (E : 256 = 2 ^ (8 - (c + e + 1)) * 2 ^ (c + e + 1))
      by (rewrite <- N.pow_add_r; replace (8 - (c + e + 1) + (c + e + 1)) with 8 by lia; reflexivity).
    rewrite E.
    rewrite N.mul_mod_distr_r by (apply N.pow_nonzero; lia). apply N.mod_mul. apply N.pow_nonzero; lia. }
  destruct (N.eq_dec (c + e) 7) as [H7|H7].
  - assert (Hz' : d' = 0).
    { replace (c + e + 1) with 8 in Hm' by lia. change (2 ^ 8) with 256 in Hm'. rewrite N.mod_small in Hm' by exact Hd'. exact Hm'. }
    rewrite Hz'. destruct f; reflexivity.
  - rewrite !N.min_r by lia. replace (b + c + e + 1) with (b + (c + e + 1)) by lia. apply IH; try assumption; lia.
Qed.

Lemma visit_byte_bits : forall b d, b <= 248 -> d < 256 -> visit_byte 9 b d = map (N.add b) (set_bits d).
Proof.
  intros b d Hb Hd. rewrite <- visit_byte_shift by exact Hd. replace b with (b + 0) at 1 by lia.
  apply visit_byte_offset; try assumption; [lia|]. rewrite N.pow_0_r. apply N.mod_1_r.
Qed.

(** [visits] lists the positions of the bits that differ, from the most significant one. *)
Definition differ (a b : bytes) : list N :=
  filter (fun j => N.testbit (xor_distance a b) (255 - j)) (map N.of_nat (seq 0 256)).

Definition differ_from (i : N) (n : nat) (d : N) : list N :=
  map (N.add (i * 8)) (filter (fun j => N.testbit d (8 * N.of_nat n - 1 - j)) (map N.of_nat (seq 0 (8 * n)))).

Lemma filter_map : forall A B (f : A -> B) p l, filter p (map f l) = map f (filter (fun x => p (f x)) l).
Proof. induction l as [|x l IH]; cbn; [reflexivity|]. destruct (p (f x)); cbn; now rewrite IH. Qed.
Lemma filter_ext_in : forall A (p q : A -> bool) l, (forall x, In x l -> p x = q x) -> filter p l = filter q l.
Proof. intros A p q l. induction l as [|x l IH]; intros H; [reflexivity|]. cbn. rewrite (H x) by now left. rewrite IH; [reflexivity|]. intros; apply H; now right. Qed.

Lemma seq_offset : forall n k s, map (Nat.add k) (seq s n) = seq (s + k) n.
Proof. induction n as [|n IH]; intros k s; cbn; [reflexivity|]. rewrite IH. cbn. f_equal. lia. Qed.

Lemma visits_from : forall a b i, length a = length b -> bytes_ok a = true -> bytes_ok b = true ->
  i + N.of_nat (length a) = 32 -> visits i a b = differ_from i (length a) (xor_distance a b).
Proof.
  induction a as [|x a IH]; intros [|y b] i Hl Ha Hb Hi; try discriminate; [reflexivity|].
  apply bytes_ok_cons in Ha as [Hx Ha]. apply bytes_ok_cons in Hb as [Hy Hb]. cbn in Hl. injection Hl as Hl.
  cbn [visits]. rewrite distance_cons by assumption. pose proof (lxor_byte x y Hx Hy) as Hxy.
  pose proof (distance_bound a b Hl Ha Hb) as Hd. cbn [length] in *.
  rewrite IH by (try assumption; lia). rewrite N.mod_small by lia. rewrite visit_byte_bits by lia.
  set (h := N.lxor x y) in *. set (l := xor_distance a b) in *. set (n := length a) in *. unfold differ_from.
  replace (8 * S n)%nat with (8 + 8 * n)%nat by lia. rewrite seq_app, map_app, filter_app, map_app. f_equal.
  - unfold set_bits. f_equal. apply filter_ext_in. intros j Hj. apply in_map_iff in Hj as (m & <- & Hm). apply in_seq in Hm.
    rewrite testbit_split by exact Hd. destruct (N.ltb_spec (8 * N.of_nat (S n) - 1 - N.of_nat m) (8 * N.of_nat n)); [lia|]. f_equal. lia.
  - replace (seq (0 + 8) (8 * n)) with (map (Nat.add 8) (seq 0 (8 * n))) by apply seq_offset.
    rewrite map_map, !filter_map, !map_map. symmetry. rewrite (filter_ext_in _ _ (fun m => N.testbit l (8 * N.of_nat n - 1 - N.of_nat m))).
    + apply map_ext. intros m. lia.
    + intros m Hm. apply in_seq in Hm. rewrite testbit_split by exact Hd.
      destruct (N.ltb_spec (8 * N.of_nat (S n) - 1 - N.of_nat (8 + m)) (8 * N.of_nat n)); [|lia]. f_equal. lia.
Qed.

Theorem visits_differ : forall a b, key_ok a -> key_ok b -> visits 0 a b = differ a b.
Proof.
  intros a b [La Oa] [Lb Ob]. rewrite visits_from; try assumption; [|now rewrite Lb|now rewrite La].
  unfold differ_from, differ. rewrite La. rewrite (map_ext _ (fun x => x)) by (intros; lia). rewrite map_id. reflexivity.
Qed.

(** Positions, sorted. *)
Lemma visits_spec : forall a b j, key_ok a -> key_ok b ->
  (In j (visits 0 a b) <-> j < 256 /\ N.testbit (xor_distance a b) (255 - j) = true).
Proof.
  intros a b j Ha Hb. rewrite visits_differ by assumption. unfold differ. rewrite filter_In, in_map_iff. split.
  - intros [(m & <- & Hm) H]. apply in_seq in Hm. split; [lia|exact H].
  - intros [H1 H2]. split; [|exact H2]. exists (N.to_nat j). split; [lia|]. apply in_seq. lia.
Qed.

Inductive increasing : list N -> Prop :=
| inc_nil : increasing []
| inc_cons : forall x l, (forall y, In y l -> x < y) -> increasing l -> increasing (x :: l).
Lemma increasing_filter : forall p l, increasing l -> increasing (filter p l).
Proof.
  induction 1 as [|x l Hx Hl IH]; cbn; [constructor|]. destruct (p x); [|exact IH]. constructor; [|exact IH].
  intros y Hy. apply Hx. now apply filter_In in Hy.
Qed.
Lemma increasing_seq : forall n s, increasing (map N.of_nat (seq s n)).
Proof.
  induction n as [|n IH]; intros s; cbn; [constructor|]. constructor; [|apply IH].
  intros y Hy. apply in_map_iff in Hy as (m & <- & Hm). apply in_seq in Hm. lia.
Qed.
Lemma visits_increasing : forall a b, key_ok a -> key_ok b -> increasing (visits 0 a b).
Proof. intros a b Ha Hb. rewrite visits_differ by assumption. apply increasing_filter, increasing_seq. Qed.

(** ** Numbers that first differ at a bit *)
Lemma lt_by_bit : forall a b p, (forall i, p < i -> N.testbit a i = N.testbit b i) ->
  N.testbit a p = false -> N.testbit b p = true -> a < b.
Proof.
  intros a b p Hi Ha Hb.
  assert (Hh : a / 2 ^ (p + 1) = b / 2 ^ (p + 1)).
  { apply N.bits_inj. intros i. rewrite !N.div_pow2_bits. apply Hi. lia. }
  assert (Hs : forall x, x / 2 ^ p = 2 * (x / 2 ^ (p + 1)) + N.b2n (N.testbit x p)).
  { intros x. rewrite N.pow_add_r, N.pow_1_r, <- N.div_div by (try apply N.pow_nonzero; lia).
    rewrite N.testbit_spec' by idtac. rewrite (N.div_mod (x / 2 ^ p) 2) at 1 by lia. reflexivity. }
  pose proof (Hs a) as Sa. pose proof (Hs b) as Sb. rewrite Ha in Sa. rewrite Hb in Sb. cbn [N.b2n] in *. rewrite Hh in Sa.
  destruct (N.le_gt_cases b a) as [Hle|]; [|assumption].
  pose proof (N.div_le_mono b a (2 ^ p) ltac:(apply N.pow_nonzero; lia) Hle). lia.
Qed.

(** Distances to a key of a peer whose affinity with the local key is known. *)
Lemma distance_bits : forall local peer key i,
  N.testbit (xor_distance peer key) i = xorb (N.testbit (xor_distance local peer) i) (N.testbit (xor_distance local key) i).
Proof.
  intros. unfold xor_distance. rewrite !N.lxor_spec.
  destruct (N.testbit (of_be local) i), (N.testbit (of_be peer) i), (N.testbit (of_be key) i); reflexivity.
Qed.

Lemma peer_bits : forall local peer, key_ok local -> key_ok peer -> peer <> local ->
  let p := 255 - get_affinity local peer in
  (forall i, p < i -> N.testbit (xor_distance local peer) i = false) /\ N.testbit (xor_distance local peer) p = true.
Proof.
  intros local peer Hl Hp Hne p. assert (Hd : xor_distance local peer <> 0) by (intros H; apply distance_zero in H; auto).
  assert (Hpp : p = N.log2 (xor_distance local peer)).
  { unfold p. rewrite affinity_log2 by assumption. destruct (N.eqb_spec (xor_distance local peer) 0); [contradiction|].
    pose proof (distance_log2 local peer Hl Hp Hd). lia. }
  rewrite Hpp. split; [intros i Hi; now apply N.bits_above_log2|now apply N.bit_log2].
Qed.

(** A peer in a visited bucket is closer to the key than the local node. *)
Lemma visited_closer : forall local peer key, key_ok local -> key_ok peer -> key_ok key -> peer <> local ->
  In (get_affinity local peer) (visits 0 local key) -> xor_distance peer key < xor_distance local key.
Proof.
  intros local peer key Hl Hp Hk Hne Hv. apply visits_spec in Hv as [_ Hv]; [|assumption..].
  destruct (peer_bits local peer Hl Hp Hne) as [B1 B2]. apply (lt_by_bit _ _ (255 - get_affinity local peer)).
  - intros i Hi. rewrite (distance_bits local peer key), B1 by exact Hi. now destruct (N.testbit (xor_distance local key) i).
  - rewrite (distance_bits local peer key), B2, Hv. reflexivity.
  - exact Hv.
Qed.
(** A peer in another bucket is not. *)
Lemma unvisited_farther : forall local peer key, key_ok local -> key_ok peer -> key_ok key -> peer <> local ->
  ~ In (get_affinity local peer) (visits 0 local key) -> xor_distance local key < xor_distance peer key.
Proof.
  intros local peer key Hl Hp Hk Hne Hv.
  assert (Hb : N.testbit (xor_distance local key) (255 - get_affinity local peer) = false).
  { destruct (N.testbit _ _) eqn:E; [|reflexivity]. destruct Hv. apply visits_spec; [assumption..|]. split; [now apply affinity_bound|exact E]. }
  destruct (peer_bits local peer Hl Hp Hne) as [B1 B2]. apply (lt_by_bit _ _ (255 - get_affinity local peer)).
  - intros i Hi. rewrite (distance_bits local peer key), B1 by exact Hi. now destruct (N.testbit (xor_distance local key) i).
  - exact Hb.
  - rewrite (distance_bits local peer key), B2, Hb. reflexivity.
Qed.
(** Peers in earlier visited buckets are closer than peers in later ones. *)
Lemma earlier_closer : forall local x y key, key_ok local -> key_ok x -> key_ok y -> key_ok key -> x <> local -> y <> local ->
  In (get_affinity local x) (visits 0 local key) -> In (get_affinity local y) (visits 0 local key) ->
  get_affinity local x < get_affinity local y -> xor_distance x key < xor_distance y key.
Proof.
  intros local x y key Hl Hx Hy Hk Nx Ny Vx Vy Hlt. apply visits_spec in Vx as [_ Vx]; [|assumption..].
  destruct (peer_bits local x Hl Hx Nx) as [B1 B2]. destruct (peer_bits local y Hl Hy Ny) as [C1 C2].
  pose proof (affinity_bound local y Hl Hy).
  apply (lt_by_bit _ _ (255 - get_affinity local x)).
  - intros i Hi. rewrite (distance_bits local x key), (distance_bits local y key), B1, C1 by lia. reflexivity.
  - rewrite (distance_bits local x key), B2, Vx. reflexivity.
  - rewrite (distance_bits local y key), C1, Vx by lia. reflexivity.
Qed.

(** ** Tables *)
Section Table.
  Variable peer_id : dht_node -> bytes.

  Definition bucket_ok (local : bytes) (i : nat) (b : bucket) : Prop :=
    NoDup (map fst b) /\ (forall id n, In (id, n) b -> id = peer_id n /\ get_affinity local id = N.of_nat i).
  Definition table_ok (local : bytes) (b : buckets) : Prop :=
    bk_local b = local /\ length (bk_buckets b) = 256%nat
    /\ forall i l, nth_error (bk_buckets b) i = Some l -> bucket_ok local i l.

  Lemma bucket_insert_in : forall b id n i m, In (i, m) (bucket_insert b id n) ->
    In (i, m) b \/ (i = id /\ m = n).
  Proof.
    induction b as [|[j x] b IH]; intros id n i m; cbn [bucket_insert].
    - intros [[= <- <-]|[]]. now right.
    - destruct (bytes_eqb j id) eqn:E.
      + apply bytes_eqb_eq in E. subst j. intros [[= <- <-]|H]; [|left; now right].
        destruct (dn_version x <? dn_version n); [now right|left; now left].
      + intros [[= <- <-]|H]; [left; now left|]. destruct (IH _ _ _ _ H); [left; now right|now right].
  Qed.
  Lemma bucket_insert_keys : forall b id n i, In i (map fst (bucket_insert b id n)) <-> In i (map fst b) \/ i = id.
  Proof.
    induction b as [|[j x] b IH]; intros id n i; cbn [bucket_insert].
    - cbn. intuition congruence.
    - destruct (bytes_eqb j id) eqn:E; cbn.
      + apply bytes_eqb_eq in E. subst j. intuition congruence.
      + rewrite IH. tauto.
  Qed.
  Lemma bucket_insert_nodup : forall b id n, NoDup (map fst b) -> NoDup (map fst (bucket_insert b id n)).
  Proof.
    induction b as [|[j x] b IH]; intros id n H; cbn [bucket_insert].
    - constructor; [easy|constructor].
    - cbn in H. apply NoDup_cons_iff in H as [H1 H2]. destruct (bytes_eqb j id) eqn:E; cbn; apply NoDup_cons_iff.
      + auto.
      + split; [|now apply IH]. rewrite bucket_insert_keys. apply bytes_eqb_neq in E. intros [?|?]; [contradiction|congruence].
  Qed.
  Lemma bucket_insert_newest : forall b id n m, In (id, m) b \/ m = n ->
    exists x, In (id, x) (bucket_insert b id n) /\ dn_version m <= dn_version x.
  Proof.
    induction b as [|[j y] b IH]; intros id n m; cbn [bucket_insert].
    - intros [[]| ->]. exists n. split; [now left|lia].
    - destruct (bytes_eqb j id) eqn:E.
      + apply bytes_eqb_eq in E. subst j. intros H.
        destruct (N.ltb_spec (dn_version y) (dn_version n)) as [Hv|Hv].
        * destruct H as [[[= ->]|H]| ->]; [exists n|exists m|exists n]; cbn; (split; [auto|lia]).
        * destruct H as [[[= ->]|H]| ->]; [exists m|exists m|exists y]; cbn; (split; [auto|lia]).
      + apply bytes_eqb_neq in E. intros H. assert (H' : In (id, m) b \/ m = n) by (destruct H as [[[= ? ?]|?]|?]; [contradiction|auto|auto]).
        destruct (IH id n m H') as (x & Hx & Hv). exists x. cbn. auto.
  Qed.
  Lemma bucket_insert_keeps : forall b id n i m, i <> id -> In (i, m) b -> In (i, m) (bucket_insert b id n).
  Proof.
    induction b as [|[j y] b IH]; intros id n i m Hne; cbn [bucket_insert]; [easy|].
    destruct (bytes_eqb j id) eqn:E; intros [[= <- <-]|H].
    - apply bytes_eqb_eq in E. congruence.
    - now right.
    - now left.
    - right. now apply IH.
  Qed.

  Lemma insert_ok : forall local b n, key_ok local -> key_ok (peer_id n) -> table_ok local b ->
    table_ok local (buckets_insert b (peer_id n) n).
  Proof.
    intros local b n Hl Hn (H1 & H2 & H3). unfold buckets_insert. split; [exact H1|]. cbn [bk_buckets].
    split; [now rewrite set_nth_length|]. rewrite H1. set (a := N.to_nat (get_affinity local (peer_id n))).
    assert (Ha : (a < 256)%nat) by (pose proof (affinity_bound local (peer_id n) Hl Hn); lia).
    intros i l. destruct (Nat.eq_dec a i) as [<-|Hne].
    - rewrite nth_error_set_nth_eq by lia. intros [= <-].
      destruct (nth_error (bk_buckets b) a) as [l0|] eqn:E; [|apply nth_error_None in E; lia].
      rewrite (nth_error_nth _ _ _ E). destruct (H3 _ _ E) as [N1 N2]. split; [now apply bucket_insert_nodup|].
      intros id m Hm. apply bucket_insert_in in Hm as [Hm|[-> ->]]; [now apply N2|]. split; [reflexivity|]. unfold a. lia.
    - rewrite nth_error_set_nth_neq by auto. apply H3.
  Qed.

  Lemma new_ok : forall local, table_ok local (new_buckets local).
  Proof.
    intros local. split; [reflexivity|]. split; [apply repeat_length|]. intros i l H. apply nth_error_In in H. apply repeat_spec in H. subst.
    split; [constructor|easy].
  Qed.

  Lemma fold_ok : forall local nodes b, key_ok local -> (forall n, In n nodes -> key_ok (peer_id n)) -> table_ok local b ->
    table_ok local (fold_left (fun b n => buckets_insert b (peer_id n) n) nodes b).
  Proof.
    intros local nodes. induction nodes as [|n nodes IH]; intros b Hl Hn Hb; [exact Hb|]. cbn [fold_left].
    apply IH; [exact Hl| |apply insert_ok; [exact Hl|apply Hn; now left|exact Hb]]. intros m Hm. apply Hn. now right.
  Qed.
  Lemma table_is_ok : forall local nodes, key_ok local -> (forall n, In n nodes -> key_ok (peer_id n)) ->
    table_ok local (table peer_id local nodes).
  Proof. intros. apply fold_ok; [assumption..|apply new_ok]. Qed.

  Lemma set_nth_in : forall A (l : list A) i v x, In x (set_nth i v l) -> In x l \/ x = v.
  Proof.
    induction l as [|y l IH]; intros [|i] v x; cbn; auto.
    - intros [<-|H]; auto.
    - intros [<-|H]; auto. destruct (IH _ _ _ H); auto.
  Qed.
  Lemma nth_in_or_nil : forall A (l : list (list A)) i x, In x (nth i l []) -> exists b, In b l /\ In x b.
  Proof.
    intros A l i x H. destruct (nth_in_or_default i l []) as [H1|H1]; [eauto|]. rewrite H1 in H. destruct H.
  Qed.

  Lemma known_inserted_from : forall local nodes b, bk_local b = local ->
    forall m, In m (known_nodes (fold_left (fun b n => buckets_insert b (peer_id n) n) nodes b)) ->
    In m (known_nodes b) \/ In m nodes.
  Proof.
    intros local nodes. induction nodes as [|n nodes IH]; intros b Hl m Hm; [now left|]. cbn [fold_left] in Hm.
    apply IH in Hm as [Hm|Hm]; [|right; now right|exact Hl]. unfold known_nodes in *. apply in_map_iff in Hm as ([i x] & <- & Hm).
    apply in_concat in Hm as (l & Hlin & Hm). unfold buckets_insert in Hlin. cbn [bk_buckets] in Hlin.
    apply set_nth_in in Hlin as [Hlin| ->].
    - left. apply in_map_iff. exists (i, x). split; [reflexivity|]. apply in_concat. eauto.
    - apply bucket_insert_in in Hm as [Hm|[-> ->]]; [|right; now left]. left. apply in_map_iff. exists (i, x). split; [reflexivity|].
      apply in_concat. now apply nth_in_or_nil in Hm.
  Qed.

  (** The table knows exactly the inserted ids, each by a newest record. *)
  Theorem known_inserted : forall local nodes m, In m (known_nodes (table peer_id local nodes)) -> In m nodes.
  Proof.
    intros local nodes m H. unfold table in H. apply (known_inserted_from local) in H; [|reflexivity].
    destruct H as [H|H]; [|exact H]. unfold known_nodes in H. apply in_map_iff in H as (x & _ & H). apply in_concat in H as (l & H1 & H2).
    apply repeat_spec in H1. subst. destruct H2.
  Qed.

  Lemma known_in_bucket : forall local b m, table_ok local b ->
    (In m (known_nodes b) <-> In (peer_id m, m) (nth (N.to_nat (get_affinity local (peer_id m))) (bk_buckets b) [])).
  Proof.
    intros local b m (H1 & H2 & H3). unfold known_nodes. split.
    - intros H. apply in_map_iff in H as ([i x] & <- & H). cbn. apply in_concat in H as (l & Hl & Hx).
      apply In_nth_error in Hl as (j & Hj). destruct (H3 _ _ Hj) as [_ N2]. destruct (N2 _ _ Hx) as [-> Ha]. rewrite Ha, Nnat.Nat2N.id.
      now rewrite (nth_error_nth _ _ _ Hj).
    - intros H. apply in_map_iff. exists (peer_id m, m). split; [reflexivity|]. apply in_concat. now apply nth_in_or_nil in H.
  Qed.

  Lemma newest_from : forall local nodes b, key_ok local -> (forall n, In n nodes -> key_ok (peer_id n)) -> table_ok local b ->
    forall m, In m (known_nodes b) \/ In m nodes ->
    exists x, In x (known_nodes (fold_left (fun b n => buckets_insert b (peer_id n) n) nodes b))
      /\ peer_id x = peer_id m /\ dn_version m <= dn_version x.
  Proof.
    intros local nodes. induction nodes as [|n nodes IH]; intros b Hl Hn Hb m Hm.
    - destruct Hm as [Hm|[]]. exists m. cbn. split; [exact Hm|]. split; [reflexivity|lia].
    - cbn [fold_left]. assert (Hb' := insert_ok local b n Hl (Hn n (or_introl eq_refl)) Hb).
      assert (Hc : (In m (known_nodes b) \/ m = n) \/ In m nodes) by (destruct Hm as [?|[?|?]]; auto).
      assert (Hn' : forall n0, In n0 nodes -> key_ok (peer_id n0)) by (intros; apply Hn; now right).
      destruct Hc as [Hc|Hc]; [|apply (IH _ Hl Hn' Hb'); auto].
      assert (Hstep : exists y, In y (known_nodes (buckets_insert b (peer_id n) n)) /\ peer_id y = peer_id m /\ dn_version m <= dn_version y).
      { destruct Hb as (H1 & H2 & H3).
        pose proof (affinity_bound local (peer_id n) Hl (Hn n (or_introl eq_refl))) as Hbound.
        destruct (list_eq_dec N.eq_dec (peer_id m) (peer_id n)) as [E|E].
        - destruct (bucket_insert_newest (nth (N.to_nat (get_affinity local (peer_id n))) (bk_buckets b) []) (peer_id n) n m) as (y & Hy & Hv).
          { destruct Hc as [Hc|Hc]; [left|now right]. apply (known_in_bucket local) in Hc; [|now split]. rewrite E in Hc. exact Hc. }
          assert (Hin : In (bucket_insert (nth (N.to_nat (get_affinity local (peer_id n))) (bk_buckets b) []) (peer_id n) n)
                          (bk_buckets (buckets_insert b (peer_id n) n))).
          { unfold buckets_insert. cbn [bk_buckets]. rewrite H1. eapply nth_error_In. apply nth_error_set_nth_eq. lia. }
          exists y. split; [|split; [|exact Hv]].
          + unfold known_nodes. apply in_map_iff. exists (peer_id n, y). split; [reflexivity|]. apply in_concat. eauto.
          + destruct Hb' as (_ & _ & H3'). apply In_nth_error in Hin as (j & Hj). destruct (H3' _ _ Hj) as [_ N2]. destruct (N2 _ _ Hy). congruence.
        - destruct Hc as [Hc| ->]; [|congruence]. exists m. split; [|split; [reflexivity|lia]].
          pose proof Hc as Hc'. apply (known_in_bucket local) in Hc'; [|now split].
          set (a := N.to_nat (get_affinity local (peer_id m))) in *.
          apply (known_in_bucket local); [exact Hb'|]. fold a. unfold buckets_insert. cbn [bk_buckets]. rewrite H1.
          set (c := N.to_nat (get_affinity local (peer_id n))). destruct (Nat.eq_dec c a) as [Eca|Eca].
          + rewrite <- Eca. erewrite nth_error_nth by (apply nth_error_set_nth_eq; unfold c; lia).
            apply bucket_insert_keeps; [exact E|]. now rewrite Eca.
          + destruct (nth_error (bk_buckets b) a) as [l|] eqn:El.
            * rewrite (nth_error_nth _ _ _ El) in Hc'. erewrite nth_error_nth; [exact Hc'|].
              rewrite nth_error_set_nth_neq by auto. exact El.
            * apply nth_error_None in El. rewrite nth_overflow in Hc' by exact El. destruct Hc'. }
      destruct Hstep as (y & Hy & Hyi & Hyv). destruct (IH _ Hl Hn' Hb' y (or_introl Hy)) as (x & Hx & Hxi & Hxv).
      exists x. split; [exact Hx|]. split; [congruence|lia].
  Qed.
  Theorem known_newest : forall local nodes m, key_ok local -> (forall n, In n nodes -> key_ok (peer_id n)) -> In m nodes ->
    exists x, In x (known_nodes (table peer_id local nodes)) /\ peer_id x = peer_id m /\ dn_version m <= dn_version x.
  Proof. intros local nodes m Hl Hn Hm. apply (newest_from local); [assumption..|apply new_ok|now right]. Qed.

  (** ** Answers *)
  Variable order : bucket -> bucket.
  Hypothesis order_ok : forall b, Permutation (order b) b.
  Variable local key : bytes.
  Variable b : buckets.
  Hypothesis Hlocal : key_ok local.
  Hypothesis Hkey : key_ok key.
  Hypothesis Hb : table_ok local b.
  Hypothesis Hids : forall n, In n (known_nodes b) -> key_ok (peer_id n) /\ peer_id n <> local.

  Definition candidates (ds : list N) : list dht_node :=
    flat_map (fun d => map snd (order (nth (N.to_nat d) (bk_buckets b) []))) ds.
  Lemma in_bucket : forall d n, d < 256 ->
    (In n (map snd (order (nth (N.to_nat d) (bk_buckets b) []))) <-> In n (known_nodes b) /\ get_affinity local (peer_id n) = d).
  Proof.
    intros d n Hd. rewrite in_map_iff. split.
    - intros ([i x] & <- & Hx). apply (Permutation_in _ (order_ok _)) in Hx. cbn.
      destruct Hb as (H1 & H2 & H3). destruct (nth_error (bk_buckets b) (N.to_nat d)) as [l|] eqn:E; [|apply nth_error_None in E; lia].
      rewrite (nth_error_nth _ _ _ E) in Hx. destruct (H3 _ _ E) as [_ N2]. destruct (N2 _ _ Hx) as [-> Ha].
      assert (Haf : get_affinity local (peer_id x) = d) by lia. split; [|exact Haf].
      apply (known_in_bucket local); [exact Hb|]. rewrite Haf, (nth_error_nth _ _ _ E). exact Hx.
    - intros [Hk <-]. apply (known_in_bucket local) in Hk; [|exact Hb]. exists (peer_id n, n). split; [reflexivity|].
      apply (Permutation_in _ (Permutation_sym (order_ok _))). exact Hk.
  Qed.
  Lemma in_candidates : forall ds n, (forall d, In d ds -> d < 256) ->
    (In n (candidates ds) <-> In n (known_nodes b) /\ In (get_affinity local (peer_id n)) ds).
  Proof.
    intros ds n Hds. unfold candidates. rewrite in_flat_map. split.
    - intros (d & Hd & Hn). apply in_bucket in Hn as [H1 H2]; [|now apply Hds]. now rewrite H2.
    - intros [H1 H2]. eexists. split; [exact H2|]. apply in_bucket; [now apply Hds|]. now split.
  Qed.

  Lemma candidates_split : forall ds, increasing ds -> (forall d, In d ds -> d < 256) ->
    forall a c, candidates ds = a ++ c -> forall x y, In x a -> In y c ->
    get_affinity local (peer_id x) <= get_affinity local (peer_id y).
  Proof.
    induction 1 as [|d ds Hd Hinc IH]; intros Hlt a c E x y Hx Hy.
    - cbn in E. symmetry in E. apply app_eq_nil in E as [-> ->]. destruct Hx.
    - unfold candidates in E. cbn [flat_map] in E. fold (candidates ds) in E.
      set (h := map snd (order (nth (N.to_nat d) (bk_buckets b) []))) in *.
      assert (Hh : forall n, In n h -> get_affinity local (peer_id n) = d).
      { intros n Hn. apply in_bucket in Hn as [_ Hn]; [exact Hn|]. apply Hlt. now left. }
      assert (Hlt' : forall d0, In d0 ds -> d0 < 256) by (intros; apply Hlt; now right).
      assert (Hall : forall n, In n (h ++ candidates ds) -> d <= get_affinity local (peer_id n)).
      { intros n Hn. apply in_app_or in Hn as [Hn|Hn]; [rewrite (Hh _ Hn); lia|].
        apply in_candidates in Hn as [_ Hn]; [|exact Hlt']. specialize (Hd _ Hn). lia. }
      destruct (Nat.le_gt_cases (length a) (length h)) as [Hle|Hgt].
      + assert (Hxh : In x h).
        { assert (Ea : firstn (length a) (h ++ candidates ds) = a) by (rewrite E; apply firstn_app_exact).
          rewrite firstn_app in Ea. replace (length a - length h)%nat with 0%nat in Ea by lia. cbn in Ea. rewrite app_nil_r in Ea.
          rewrite <- Ea in Hx. rewrite <- (firstn_skipn (length a) h). apply in_or_app. now left. }
        rewrite (Hh _ Hxh). apply Hall. rewrite E. apply in_or_app. now right.
      + assert (Ea : exists a', a = h ++ a' /\ candidates ds = a' ++ c).
        { exists (skipn (length h) a). assert (Ef : firstn (length h) a = h).
          { transitivity (firstn (length h) (a ++ c)); [|rewrite <- E; apply firstn_app_exact].
            rewrite firstn_app. replace (length h - length a)%nat with 0%nat by lia. cbn. now rewrite app_nil_r. }
          rewrite <- Ef at 1. split; [now rewrite firstn_skipn|].
          rewrite <- (firstn_skipn (length h) a), Ef, <- app_assoc in E. now apply app_inv_head in E. }
        destruct Ea as (a' & -> & Ea). apply in_app_or in Hx as [Hx|Hx].
        * rewrite (Hh _ Hx). apply Hall. rewrite E. apply in_or_app. now right.
        * exact (IH Hlt' a' c Ea x y Hx Hy).
  Qed.

  Lemma bucket_ids : forall d, NoDup (map peer_id (map snd (order (nth d (bk_buckets b) [])))).
  Proof.
    intros d. destruct Hb as (H1 & H2 & H3). destruct (nth_error (bk_buckets b) d) as [l|] eqn:E.
    - rewrite (nth_error_nth _ _ _ E). destruct (H3 _ _ E) as [N1 N2].
      apply (Permutation_NoDup (l := map fst l)); [|exact N1].
      transitivity (map peer_id (map snd l)).
      + rewrite map_map. apply Permutation_refl'. apply map_ext_in. intros [i x] Hx. cbn. now destruct (N2 _ _ Hx).
      + apply Permutation_map, Permutation_map, Permutation_sym, order_ok.
    - apply nth_error_None in E. rewrite nth_overflow by exact E.
      assert (Hnil : order [] = []) by (apply Permutation_nil, Permutation_sym, order_ok). rewrite Hnil. constructor.
  Qed.
  Lemma nodup_app : forall A (a c : list A), NoDup a -> NoDup c -> (forall x, In x a -> ~ In x c) -> NoDup (a ++ c).
  Proof.
    intros A a c Ha Hc Hd. induction a as [|x a IH]; [exact Hc|]. cbn. apply NoDup_cons_iff in Ha as [Ha1 Ha2]. constructor.
    - intros H. apply in_app_or in H as [H|H]; [contradiction|]. apply (Hd x); [now left|exact H].
    - apply IH; [exact Ha2|]. intros y Hy. apply Hd. now right.
  Qed.
  Lemma candidates_ids : forall ds, increasing ds -> (forall d, In d ds -> d < 256) -> NoDup (map peer_id (candidates ds)).
  Proof.
    induction 1 as [|d ds Hd Hinc IH]; intros Hlt; [constructor|]. unfold candidates. cbn [flat_map]. fold (candidates ds).
    assert (Hlt' : forall d0, In d0 ds -> d0 < 256) by (intros; apply Hlt; now right).
    rewrite map_app. apply nodup_app; [apply bucket_ids|now apply IH|].
    intros i Hi Hc. apply in_map_iff in Hi as (x & <- & Hx). apply in_map_iff in Hc as (y & Hxy & Hy).
    apply in_bucket in Hx as [_ Hx]; [|apply Hlt; now left]. apply in_candidates in Hy as [_ Hy]; [|exact Hlt'].
    specialize (Hd _ Hy). rewrite Hxy in Hd. lia.
  Qed.

  Lemma visits_bound : forall d, In d (visits 0 local key) -> d < 256.
  Proof. intros d H. now apply visits_spec in H. Qed.

  Lemma firstn_nodup_map : forall A B (f : A -> B) n l, NoDup (map f l) -> NoDup (map f (firstn n l)).
  Proof.
    intros A B f n l H. rewrite <- (firstn_skipn n l), map_app in H. revert H. generalize (map f (skipn n l)).
    generalize (map f (firstn n l)). intros a c. induction a as [|x a IH]; intros H; [constructor|].
    cbn in H. apply NoDup_cons_iff in H as [H1 H2]. apply NoDup_cons_iff. split; [|now apply IH].
    intros H. apply H1, in_or_app. now left.
  Qed.

  Theorem find_size : forall k, N.of_nat (length (find_nodes order b key k)) <= N.max 1 k.
  Proof. intros k. unfold find_nodes, take_k. rewrite firstn_length. lia. Qed.

  Theorem find_once : forall k, NoDup (map peer_id (find_nodes order b key k)).
  Proof.
    intros k. unfold find_nodes, take_k. apply firstn_nodup_map. destruct Hb as (H1 & _). rewrite H1.
    apply candidates_ids; [now apply visits_increasing|apply visits_bound].
  Qed.

  Theorem find_known : forall k n, In n (find_nodes order b key k) ->
    In n (known_nodes b) /\ xor_distance (peer_id n) key < xor_distance local key.
  Proof.
    intros k n H. unfold find_nodes, take_k in H.
    assert (Hc : In n (candidates (visits 0 local key))).
    { destruct Hb as (H1 & _). rewrite <- H1. unfold candidates.
      rewrite <- (firstn_skipn (N.to_nat (N.max 1 k))). apply in_or_app. now left. }
    apply in_candidates in Hc as [Hk Hv]; [|apply visits_bound]. split; [exact Hk|].
    destruct (Hids n Hk) as [I1 I2]. now apply visited_closer.
  Qed.

  Theorem find_closest : forall k x y, In x (known_nodes b) -> ~ In x (find_nodes order b key k) ->
    In y (find_nodes order b key k) -> xor_distance (peer_id x) key < xor_distance (peer_id y) key ->
    get_affinity local (peer_id x) = get_affinity local (peer_id y).
  Proof.
    intros k x y Hx Hnx Hy Hlt. destruct (find_known k y Hy) as [Hyk Hyl]. destruct (Hids x Hx) as [I1 I2]. destruct (Hids y Hyk) as [J1 J2].
    destruct (in_dec N.eq_dec (get_affinity local (peer_id x)) (visits 0 local key)) as [Hv|Hv].
    - assert (Hc : In x (candidates (visits 0 local key))) by (apply in_candidates; [apply visits_bound|now split]).
      unfold find_nodes, take_k in Hnx, Hy. destruct Hb as (H1 & _). rewrite H1 in Hnx, Hy. fold (candidates (visits 0 local key)) in Hnx, Hy.
      set (m := N.to_nat (N.max 1 k)) in *. set (L := candidates (visits 0 local key)) in *.
      assert (Hs : In x (skipn m L)).
      { rewrite <- (firstn_skipn m L) in Hc. apply in_app_or in Hc as [Hc|Hc]; [contradiction|exact Hc]. }
      pose proof (candidates_split _ (visits_increasing local key Hlocal Hkey) visits_bound _ _ (eq_sym (firstn_skipn m L)) y x Hy Hs) as Hle.
      assert (HyL : In y L) by (rewrite <- (firstn_skipn m L); apply in_or_app; now left).
      apply in_candidates in HyL as [_ HyL]; [|apply visits_bound].
      destruct (N.eq_dec (get_affinity local (peer_id y)) (get_affinity local (peer_id x))) as [He|He]; [now symmetry|].
      pose proof (earlier_closer local (peer_id y) (peer_id x) key Hlocal J1 I1 Hkey J2 I2 HyL Hv). lia.
    - pose proof (unvisited_farther local (peer_id x) key Hlocal I1 Hkey I2 Hv). lia.
  Qed.

  Theorem find_all : forall k x, N.of_nat (length (find_nodes order b key k)) < k -> In x (known_nodes b) ->
    (In x (find_nodes order b key k) <-> xor_distance (peer_id x) key < xor_distance local key).
  Proof.
    intros k x Hk Hx. split; [intros H; now apply find_known in H|]. intros Hlt. destruct (Hids x Hx) as [I1 I2].
    destruct (in_dec N.eq_dec (get_affinity local (peer_id x)) (visits 0 local key)) as [Hv|Hv].
    - assert (Hc : In x (candidates (visits 0 local key))) by (apply in_candidates; [apply visits_bound|now split]).
      unfold find_nodes, take_k in *. destruct Hb as (H1 & _). rewrite H1 in *. fold (candidates (visits 0 local key)) in *.
      rewrite firstn_length in Hk. rewrite firstn_all2 by lia. exact Hc.
    - pose proof (unvisited_farther local (peer_id x) key Hlocal I1 Hkey I2 Hv). lia.
  Qed.

  (** The answer of [process_find_value]. *)
  Theorem first_known : forall k n, In n (first_nodes order b k) -> In n (known_nodes b).
  Proof.
    intros k n H. unfold first_nodes, take_k in H.
    assert (Hin : In n (flat_map (fun b => map snd (order b)) (bk_buckets b)))
      by (rewrite <- (firstn_skipn (N.to_nat (N.max 1 k))); apply in_or_app; now left).
    apply in_flat_map in Hin as (l & Hl & Hn). apply in_map_iff in Hn as (x & <- & Hx). apply (Permutation_in _ (order_ok _)) in Hx.
    unfold known_nodes. apply in_map. apply in_concat. eauto.
  Qed.
  Lemma known_length : length (flat_map (fun b => map snd (order b)) (bk_buckets b)) = length (known_nodes b).
  Proof.
    clear - order_ok. unfold known_nodes. rewrite map_length. induction (bk_buckets b) as [|l r IH]; [reflexivity|]. cbn.
    rewrite !app_length, map_length, IH. f_equal. apply Permutation_length, order_ok.
  Qed.
  Theorem first_count : forall k, 0 < k -> N.of_nat (length (first_nodes order b k)) = N.min k (N.of_nat (length (known_nodes b))).
  Proof. intros k Hk. unfold first_nodes, take_k. rewrite firstn_length, known_length. lia. Qed.
  Theorem first_once : forall k, NoDup (map peer_id (first_nodes order b k)).
  Proof.
    intros k. unfold first_nodes, take_k. apply firstn_nodup_map.
    assert (E : flat_map (fun b => map snd (order b)) (bk_buckets b) = candidates (map N.of_nat (seq 0 256))).
    { unfold candidates. rewrite flat_map_concat_map, flat_map_concat_map, map_map. f_equal. destruct Hb as (_ & H2 & _).
      apply nth_ext with (d := []) (d' := []); rewrite !map_length; [now rewrite seq_length|]. intros i Hi.
      rewrite (nth_indep _ [] (map snd (order []))) by now rewrite map_length. rewrite (map_nth (fun b => map snd (order b))).
      set (f := fun x : nat => map snd (order (nth (N.to_nat (N.of_nat x)) (bk_buckets b) []))).
      rewrite (nth_indep _ [] (f 0%nat)) by (rewrite map_length, seq_length; lia). rewrite (map_nth f), seq_nth by lia. unfold f.
      now rewrite Nnat.Nat2N.id. }
    rewrite E. apply candidates_ids; [apply increasing_seq|]. intros d Hd. apply in_map_iff in Hd as (m & <- & Hm). apply in_seq in Hm. lia.
  Qed.
End Table.

Theorem find_self : forall order b k, key_ok (bk_local b) -> find_nodes order b (bk_local b) k = [].
Proof.
  intros order b k H. unfold find_nodes. rewrite visits_differ by assumption. unfold differ, xor_distance. rewrite N.lxor_nilpotent.
  replace (filter _ _) with (@nil N); [unfold take_k; now rewrite firstn_nil|].
  symmetry. induction (map N.of_nat (seq 0 256)) as [|x l IH]; [reflexivity|]. cbn [filter]. rewrite N.bits_0. exact IH.
Qed.

(** ** Counterexamples *)

Definition tiny_id (n : dht_node) : bytes := match dn_id n with PkEd25519 k => k | _ => [] end.
Definition tiny (x : N) : dht_node := mk_dht_node (PkEd25519 (x :: repeat 0 31)) (mk_address_list None 0 0 0) 1 [].

Lemma find_not_closest : exists local key nodes (peer_id : dht_node -> bytes),
  let b := table peer_id local nodes in
  key_ok local /\ key_ok key /\ (forall n, In n nodes -> key_ok (peer_id n) /\ peer_id n <> local)
  /\ exists x y, In x nodes /\ ~ In x (find_nodes (fun l => l) b key 1) /\ In y (find_nodes (fun l => l) b key 1)
     /\ xor_distance (peer_id x) key < xor_distance (peer_id y) key.
Proof.
  exists (repeat 0 32), (255 :: repeat 0 31), [tiny 128; tiny 255], tiny_id. cbv zeta.
  split; [now vm_compute|]. split; [now vm_compute|]. split.
  - intros n [<-|[<-|[]]]; vm_compute; (split; [split; reflexivity|discriminate]).
  - exists (tiny 255), (tiny 128).
    replace (find_nodes (fun l => l) (table tiny_id (repeat 0 32) [tiny 128; tiny 255]) (255 :: repeat 0 31) 1) with [tiny 128] by (vm_compute; reflexivity).
    split; [right; now left|]. split; [|split; [now left|now vm_compute]]. intros [H|[]]. vm_compute in H. discriminate.
Qed.
Lemma find_zero_gives_one : exists local key nodes (peer_id : dht_node -> bytes),
  key_ok local /\ key_ok key /\ length (find_nodes (fun l => l) (table peer_id local nodes) key 0) = 1%nat.
Proof. exists (repeat 0 32), (255 :: repeat 0 31), [tiny 128; tiny 255], tiny_id. vm_compute. repeat split. Qed.
