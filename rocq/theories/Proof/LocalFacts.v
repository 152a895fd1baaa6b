(** Parsers look only at what they consume; hence the signed bytes of any packet decode to the
    packet itself. *)
From Coq Require Import List NArith Arith Lia Bool.
From Coq Require Import ZifyBool ZifyNat ZifyN.
From Verif.Base Require Import Bytes BytesFacts Res.
From Verif.Model Require Import Tl Scheme ProtoAdnl.
From Verif.Spec Require Import InPlaceSpec.
From Verif.Proof Require Import TlFacts PacketFacts.
Import ListNotations.
Open Scope N_scope.

Definition local {A} (p : parser A) : Prop :=
  forall l a r, p l = Some (a, r) -> exists pre, l = pre ++ r /\ forall r', p (pre ++ r') = Some (a, r').
Definition eats {A} (p : parser A) : Prop :=
  forall l a r, p l = Some (a, r) -> (length r < length l)%nat.

Lemma local_ret : forall A (a : A), local (ret a).
Proof. intros A a l b r H. unfold ret in H. injection H as <- <-. exists []. split; [reflexivity|]. intros r'. reflexivity. Qed.
Lemma local_fail : forall A, local (@fail A).
Proof. intros A l a r H. discriminate H. Qed.
Lemma local_bind : forall A B (p : parser A) (f : A -> parser B), local p -> (forall a, local (f a)) -> local (bind p f).
Proof.
  intros A B p f Hp Hf l b r H. unfold bind in *. destruct (p l) as [[a l1]|] eqn:E; [|discriminate].
  destruct (Hp _ _ _ E) as (p1 & -> & H1). destruct (Hf a _ _ _ H) as (p2 & -> & H2).
  exists (p1 ++ p2). split; [now rewrite app_assoc|]. intros r'. rewrite <- app_assoc, H1. apply H2.
Qed.
Lemma local_take : forall n, local (take n).
Proof.
  intros n l a r H. unfold take in H. destruct (Nat.leb_spec n (length l)); [|discriminate]. injection H as <- <-.
  exists (firstn n l). split; [now rewrite firstn_skipn|]. intros r'. unfold take.
  assert (Hl : length (firstn n l) = n) by (rewrite firstn_length; lia).
  destruct (Nat.leb_spec n (length (firstn n l ++ r'))) as [_|Hc]; [|rewrite app_length in Hc; lia].
  f_equal. f_equal.
  - rewrite firstn_app, Hl, Nat.sub_diag, firstn_O, app_nil_r, firstn_firstn. f_equal. lia.
  - rewrite skipn_app, Hl, Nat.sub_diag, skipn_O. rewrite skipn_all2 by lia. reflexivity.
Qed.
Lemma local_u32 : local get_u32.
Proof. apply local_bind; [apply local_take|]. intros a. apply local_ret. Qed.
Lemma local_u64 : local get_u64.
Proof. apply local_bind; [apply local_take|]. intros a. apply local_ret. Qed.
Lemma local_hash : local get_hash.
Proof. apply local_take. Qed.
Lemma local_body : forall a n, local (get_body a n).
Proof.
  intros a n l d r H. unfold get_body in H. cbv zeta in H.
  destruct (N.ltb_spec (N.of_nat (length l)) (n + pad_len (a + n))); [discriminate|]. injection H as <- <-.
  set (t := n + pad_len (a + n)) in *. exists (firstn (N.to_nat t) l). split; [now rewrite firstn_skipn|].
  intros r'. unfold get_body. cbv zeta. fold t.
  assert (Hl : length (firstn (N.to_nat t) l) = N.to_nat t) by (rewrite firstn_length; lia).
  destruct (N.ltb_spec (N.of_nat (length (firstn (N.to_nat t) l ++ r'))) t) as [Hc|_]; [rewrite app_length in Hc; lia|].
  f_equal. f_equal.
  - rewrite firstn_app, Hl. replace (N.to_nat n - N.to_nat t)%nat with 0%nat by lia. rewrite firstn_O, app_nil_r.
    rewrite firstn_firstn. f_equal. lia.
  - rewrite skipn_app, Hl, Nat.sub_diag, skipn_O. rewrite skipn_all2 by lia. reflexivity.
Qed.
Lemma local_bytes : local get_bytes.
Proof.
  intros l a r H. destruct l as [|b l]; [discriminate|]. cbn [get_bytes] in H.
  destruct (b =? 254) eqn:E.
  - assert (L : local (let* nb := take 3 in get_body 4 (of_le nb))) by (apply local_bind; [apply local_take|intros; apply local_body]).
    destruct (L _ _ _ H) as (pre & -> & Hp). exists (b :: pre). split; [reflexivity|]. intros r'. cbn [get_bytes app].
    rewrite E. apply Hp.
  - destruct (local_body _ _ _ _ _ H) as (pre & -> & Hp). exists (b :: pre). split; [reflexivity|]. intros r'. cbn [get_bytes app].
    rewrite E. apply Hp.
Qed.

Lemma many_local : forall A (p : parser A), local p -> eats p -> forall f n l a r,
  get_many f p n l = Some (a, r) ->
  exists pre, l = pre ++ r /\ (N.to_nat n <= length pre)%nat
    /\ forall f' r', (N.to_nat n <= f')%nat -> get_many f' p n (pre ++ r') = Some (a, r').
Proof.
  intros A p Hp He f. induction f as [|f IH]; intros n l a r H; cbn [get_many] in H; destruct (N.eqb_spec n 0) as [->|Hn].
  1,3: injection H as <- <-; exists []; split; [reflexivity|]; split; [cbn; lia|]; intros [|f'] r' _; reflexivity.
  { discriminate. }
  destruct (p l) as [[x l1]|] eqn:E; [|discriminate]. destruct (get_many f p (n - 1) l1) as [[xs l2]|] eqn:E2; [|discriminate].
  injection H as <- <-. pose proof (He _ _ _ E) as Hlt. destruct (Hp _ _ _ E) as (p1 & -> & H1).
  destruct (IH _ _ _ _ E2) as (p2 & -> & Hle & H2). rewrite !app_length in Hlt. exists (p1 ++ p2).
  split; [now rewrite app_assoc|]. split; [rewrite app_length; lia|]. intros f' r' Hf. destruct f' as [|f']; [lia|].
  cbn [get_many]. destruct (N.eqb_spec n 0) as [?|_]; [contradiction|]. rewrite <- app_assoc, H1, H2 by lia. reflexivity.
Qed.
Lemma local_many : forall A (p : parser A) n, local p -> eats p -> local (fun l => get_many (S (length l)) p n l).
Proof.
  intros A p n Hp He l a r H. destruct (many_local _ p Hp He _ _ _ _ _ H) as (pre & -> & Hle & Hm). exists pre.
  split; [reflexivity|]. intros r'. apply Hm. rewrite app_length. lia.
Qed.

Lemma eats_bind : forall A B (p : parser A) (f : A -> parser B), eats p -> (forall a, local (f a)) -> eats (bind p f).
Proof.
  intros A B p f Hp Hf l b r H. unfold bind in H. destruct (p l) as [[a l1]|] eqn:E; [|discriminate].
  specialize (Hp _ _ _ E). destruct (Hf a _ _ _ H) as (p2 & -> & _). rewrite app_length in Hp. lia.
Qed.
Lemma eats_u32 : eats get_u32.
Proof.
  intros l a r H. unfold get_u32, bind in H. destruct (take 4 l) as [[b l1]|] eqn:E; [|discriminate].
  unfold ret in H. assert (l1 = r) as -> by (inversion H; reflexivity). unfold take in E.
  destruct (Nat.leb_spec 4 (length l)) as [Hl|]; [|discriminate].
  assert (r = skipn 4 l) as -> by congruence. rewrite skipn_length. lia.
Qed.
Lemma eats_bytes : eats get_bytes.
Proof.
  intros l a r H. destruct l as [|b l]; [discriminate|]. cbn [get_bytes] in H.
  assert (L : local (let* nb := take 3 in get_body 4 (of_le nb))) by (apply local_bind; [apply local_take|intros; apply local_body]).
  destruct (b =? 254).
  - destruct (L _ _ _ H) as (pre & -> & _). cbn [length]. rewrite app_length. lia.
  - destruct (local_body _ _ _ _ _ H) as (pre & -> & _). cbn [length]. rewrite app_length. lia.
Qed.

Ltac local_tac := repeat first
  [ apply local_ret | apply local_fail | apply local_u32 | apply local_u64 | apply local_hash | apply local_bytes
  | (apply local_bind; [|intros ?])
  | (match goal with |- local (if ?c then _ else _) => destruct c end) ].

Lemma local_public_key : local get_public_key.
Proof. unfold get_public_key. local_tac. Qed.
Lemma local_message : local get_message.
Proof. unfold get_message. local_tac. Qed.
Lemma eats_message : eats get_message.
Proof. unfold get_message. apply eats_bind; [apply eats_u32|]. intros a. local_tac. Qed.
Lemma local_address : local get_address.
Proof. unfold get_address. local_tac. Qed.
Lemma eats_address : eats get_address.
Proof. unfold get_address. apply eats_bind; [apply eats_u32|]. intros a. local_tac. Qed.
Lemma local_messages : local (get_vector get_message).
Proof. unfold get_vector. apply local_bind; [apply local_u32|]. intros n. apply local_many; [apply local_message|apply eats_message]. Qed.
Lemma local_address_list : local get_address_list.
Proof.
  unfold get_address_list. apply local_bind; [apply local_u32|]. intros n.
  apply local_bind; [apply local_many; [apply local_address|apply eats_address]|]. intros l. local_tac.
Qed.
Lemma local_dates : local get_reinit_dates.
Proof. unfold get_reinit_dates. local_tac. Qed.
Lemma local_optional : forall A flags k (p : parser A), local p -> local (get_optional flags k p).
Proof. intros A flags k p H. unfold get_optional. destruct (N.testbit flags k); local_tac; exact H. Qed.

(** The part between the flags and the signature. *)
Definition fields := (option public_key * option bytes * option message * option (list message)
  * option address_list * option N * option N * option reinit_dates)%type.
Definition get_fields (flags : N) : parser fields :=
  let* from := get_optional flags 0 get_public_key in
  let* from_short := get_optional flags 1 get_hash in
  let* m := get_optional flags 2 get_message in
  let* ms := get_optional flags 3 (get_vector get_message) in
  let* address := get_optional flags 4 get_address_list in
  let* _priority_address := get_optional flags 5 get_address_list in
  let* seqno := get_optional flags 6 get_u64 in
  let* confirm_seqno := get_optional flags 7 get_u64 in
  let* _v1 := get_optional flags 8 get_u32 in
  let* _v2 := get_optional flags 9 get_u32 in
  let* dates := get_optional flags 10 get_reinit_dates in
  ret (from, from_short, m, ms, address, seqno, confirm_seqno, dates).
Lemma local_fields : forall flags, local (get_fields flags).
Proof.
  intros flags. unfold get_fields.
  repeat (apply local_bind; [apply local_optional|intros ?]); try apply local_ret;
    auto using local_public_key, local_hash, local_message, local_messages, local_address_list, local_u64, local_u32, local_dates.
Qed.

Definition finish (x : fields) (sg : option packet_signature) : parser in_packet :=
  let '(from, from_short, m, ms, address, seqno, confirm_seqno, dates) := x in
  match ms, m with
  | Some l, None => ret (mk_in_packet from from_short l address seqno confirm_seqno dates sg)
  | None, Some x => ret (mk_in_packet from from_short [x] address seqno confirm_seqno dates sg)
  | Some l, Some x => ret (mk_in_packet from from_short (x :: l) address seqno confirm_seqno dates sg)
  | None, None => fail
  end.
Lemma get_in_packet_eq : forall packet l,
  get_in_packet_at packet l =
  (let* c := get_u32 in
   if negb (c =? id_packet_contents) then fail else
   let* _rand1 := get_bytes in
   let* flags_offset := offset_u16 packet in
   let* flags := get_u32 in
   let* x := get_fields flags in
   let* signature := get_signature packet flags flags_offset in
   let* _rand2 := get_bytes in
   finish x signature) l.
Proof.
  intros packet l. unfold get_in_packet_at, get_fields, bind, ret.
  repeat match goal with
  | |- ?x = ?x => reflexivity
  | |- context [match ?p with Some _ => _ | None => _ end] =>
      match p with context [match _ with _ => _ end] => fail 1 | _ => destruct p as [[? ?]|]; try reflexivity end
  | |- context [if ?c then _ else _] => destruct c; try reflexivity
  end.
Qed.

Lemma testbit_byte : forall b r i, b < 256 ->
  N.testbit (b + 256 * r) i = if i <? 8 then N.testbit b i else N.testbit r (i - 8).
Proof.
  intros b r i H. replace (b + 256 * r) with (r * 2 ^ 8 + b) by (change (2 ^ 8) with 256; lia).
  destruct (N.ltb_spec i 8) as [Hi|Hi].
  - rewrite <- (N.mod_pow2_bits_low (r * 2 ^ 8 + b) 8 i Hi). f_equal. change (2 ^ 8) with 256.
    rewrite N.add_comm, N.mod_add by lia. apply N.mod_small, H.
  - replace i with ((i - 8) + 8) at 1 by lia. rewrite <- N.div_pow2_bits. f_equal. change (2 ^ 8) with 256.
    rewrite N.add_comm, N.div_add by lia. rewrite N.div_small by exact H. lia.
Qed.

Definition clear_byte (b : N) : N := N.land b 0xf7.
Lemma flags_keep : forall f0 f1 f2 f3, f0 < 256 -> f1 < 256 ->
  (forall k, k <> 11 -> N.testbit (of_le [f0; clear_byte f1; f2; f3]) k = N.testbit (of_le [f0; f1; f2; f3]) k)
  /\ N.testbit (of_le [f0; clear_byte f1; f2; f3]) 11 = false.
Proof.
  intros f0 f1 f2 f3 H0 H1.
  assert (Hc : clear_byte f1 < 256).
  { unfold clear_byte. change 256 with (2 ^ 8). change 0xf7 with (N.land 0xf7 (N.ones 8)). rewrite N.land_assoc, N.land_ones.
    apply N.mod_lt. discriminate. }
  cbn [of_le]. split.
  - intros k Hk. rewrite !(testbit_byte f0) by exact H0. destruct (N.ltb_spec k 8) as [_|Hk8]; [reflexivity|].
    rewrite (testbit_byte f1), (testbit_byte (clear_byte f1)) by assumption. destruct (N.ltb_spec (k - 8) 8) as [Hlt|_]; [|reflexivity].
    unfold clear_byte. rewrite N.land_spec.
    assert (k - 8 = 0 \/ k - 8 = 1 \/ k - 8 = 2 \/ k - 8 = 4 \/ k - 8 = 5 \/ k - 8 = 6 \/ k - 8 = 7) as D by lia.
    repeat destruct D as [D|D]; rewrite ?D; apply andb_true_r.
  - rewrite (testbit_byte f0) by exact H0. change (11 <? 8) with false. cbv iota. rewrite testbit_byte by exact Hc.
    change (11 - 8 <? 8) with true. cbv iota. unfold clear_byte. rewrite N.land_spec. apply andb_false_r.
Qed.

Lemma fields_flags : forall f g l, (forall k, k <> 11 -> N.testbit f k = N.testbit g k) -> get_fields f l = get_fields g l.
Proof.
  intros f g l H. unfold get_fields, get_optional. rewrite !H by discriminate. reflexivity.
Qed.

Lemma finish_none : forall x sg l q r, finish x sg l = Some (q, r) ->
  ip_signature q = sg /\ r = l /\ forall l', finish x None l' = Some (without_signature q, l').
Proof.
  intros x sg l q r H. destruct x as [[[[[[[a b] m] ms] c] d] e] f]. unfold finish in *.
  destruct ms as [ms|], m as [m|]; try discriminate; unfold ret in H; injection H as <- <-; repeat split.
Qed.

Lemma signed_part : forall packet q sg, bytes_ok packet = true -> N.of_nat (length packet) < 2 ^ 16 ->
  parse_packet packet = Some q -> ip_signature q = Some sg ->
  exists m, extract sg packet = Some (m, ps_signature sg) /\ parse_packet m = Some (without_signature q).
Proof.
  intros packet q sg Hok Hlen Hq Hsg. unfold parse_packet, deserialize in Hq.
  destruct (get_in_packet_at packet packet) as [[q0 rest]|] eqn:H; [|discriminate]. injection Hq as ->.
  rewrite get_in_packet_eq in H. remember packet as whole eqn:Ew in H at 1 2. unfold bind at 1 in H.
  destruct (get_u32 packet) as [[c l0]|] eqn:E0; [|discriminate].
  destruct (local_u32 _ _ _ E0) as (p0 & Ep0 & L0). destruct (negb (c =? id_packet_contents)) eqn:Ec; [discriminate|].
  unfold bind at 1 in H. destruct (get_bytes l0) as [[r1 l1]|] eqn:E1; [|discriminate].
  destruct (local_bytes _ _ _ E1) as (p1 & Ep1 & L1).
  unfold bind at 1 in H. unfold offset_u16 in H. cbv beta iota in H.
  unfold bind at 1 in H. destruct (get_u32 l1) as [[flags l2]|] eqn:E2; [|discriminate].
  unfold bind at 1 in H. destruct (get_fields flags l2) as [[x l3]|] eqn:E3; [|discriminate].
  destruct (local_fields _ _ _ _ E3) as (p3 & Ep3 & L3).
  unfold bind at 1 in H. destruct (get_signature whole flags _ l3) as [[sgo l4]|] eqn:E4; [|discriminate].
  unfold bind at 1 in H. destruct (get_bytes l4) as [[r2 l5]|] eqn:E5; [|discriminate].
  destruct (finish_none _ _ _ _ _ H) as (Hsgo & -> & Hfin). rewrite Hsg in Hsgo. subst sgo.
  unfold get_signature in E4. destruct (N.testbit flags 11) eqn:E11; [|discriminate].
  unfold bind at 1 in E4. unfold offset_u16 at 1 in E4. cbv beta iota in E4.
  unfold bind at 1 in E4. destruct (get_bytes l3) as [[sb l4']|] eqn:E4b; [|discriminate].
  destruct (local_bytes _ _ _ E4b) as (p4 & Ep4 & L4). pose proof (eats_bytes _ _ _ E4b) as He4.
  unfold bind at 1 in E4. unfold offset_u16 at 1 in E4. cbv beta iota in E4.
  destruct (length sb =? 64)%nat; [|discriminate]. unfold ret in E4.
  assert (l4' = l4) as -> by (inversion E4; reflexivity).
  assert (Esg : sg = mk_packet_signature sb (N.of_nat (length whole - length l1) mod 2 ^ 16)
    (N.of_nat (length whole - length l3) mod 2 ^ 16) (N.of_nat (length whole - length l4) mod 2 ^ 16)) by (inversion E4; reflexivity).
  clear E4. pose proof (eats_bytes _ _ _ E5) as He5.
  assert (exists f0 f1 f2 f3, l1 = [f0; f1; f2; f3] ++ l2 /\ flags = of_le [f0; f1; f2; f3]) as (f0 & f1 & f2 & f3 & Ep2 & Ef).
  { destruct l1 as [|f0 [|f1 [|f2 [|f3 l1]]]]; try discriminate E2. exists f0, f1, f2, f3. cbn in E2. injection E2 as <- <-.
    split; reflexivity. }
  set (A := p0 ++ p1). set (F := [f0; f1; f2; f3]) in *.
  assert (Ew2 : packet = A ++ F ++ p3 ++ p4 ++ l4) by (rewrite Ep0, Ep1, Ep2, Ep3, Ep4; unfold A; now rewrite <- app_assoc).
  assert (Hf : f0 < 256 /\ f1 < 256).
  { rewrite Ew2 in Hok. unfold bytes_ok in Hok. rewrite !forallb_app in Hok. apply andb_prop in Hok as [_ Hok].
    apply andb_prop in Hok as [Hok _]. unfold F in Hok. cbn [forallb] in Hok. unfold is_byte in Hok.
    apply andb_prop in Hok as [Ha Hok]. apply andb_prop in Hok as [Hb _]. split; now apply N.ltb_lt. }
  destruct (flags_keep f0 f1 f2 f3 (proj1 Hf) (proj2 Hf)) as [Hk H11].
  set (F' := [f0; clear_byte f1; f2; f3]) in *.
  exists (A ++ F' ++ p3 ++ l4). split.
  - subst sg whole. cbn [ps_signature].
    assert (Hl1 : length packet = (length A + length l1)%nat) by (rewrite Ep0, Ep1; unfold A; rewrite !app_length; lia).
    assert (Hl3 : length packet = (length (A ++ F ++ p3) + length l3)%nat) by (rewrite Hl1, Ep2, Ep3; rewrite !app_length; lia).
    assert (Hl4 : length packet = (length (A ++ F ++ p3 ++ p4) + length l4)%nat) by (rewrite Hl3, Ep4; rewrite !app_length; lia).
    rewrite !N.mod_small by lia.
    replace (length packet - length l1)%nat with (length A) by lia.
    replace (length packet - length l3)%nat with (length (A ++ F ++ p3)) by lia.
    replace (length packet - length l4)%nat with (length (A ++ F ++ p3 ++ p4)) by lia.
    rewrite Ew2 in Hlen |- *. apply extract_app; try reflexivity; [ | | exact Hlen].
    + intros ->. cbn in He5. lia.
    + intros ->. rewrite Ep4 in He4. cbn in He4. lia.
  - unfold parse_packet, deserialize. rewrite get_in_packet_eq. unfold bind at 1. unfold A. rewrite <- !app_assoc, L0, Ec.
    unfold bind at 1. rewrite L1. unfold bind at 1. unfold offset_u16. cbv beta iota. unfold bind at 1.
    change (get_u32 (F' ++ p3 ++ l4)) with (Some (of_le F', p3 ++ l4)). cbv beta iota. unfold bind at 1.
    rewrite (fields_flags _ flags) by (intros k Hk2; rewrite Ef; now apply Hk). rewrite L3. unfold bind at 1.
    unfold get_signature. rewrite H11. cbv beta iota. unfold ret at 1. cbv beta iota. unfold bind at 1. rewrite E5, Hfin. reflexivity.
Qed.
