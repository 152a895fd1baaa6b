From stdpp Require Import gmap.
From Coq Require Import NArith ZArith Lia.
From Coq Require Import ZifyBool ZifyNat ZifyN.
From Verif.Base Require Import Bytes BytesFacts.
From Verif.Model Require Import Crypto Tl Scheme ProtoAdnl Transfer AdnlNode.
From Verif.Spec Require Import Codec CryptoSpec TransferSpec.
From Verif.Proof Require Import TlFacts ProtoFacts TransferFacts.
Open Scope N_scope.

Lemma put_bytes_bounds : forall d, len d + 1 <= len (put_bytes d) <= len d + 7
  /\ (254 <= len d -> len d + 4 <= len (put_bytes d)).
Proof.
  intros d. unfold len. rewrite put_bytes_length.
  pose proof (pad_len_lt (1 + N.of_nat (length d))). pose proof (pad_len_lt (N.of_nat (length d))).
  destruct (N.ltb_spec (N.of_nat (length d)) 254); split; lia.
Qed.

Lemma put_u32_length : forall v, length (put_u32 v) = 4%nat.
Proof. intros. apply le_bytes_length. Qed.

(** The size estimate is close to the truth. *)
Lemma estimate : forall m size, message_ok m -> message_size m = Some size ->
  len (put_message m) <= size /\ (400 <= size -> size - 4 <= len (put_message m)).
Proof.
  intros m size Hok H. destruct m; cbn [message_size] in H; try discriminate; injection H as <-;
    cbn [put_message message_ok] in *; unfold put_hash, hash_ok, MSG_ANSWER_SIZE, MSG_CUSTOM_SIZE,
      MSG_CONFIRM_CHANNEL_SIZE, MSG_QUERY_SIZE, MSG_NOP_SIZE in *;
    rewrite ?len_app; unfold len at 1; rewrite ?put_u32_length;
    repeat match goal with |- context [len (put_bytes ?d)] =>
      pose proof (put_bytes_bounds d); generalize dependent (len (put_bytes d)); intros end;
    rewrite ?len_app; unfold len in *; rewrite ?put_u32_length; lia.
Qed.

Lemma build_part_eq : forall data hash max o, o < len data -> 0 < max -> len data < 2 ^ 32 ->
  build_part data hash max o
  = (MPart hash (len data) o (slice (N.to_nat o) (N.to_nat (N.min (len data) (o + max))) data),
     o + N.min (len data) (o + max)).
Proof.
  intros data hash max o Ho Hm Hl. unfold build_part. rewrite !N.mod_small by lia.
  replace (o <? N.min (len data) (o + max)) with true by lia. reflexivity.
Qed.

Lemma slice_length_N : forall data a b, a <= b -> b <= len data ->
  len (slice (N.to_nat a) (N.to_nat b) data) = b - a.
Proof.
  intros data a b H1 H2. unfold slice, len in *. rewrite firstn_length, skipn_length. lia.
Qed.

Lemma slice_join : forall data a b, a <= b -> b <= len data ->
  slice 0 (N.to_nat a) data ++ slice (N.to_nat a) (N.to_nat b) data = slice 0 (N.to_nat b) data.
Proof.
  intros data a b H1 H2. unfold slice. rewrite !Nat.sub_0_r. cbn [skipn].
  replace (N.to_nat b) with (N.to_nat a + (N.to_nat b - N.to_nat a))%nat at 2 by lia.
  apply take_take_drop.
Qed.

Lemma slice_all : forall data, slice 0 (N.to_nat (len data)) data = data.
Proof. intros. unfold slice, len. rewrite Nat.sub_0_r, Nat2N.id. cbn [skipn]. apply firstn_all. Qed.

(** The loop always ends. *)
Lemma rest_parts_some : forall fuel data hash max o, 0 < max -> (N.to_nat (len data - o) <= fuel)%nat ->
  exists l, rest_parts fuel data hash max o = Some l.
Proof.
  induction fuel as [|fuel IH]; intros data hash max o Hm Hf; cbn [rest_parts].
  - replace (o <? len data) with false by lia. eauto.
  - destruct (N.ltb_spec o (len data)); [|eauto]. unfold build_part.
    destruct (IH data hash max (o + N.min (len data) (o + max)) Hm) as [l ->]; [lia|eauto].
Qed.

Lemma rest_parts_step : forall fuel data hash max o, o < len data ->
  rest_parts (S fuel) data hash max o
  = let '(m, o') := build_part data hash max o in
    match rest_parts fuel data hash max o' with Some l => Some (m :: l) | None => None end.
Proof. intros. cbn [rest_parts]. replace (o <? len data) with true by lia. reflexivity. Qed.

Lemma rest_parts_end : forall fuel data hash max o, len data <= o -> rest_parts fuel data hash max o = Some [].
Proof. intros. destruct fuel; cbn [rest_parts]; replace (o <? len data) with false by lia; reflexivity. Qed.

Lemma rest_last : forall fuel data hash max o, o < len data -> 0 < max -> len data < 2 ^ 32 ->
  len data <= o + max ->
  rest_parts (S fuel) data hash max o
  = Some [MPart hash (len data) o (slice (N.to_nat o) (N.to_nat (len data)) data)].
Proof.
  intros fuel data hash max o Ho Hm Hl Hle. rewrite rest_parts_step by assumption.
  rewrite build_part_eq by assumption. rewrite N.min_l by lia. rewrite rest_parts_end by lia. reflexivity.
Qed.

(** Sizes of the parts. *)
Definition total_data (l : list part) : N := got (fun _ => true) l.
Definition as_parts (l : list message) : list part :=
  flat_map (fun m => match m with MPart h t o d => [mk_part h t o d] | _ => [] end) l.

Definition from_offset (hash : bytes) (total o : N) (l : list part) : Prop :=
  Forall (fun p => o <= pt_offset p /\ pt_hash p = hash /\ pt_total p = total) l
  /\ NoDup (map pt_offset l).

Lemma rest_parts_shape : forall fuel data hash max o l, 0 < max -> len data < 2 ^ 32 ->
  rest_parts fuel data hash max o = Some l ->
  l = map part_message (as_parts l)
  /\ from_offset hash (len data) o (as_parts l)
  /\ total_data (as_parts l) <= len data - o
  /\ Forall (fun p => pt_data p <> [] /\ len (pt_data p) <= max /\ pt_offset p < 2 ^ 32) (as_parts l).
Proof.
  induction fuel as [|fuel IH]; intros data hash max o l Hm Hl H; cbn [rest_parts] in H.
  - destruct (N.ltb_spec o (len data)); [discriminate|]. injection H as <-. cbn.
    repeat split; try constructor; unfold total_data; cbn; lia.
  - destruct (N.ltb_spec o (len data)) as [Ho|Ho].
    2:{ injection H as <-. cbn. repeat split; try constructor; unfold total_data; cbn; lia. }
    rewrite build_part_eq in H by assumption.
    destruct (rest_parts fuel data hash max _) as [l'|] eqn:E; [|discriminate]. injection H as <-.
    apply IH in E as (E1 & (E2 & E3) & E4 & E5); [|assumption..].
    cbn [as_parts flat_map app]. fold (as_parts l').
    pose proof (slice_length_N data o (N.min (len data) (o + max)) ltac:(lia) ltac:(lia)) as Hs.
    split; [|split; [split|split]].
    + cbn [map]. unfold part_message at 1. cbn [pt_hash pt_total pt_offset pt_data]. now rewrite <- E1.
    + constructor; [cbn; repeat split; lia|]. eapply Forall_impl; [exact E2|].
      intros p (G1 & G2 & G3). repeat split; try assumption. lia.
    + cbn [map pt_offset]. constructor; [|exact E3]. intros Hin. apply elem_of_list_fmap in Hin as (p & Hp1 & Hp2).
      rewrite Forall_forall in E2. apply E2 in Hp2 as (G1 & _). lia.
    + unfold total_data in *. cbn [got pt_offset pt_data]. rewrite Hs. lia.
    + constructor; [|exact E5]. cbn [pt_data pt_offset]. split; [|split; [lia|lia]].
      intros En. rewrite En in Hs. unfold len at 1 in Hs. cbn [length] in Hs. lia.
Qed.

(** A set of parts that is too small for the announced size never yields anything. *)
Lemma got_mono : forall l f, got f l <= total_data l.
Proof. induction l as [|p l IH]; intros f; unfold total_data in *; cbn [got]; [lia|]. specialize (IH f). destruct (f _); lia. Qed.

Lemma got_add_gen : forall l f p, NoDup (map pt_offset l) -> In p l -> f (pt_offset p) = false ->
  got (fun o => (o =? pt_offset p) || f o) l = got f l + len (pt_data p).
Proof.
  induction l as [|q l IH]; intros f p Hnd Hp Hf; [destruct Hp|]. cbn [map] in Hnd.
  inversion Hnd as [|? ? Hq Hnd']; subst. cbn [got]. destruct Hp as [->|Hp].
  - rewrite N.eqb_refl, Hf. cbn [orb]. rewrite (got_ext l _ f); [lia|].
    intros q Hq'. replace (pt_offset q =? pt_offset p) with false; [reflexivity|]. symmetry.
    apply N.eqb_neq. intros E. apply Hq. rewrite <- E. apply elem_of_list_In, in_map, Hq'.
  - rewrite IH by assumption. replace (pt_offset q =? pt_offset p) with false; [destruct (f (pt_offset q)); cbn; lia|].
    symmetry. apply N.eqb_neq. intros E. apply Hq. rewrite E. apply elem_of_list_In, in_map, Hp.
Qed.

Record short (l : list part) (h : bytes) (total : N) (t : transfer) : Prop := mk_short
  { sh_total : t_total t = total;
    sh_parts : forall o, is_Some (t_parts t !! o) -> In o (map pt_offset l);
    sh_received : t_received t = got (fun o => bool_decide (is_Some (t_parts t !! o))) l }.

Lemma never_enough : forall P fuel l h total, NoDup (map pt_offset l) -> total_data l < total ->
  (forall p, In p l -> pt_hash p = h /\ pt_total p = total) ->
  forall arrived ts, (forall p, In p arrived -> pt_hash p = h -> In p l) ->
  short l h total (own ts h total) ->
  forall p o, In (p, o) (outcomes P fuel ts arrived) -> pt_hash p = h -> o = Pending.
Proof.
  intros P fuel l h total Hnd Hsum Hl arrived. unfold outcomes.
  induction arrived as [|q arrived IH]; intros ts Harr Hsh p o Hin Hp; [destruct Hin|].
  cbn [arrive] in Hin. unfold process_part in Hin. destruct (decide (pt_hash q = h)) as [Eh|Eh].
  - assert (Hq : In q l) by (apply Harr; [now left|assumption]).
    rewrite Eh in Hin.
    replace (match ts !! h with Some t => t | None => transfer_new (pt_total q) end) with (own ts h total) in Hin.
    2:{ unfold own. destruct (ts !! h); [reflexivity|]. f_equal. symmetry. now apply Hl. }
    destruct Hsh as [S1 S2 S3].
    assert (Hstep : exists t', add_part P fuel (own ts h total) (pt_offset q) (pt_data q) h = (Pending, t')
       /\ short l h total t').
    { unfold add_part. destruct (t_parts (own ts h total) !! pt_offset q) as [d0|] eqn:E0.
      - eexists. split; [reflexivity|]. split; cbn [t_parts t_total t_received]; [assumption| |].
        + intros o' Ho'. destruct (decide (pt_offset q = o')) as [<-|Hn]; [now apply in_map|].
          apply S2. now rewrite lookup_insert_ne in Ho' by assumption.
        + rewrite S3. apply got_ext. intros r Hr. apply bool_decide_ext.
          destruct (decide (pt_offset q = pt_offset r)) as [<-|Hn].
          * rewrite lookup_insert, E0. split; intros _; eexists; reflexivity.
          * now rewrite lookup_insert_ne by assumption.
      - cbv zeta. rewrite S1.
        set (parts' := <[pt_offset q := pt_data q]> (t_parts (own ts h total))).
        assert (Hr' : t_received (own ts h total) + len (pt_data q)
            = got (fun o => bool_decide (is_Some (parts' !! o))) l).
        { rewrite S3, <- got_add_gen; [|assumption|assumption|].
          - apply got_ext. intros r Hr. unfold parts'. destruct (N.eqb_spec (pt_offset r) (pt_offset q)) as [->|Hn].
            + rewrite lookup_insert. symmetry. rewrite bool_decide_eq_true. eexists; reflexivity.
            + rewrite lookup_insert_ne by congruence. reflexivity.
          - rewrite bool_decide_eq_false, E0. apply is_Some_None. }
        pose proof (got_mono l (fun o => bool_decide (is_Some (parts' !! o)))) as Hle.
        replace (t_received (own ts h total) + len (pt_data q) ?= total) with Lt
          by (symmetry; apply N.compare_lt_iff; lia).
        replace (t_received (own ts h total) + len (pt_data q) =? total) with false by lia.
        eexists. split; [reflexivity|]. split; cbn [t_parts t_total t_received]; [reflexivity| |exact Hr'].
        intros o' Ho'. unfold parts' in Ho'. destruct (decide (pt_offset q = o')) as [<-|Hn]; [now apply in_map|].
        apply S2. now rewrite lookup_insert_ne in Ho' by assumption. }
    destruct Hstep as (t' & E1 & E2). rewrite E1 in Hin.
    specialize (IH (<[h:=t']> ts)). destruct (arrive P fuel (<[h:=t']> ts) arrived) as [os ts2].
    cbn [fst] in *. destruct Hin as [H|H]; [now injection H as <- <-|].
    eapply IH; [|rewrite own_insert; assumption|exact H|assumption].
    intros r Hr. apply Harr. now right.
  - destruct (add_part P fuel _ _ _ _) as [r t'].
    set (ts1 := match r with Pending | Spinning => <[pt_hash q:=t']> ts | _ => delete (pt_hash q) ts end).
    replace (match r with Pending | Spinning => (r, <[pt_hash q:=t']> ts) | _ => (r, delete (pt_hash q) ts) end)
      with (r, ts1) in Hin by (unfold ts1; destruct r; reflexivity).
    assert (Hown : own ts1 h total = own ts h total).
    { unfold ts1. destruct r; first [apply own_insert_ne | apply own_delete_ne]; congruence. }
    specialize (IH ts1). rewrite Hown in IH. destruct (arrive P fuel ts1 arrived) as [os ts2].
    cbn [fst] in *. destruct Hin as [H|H]; [injection H as <- <-; congruence|].
    eapply IH; [|assumption|exact H|assumption]. intros r' Hr. apply Harr. now right.
Qed.

Lemma short_new : forall l h total, short l h total (transfer_new total).
Proof.
  intros. split; [reflexivity| |].
  - intros o [d H]. cbn [transfer_new t_parts] in H. rewrite lookup_empty in H. discriminate.
  - cbn [transfer_new t_parts t_received]. symmetry. apply got_none. intros p _.
    rewrite bool_decide_eq_false, lookup_empty. apply is_Some_None.
Qed.

(** What the sender puts into packets. *)
Definition first_size (x : extra_kind) : N :=
  match x with NoExtra => 1024 | Create _ _ => 944 | Confirm _ _ _ => 912 end.

Definition extra_ok (x : extra_kind) : Prop := Forall message_ok (extra_messages x).

Lemma message_bound : forall m size, message_ok m -> message_size m = Some size -> len (put_message m) < 2 ^ 25.
Proof.
  intros m size Hok H. pose proof (estimate m size Hok H) as [He _].
  destruct m; cbn [message_size message_ok] in *; try discriminate; injection H as <-;
    unfold blob_ok, MSG_ANSWER_SIZE, MSG_CUSTOM_SIZE, MSG_CONFIRM_CHANNEL_SIZE, MSG_QUERY_SIZE, MSG_NOP_SIZE, len in *; lia.
Qed.

(** The list of packets in terms of the first part and the rest. *)
Lemma plan_parts : forall P, prims_ok P -> forall x m size, message_ok m -> message_size m = Some size ->
  let data := put_message m in let h := sha256 P data in let total := len data in
  match extra_arg x with Some (s, _) => s | None => 0 end + size > 1024 ->
  let first := N.min total (first_size x) in
  exists rest,
    rest_parts (match x with NoExtra => length data | _ => S (length data) end) data h 1024 first = Some rest
    /\ 0 < first /\ (x <> NoExtra -> first < total /\ first = first_size x)
    /\ let p0 := MPart h total 0 (slice 0 (N.to_nat first) data) in
       plan P (extra_arg x) m size
       = Some (match extra_messages x with
               | e :: _ => OmPair (put_message e ++ put_message p0)
               | [] => OmSingle (put_message p0)
               end :: map (fun p => OmSingle (put_message p)) rest).
Proof.
  intros P HP x m size Hok Hsz data h total Hbig first.
  pose proof (estimate m size Hok Hsz) as [He1 He2].
  pose proof (message_bound m size Hok Hsz) as Hb. fold data in He1, He2, Hb. fold total in He1, He2, Hb.
  assert (Htot : x = NoExtra \/ first_size x < total).
  { destruct x; [now left|right..]; cbn [extra_arg first_size] in *; lia. }
  assert (Hpos : 0 < total).
  { destruct x; [cbn [extra_arg] in Hbig; lia | cbn [extra_arg] in Hbig; lia..]. }
  unfold plan. destruct x as [|k d|k pk d]; cbn [extra_arg extra_messages first_size] in *.
  - replace (0 + size <=? MAX_ADNL_MESSAGE_SIZE) with false by (unfold MAX_ADNL_MESSAGE_SIZE; lia).
    fold data. fold h. unfold MAX_ADNL_MESSAGE_SIZE.
    rewrite rest_parts_step by (fold total; lia).
    rewrite build_part_eq by (fold total; lia). fold total. rewrite !N.add_0_l. fold first.
    destruct (rest_parts_some (length data) data h 1024 first ltac:(lia)) as [rest Hrest].
    { unfold first, total, len. lia. }
    exists rest. rewrite Hrest. split; [reflexivity|]. split; [lia|]. split; [congruence|]. reflexivity.
  - replace (40 + size <=? MAX_ADNL_MESSAGE_SIZE) with false by (unfold MAX_ADNL_MESSAGE_SIZE; lia).
    fold data. fold h. unfold MAX_ADNL_MESSAGE_SIZE, MSG_PART_PREFIX_SIZE.
    rewrite build_part_eq by (fold total; lia). fold total. rewrite !N.add_0_l.
    change (1024 - 40 - 40) with 944. fold first.
    destruct (rest_parts_some (S (length data)) data h 1024 first ltac:(lia)) as [rest Hrest].
    { unfold first, total, len. lia. }
    exists rest. rewrite Hrest. split; [reflexivity|]. split; [lia|]. split; [intros _; lia|]. reflexivity.
  - replace (72 + size <=? MAX_ADNL_MESSAGE_SIZE) with false by (unfold MAX_ADNL_MESSAGE_SIZE; lia).
    fold data. fold h. unfold MAX_ADNL_MESSAGE_SIZE, MSG_PART_PREFIX_SIZE.
    rewrite build_part_eq by (fold total; lia). fold total. rewrite !N.add_0_l.
    change (1024 - 40 - 72) with 912. fold first.
    destruct (rest_parts_some (S (length data)) data h 1024 first ltac:(lia)) as [rest Hrest].
    { unfold first, total, len. lia. }
    exists rest. rewrite Hrest. split; [reflexivity|]. split; [lia|]. split; [intros _; lia|]. reflexivity.
Qed.

Lemma plan_single : forall P x m size, message_ok m -> extra_ok x ->
  match extra_arg x with Some (s, _) => s | None => 0 end + size <= 1024 ->
  exists packet, plan P (extra_arg x) m size = Some [packet] /\ carries packet (extra_messages x ++ [m]).
Proof.
  intros P x m size Hok Hx H. unfold plan, extra_ok in *.
  destruct x; cbn [extra_arg extra_messages] in *; unfold MAX_ADNL_MESSAGE_SIZE;
    (replace (_ <=? 1024) with true by lia); eexists; (split; [reflexivity|]).
  - now constructor.
  - inversion Hx; subst. now constructor.
  - inversion Hx; subst. now constructor.
Qed.

Lemma part_message_ok : forall P, prims_ok P -> forall m total o d, total < 2 ^ 32 -> o < 2 ^ 32 -> len d <= 1024 ->
  message_ok (MPart (sha256 P m) total o d).
Proof.
  intros P HP m total o d H1 H2 H3. cbn [message_ok]. unfold hash_ok, u32_ok, blob_ok, len in *.
  repeat split; try assumption; [apply (sha_len P HP)|lia].
Qed.

Lemma carries_each : forall l, Forall message_ok l ->
  Forall2 carries (map (fun p => OmSingle (put_message p)) l) (map (fun p => [p]) l).
Proof. induction 1; cbn [map]; constructor; [apply carries_one; assumption|assumption]. Qed.
Lemma concat_single : forall A (l : list A), concat (map (fun p => [p]) l) = l.
Proof. induction l; cbn; congruence. Qed.

(** The messages of the packets of a split message: the additional message and the parts. *)
Lemma split_carries : forall P, prims_ok P -> forall x m size, message_ok m -> message_size m = Some size -> extra_ok x ->
  match extra_arg x with Some (s, _) => s | None => 0 end + size > 1024 ->
  exists packets contents parts,
    plan P (extra_arg x) m size = Some packets /\ Forall2 carries packets contents
    /\ concat contents = extra_messages x ++ map part_message parts
    /\ NoDup (map pt_offset parts)
    /\ (forall p, In p parts -> pt_hash p = sha256 P (put_message m) /\ pt_total p = len (put_message m))
    /\ (len (put_message m) <= longest x ->
        exists pieces, Forall (fun d => d <> []) pieces /\ message_of pieces = put_message m /\ parts = parts_of P pieces)
    /\ (longest x < len (put_message m) -> total_data parts < len (put_message m)).
Proof.
  intros P HP x m size Hok Hsz Hx Hbig.
  destruct (plan_parts P HP x m size Hok Hsz Hbig) as (rest & Hrest & Hpos & Hfirst & Hplan).
  pose proof (estimate m size Hok Hsz) as [He1 He2]. pose proof (message_bound m size Hok Hsz) as Hb.
  set (data := put_message m) in *. set (h := sha256 P data) in *. set (total := len data) in *.
  set (first := N.min total (first_size x)) in *. cbv zeta in Hplan.
  set (d0 := slice 0 (N.to_nat first) data) in *.
  assert (Hf1024 : first <= 1024 /\ first <= total).
  { unfold first. destruct x; cbn [first_size]; lia. }
  assert (Hd0 : len d0 = first).
  { unfold d0. change 0%nat with (N.to_nat 0). rewrite slice_length_N by (fold total; lia). lia. }
  destruct (rest_parts_shape _ data h 1024 first rest ltac:(lia) ltac:(fold total; lia) Hrest)
    as (R1 & (R2 & R3) & R4 & R5). fold total in R2, R4.
  set (rp := as_parts rest) in *.
  set (parts := mk_part h total 0 d0 :: rp).
  assert (Hp0 : message_ok (MPart h total 0 d0)) by (apply part_message_ok; [assumption|lia..]).
  assert (Hrp : Forall message_ok rest).
  { rewrite R1. apply Forall_forall. intros q Hq. apply elem_of_list_fmap in Hq as (p & -> & Hp).
    rewrite Forall_forall in R2, R5. destruct (R2 p Hp) as (_ & G1 & G2), (R5 p Hp) as (_ & G3 & G4).
    unfold part_message. rewrite G1, G2. apply part_message_ok; [assumption|lia..]. }
  exists (match extra_messages x with
     | e :: _ => OmPair (put_message e ++ put_message (MPart h total 0 d0))
     | [] => OmSingle (put_message (MPart h total 0 d0)) end :: map (fun p => OmSingle (put_message p)) rest).
  exists ((extra_messages x ++ [MPart h total 0 d0]) :: map (fun p => [p]) rest).
  exists parts. split; [exact Hplan|]. split; [|split; [|split; [|split; [|split]]]].
  - constructor.
    + unfold extra_ok in Hx. destruct x; cbn [extra_messages app] in *; [apply carries_one; exact Hp0| |];
        apply Forall_inv in Hx; apply carries_two; assumption.
    + apply carries_each, Hrp.
  - cbn [concat]. rewrite <- app_assoc. f_equal. unfold parts. cbn [map app]. f_equal.
    rewrite concat_single. exact R1.
  - unfold parts. cbn [map pt_offset]. constructor; [|exact R3]. intros Hin.
    apply elem_of_list_fmap in Hin as (p & Hp1 & Hp2). rewrite Forall_forall in R2. apply R2 in Hp2 as (G & _). lia.
  - intros p [<-|Hp]; [split; reflexivity|]. rewrite Forall_forall in R2.
    apply elem_of_list_In, R2 in Hp as (_ & G1 & G2). now split.
  - intros Hle. destruct (N.eq_dec first total) as [E|E].
    + exists [data]. split; [constructor; [|constructor]; apply put_message_ne|].
      split; [unfold message_of; cbn; apply app_nil_r|].
      unfold parts, parts_of, message_of. cbn [concat cut_from]. rewrite app_nil_r. fold h.
      change (N.of_nat (length data)) with total.
      replace rp with (@nil part).
      2:{ unfold rp. replace rest with (@nil message); [reflexivity|].
          rewrite rest_parts_end in Hrest by (fold total; lia). congruence. }
      f_equal. f_equal. unfold d0. rewrite E. apply slice_all.
    + exists [d0; slice (N.to_nat first) (N.to_nat total) data].
      assert (Hl2 : len (slice (N.to_nat first) (N.to_nat total) data) = total - first)
        by (apply slice_length_N; fold total; lia).
      assert (Hcat : d0 ++ slice (N.to_nat first) (N.to_nat total) data = data).
      { unfold d0. change 0%nat with (N.to_nat 0). rewrite slice_join by (fold total; lia). apply slice_all. }
      split; [|split].
      * constructor; [|constructor; [|constructor]].
        -- intros En. rewrite En in Hd0. unfold len in Hd0. cbn [length] in Hd0. lia.
        -- intros En. rewrite En in Hl2. unfold len at 1 in Hl2. cbn [length] in Hl2. lia.
      * unfold message_of. cbn [concat]. rewrite app_nil_r. exact Hcat.
      * unfold parts, parts_of, message_of. cbn [concat cut_from]. rewrite app_nil_r, Hcat. fold h.
        change (N.of_nat (length data)) with total. f_equal. unfold rp.
        assert (Hr2 : rest = [MPart h total first (slice (N.to_nat first) (N.to_nat total) data)]).
        { assert (Hlim : first < total /\ total <= first + 1024).
          { unfold first in *. destruct x; cbn [first_size longest] in *; lia. }
          destruct (match x with NoExtra => length data | _ => S (length data) end) as [|f] eqn:Ef.
          - exfalso. destruct x; try discriminate. unfold total, len in *. lia.
          - rewrite rest_last in Hrest by (fold total; lia). fold total in Hrest. congruence. }
        rewrite Hr2. cbn [as_parts flat_map app]. do 3 f_equal.
        unfold len in Hd0. rewrite Hd0. lia.
  - intros Hgt. unfold total_data, parts. cbn [got pt_offset pt_data]. rewrite Hd0.
    change (got (fun _ => true) rp) with (total_data rp).
    assert (Hsize : first = first_size x) by (unfold first; destruct x; cbn [first_size longest] in *; lia).
    assert (Hrp2 : total_data rp < total - first); [|lia].
    (* the second part jumps too far *)
    assert (Hfu : exists f, match x with NoExtra => length data | _ => S (length data) end = S f).
    { destruct x; [|eauto..]. unfold total, len in *. cbn [longest] in Hgt. destruct (length data); [lia|eauto]. }
    destruct Hfu as [f Hfu]. rewrite Hfu in Hrest.
    assert (Hft : first + 1024 < total) by (rewrite Hsize; destruct x; cbn [first_size longest] in *; lia).
    rewrite rest_parts_step in Hrest by (fold total; lia).
    rewrite build_part_eq in Hrest by (fold total; lia). fold total in Hrest.
    rewrite N.min_r in Hrest by lia.
    destruct (rest_parts f data h 1024 (first + (first + 1024))) as [rest'|] eqn:E'; [|discriminate].
    injection Hrest as <-.
    apply rest_parts_shape in E' as (_ & _ & E' & _); [|lia|fold total; lia]. fold total in E'.
    unfold rp. cbn [as_parts flat_map app]. fold (as_parts rest'). unfold total_data in *. cbn [got pt_offset pt_data].
    rewrite slice_length_N by (fold total; lia). lia.
Qed.
