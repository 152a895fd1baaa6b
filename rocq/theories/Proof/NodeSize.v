(** Sizes of datagrams (C23). *)
From stdpp Require Import gmap.
From Coq Require Import NArith ZArith Lia.
From Coq Require Import ZifyBool ZifyNat ZifyN.
From Verif.Base Require Import Bytes BytesFacts Res.
From Verif.Model Require Import Crypto Tl Scheme ProtoAdnl Channel Handshake Peer Transfer AdnlNode.
From Verif.Spec Require Import CryptoSpec NodeSpec.
From Verif.Proof Require Import TlFacts CipherFacts SplitFacts TransferFacts NodeFacts NodeAuth.
Open Scope N_scope.

Lemma put_u32_len : forall v, len (put_u32 v) = 4.
Proof. intros. unfold len. now rewrite put_u32_length. Qed.
Lemma put_u64_len : forall v, len (put_u64 v) = 8.
Proof. intros. unfold len, put_u64. now rewrite le_bytes_length. Qed.
Lemma len_of : forall (l : bytes) n, length l = n -> len l = N.of_nat n.
Proof. intros. unfold len. now subst. Qed.

Lemma size_estimate : forall m size, ids_sized m -> message_size m = Some size -> len (put_message m) <= size.
Proof.
  intros m size Hok H. destruct m; cbn [message_size] in H; try discriminate; injection H as <-;
    cbn [put_message ids_sized] in *; unfold put_hash, MSG_ANSWER_SIZE, MSG_CUSTOM_SIZE,
      MSG_CONFIRM_CHANNEL_SIZE, MSG_QUERY_SIZE, MSG_NOP_SIZE in *;
    rewrite ?len_app, ?put_u32_len;
    repeat match goal with |- context [len (put_bytes ?d)] =>
      pose proof (put_bytes_bounds d); generalize dependent (len (put_bytes d)); intros end;
    unfold len in *; lia.
Qed.

Lemma slice_short : forall (data : bytes) a b, len (slice a b data) <= N.of_nat (b - a).
Proof. intros. unfold slice, len. pose proof (firstn_le_length (b - a) (skipn a data)). lia. Qed.

Lemma build_part_size : forall data hash max o, length hash = 32%nat ->
  len (put_message (fst (build_part data hash max o))) <= max + 51.
Proof.
  intros data hash max o Hh. unfold build_part. cbn [fst put_message]. unfold put_hash.
  match goal with |- context [put_bytes ?x] => set (piece := x) end.
  assert (Hp : len piece <= max).
  { unfold piece. destruct (_ <? _) eqn:E; [|unfold len; cbn; lia].
    eapply N.le_trans; [apply slice_short|]. lia. }
  pose proof (put_bytes_bounds piece). rewrite !len_app, !put_u32_len, (len_of _ _ Hh). lia.
Qed.

Lemma rest_parts_size : forall fuel data hash max o l, length hash = 32%nat ->
  rest_parts fuel data hash max o = Some l -> Forall (fun m => len (put_message m) <= max + 51) l.
Proof.
  intros fuel data hash max. induction fuel as [|k IH]; intros o l Hh H; cbn [rest_parts] in H.
  - destruct (_ <? _); [discriminate|]. injection H as <-. constructor.
  - destruct (_ <? _); [|injection H as <-; constructor].
    pose proof (build_part_size data hash max o Hh) as Hb.
    destruct (build_part data hash max o) as [m o']. cbn [fst] in Hb.
    destruct (rest_parts k data hash max o') as [l'|] eqn:E; [|discriminate]. injection H as <-.
    constructor; [assumption|]. now apply IH in E.
Qed.

Definition body_bound : N := 1079.

Lemma plan_size : forall P, prims_ok P -> forall extra m size l, ids_sized m -> message_size m = Some size ->
  match extra with Some (s, e) => len (put_message e) <= s /\ s <= 72 | None => True end ->
  plan P extra m size = Some l -> Forall (fun o => len (put_out_messages o) <= body_bound) l.
Proof.
  intros P HP extra m size l Hm Hs He H. pose proof (size_estimate m size Hm Hs) as Hsz.
  unfold plan, body_bound, MAX_ADNL_MESSAGE_SIZE, MSG_PART_PREFIX_SIZE in *. cbv zeta in H.
  destruct extra as [[s e]|].
  - destruct He as [He1 He2]. destruct (s + size <=? 1024) eqn:E.
    + injection H as <-. repeat constructor. cbn [put_out_messages]. rewrite !len_app, put_u32_len. lia.
    + pose proof (build_part_size (put_message m) (sha256 P (put_message m)) (1024 - 40 - s) 0 (sha_len P HP _)) as Hb.
      destruct (build_part _ _ _ _) as [first o]. cbn [fst] in Hb.
      destruct (rest_parts _ _ _ _ _) as [r|] eqn:Er; [|discriminate]. injection H as <-.
      apply rest_parts_size in Er; [|apply (sha_len P HP)]. constructor.
      * cbn [put_out_messages]. rewrite !len_app, put_u32_len. lia.
      * apply Forall_map. eapply Forall_impl; [exact Er|]. cbn. intros; lia.
  - destruct (0 + size <=? 1024) eqn:E.
    + injection H as <-. repeat constructor. cbn [put_out_messages]. lia.
    + destruct (rest_parts _ _ _ _ _) as [r|] eqn:Er; [|discriminate]. injection H as <-.
      apply rest_parts_size in Er; [|apply (sha_len P HP)].
      apply Forall_map. eapply Forall_impl; [exact Er|]. cbn. intros; lia.
Qed.

(** Channels whose ids and keys have their sizes. *)
Definition channel_sized (c : channel) : Prop :=
  length (ch_peer_key c) = 32%nat /\ forall priority, length (sc_id (pick priority (ch_out c))) = 32%nat.

Definition datagram_bound : N := 1360.


Lemma out_packet_size : forall r1 from ms al seqno confirm dates sg r2,
  len (put_bytes r1) = 4 -> len (put_bytes r2) = 8 -> len (put_out_messages ms) <= body_bound ->
  match from with Some (PkEd25519 k) => length k = 32%nat | None => True | _ => False end ->
  match sg with Some g => length g = 64%nat | None => True end ->
  len (put_out_packet (mk_out_packet r1 from ms al seqno confirm dates sg r2)) <= 1259.
Proof.
  intros r1 from ms al seqno confirm dates sg r2 H1 H2 H3 H4 H5. unfold put_out_packet.
  cbn [op_rand1 op_from op_messages op_address op_seqno op_confirm_seqno op_reinit_dates op_signature op_rand2].
  rewrite !len_app, !put_u32_len, !put_u64_len, H1, H2.
  assert (A : len (put_address_list al) <= 32).
  { unfold put_address_list. rewrite !len_app, !put_u32_len. destruct (al_address al); cbn [put_opt].
    - unfold put_address. rewrite !len_app, !put_u32_len. lia.
    - unfold len. cbn. lia. }
  assert (B : len (put_opt put_public_key from) <= 36).
  { destruct from as [[k|k|k|k]|]; [|destruct H4..|]; cbn [put_opt put_public_key]; [|unfold len; cbn; lia].
    rewrite len_app, put_u32_len. unfold put_hash. rewrite (len_of _ _ H4). lia. }
  assert (C : len (put_opt put_reinit_dates dates) <= 8).
  { destruct dates; cbn [put_opt]; [|unfold len; cbn; lia]. unfold put_reinit_dates.
    rewrite len_app, !put_u32_len. lia. }
  assert (D : len (put_opt put_bytes sg) <= 68).
  { destruct sg as [g|]; cbn [put_opt]; [|unfold len; cbn; lia].
    unfold len. rewrite put_bytes_length, H5. vm_compute. discriminate. }
  unfold body_bound in *. lia.
Qed.

Lemma packet_size : forall P, prims_ok P -> forall n now i p s ms r,
  length i = 32%nat -> length (r_bytes r) = 10%nat -> len (put_out_messages ms) <= body_bound ->
  match s with SChannel c _ => channel_sized c | SRandom _ => True end ->
  len (snd (snd (send_packet P n now i p s ms r))) <= datagram_bound.
Proof.
  intros P HP n now i p s ms r Hi Hr Hm Hs.
  assert (H1 : length (firstn 3 (r_bytes r)) = 3%nat) by (rewrite firstn_length; lia).
  assert (H2 : length (skipn 3 (r_bytes r)) = 7%nat) by (rewrite skipn_length; lia).
  assert (B1 : len (put_bytes (firstn 3 (r_bytes r))) = 4).
  { unfold len. rewrite put_bytes_length, H1. reflexivity. }
  assert (B2 : len (put_bytes (skipn 3 (r_bytes r))) = 8).
  { unfold len. rewrite put_bytes_length, H2. reflexivity. }
  unfold send_packet. cbv zeta.
  match goal with |- context [let '(_, _) := ?x in _] => destruct x as [la dest] end.
  assert (Hv : forall v : option N, (match v with Some _ => 4 | None => 0 end <= 4)%nat) by (intros []; lia).
  specialize (Hv (o_version (n_opts n))).
  destruct s as [c pr|k].
  - match goal with |- context [if ?b then SChannel c false else SChannel c pr] => destruct b end; cbn [snd].
    all: unfold channel_encrypt; rewrite encrypt_with_seal; unfold len; rewrite seal_length by assumption;
      rewrite (proj2 Hs);
      match goal with |- context [put_out_packet (mk_out_packet ?a ?b ?c ?d ?e ?f ?g ?h ?k)] =>
        pose proof (out_packet_size a b c d e f g h k B1 B2 Hm I I) as Hp end;
      unfold len, datagram_bound in *; lia.
  - cbn [snd op_rand1 op_from op_messages op_address op_seqno op_confirm_seqno op_reinit_dates op_rand2].
    rewrite build_handshake_seal. unfold len. rewrite seal_length by assumption.
    rewrite app_length, Hi, (pub_len P HP).
    match goal with |- context [length (put_out_packet (mk_out_packet ?a ?b ?c ?d ?e ?f ?g ?h ?k))] =>
        pose proof (out_packet_size a b c d e f g h k B1 B2 Hm (pub_len P HP _) (sign_len P HP _ _)) as Hp end.
    unfold len, datagram_bound in *. lia.
Qed.

(** Everything the node ever sends. *)
Definition out_sized (n : node) : Prop := Forall (fun d => len (snd d) <= datagram_bound) (n_out n).
Definition heap_sized (n : node) : Prop := forall h c, n_heap n !! h = Some c -> channel_sized c.
Definition peers_sized (n : node) : Prop := forall l i p, get_peer n l i = Some p -> length i = 32%nat.
Definition sized (n : node) : Prop := out_sized n /\ heap_sized n /\ peers_sized n.

Lemma put_peer_out : forall n l i p, n_out (put_peer n l i p) = n_out n.
Proof. intros. unfold put_peer. now destruct (n_peers n !! l). Qed.

Lemma send_packets_out : forall P, prims_ok P -> forall now l i s ms rs k n p,
  length i = 32%nat -> rnd_sized rs -> Forall (fun o => len (put_out_messages o) <= body_bound) ms ->
  match s with SChannel c _ => channel_sized c | SRandom _ => True end ->
  out_sized n -> out_sized (send_packets P n now l i p s ms rs k).
Proof.
  intros P HP now l i s ms. induction ms as [|m ms IH]; intros rs k n p Hi Hrs Hms Hs Hn; [exact Hn|].
  cbn [send_packets]. apply Forall_cons in Hms as [Hm Hms].
  pose proof (packet_size P HP n now i p s m (rs k) Hi (Hrs k) Hm Hs) as Hsz.
  destruct (send_packet P n now i p s m (rs k)) as [p' d]. cbn [snd] in Hsz.
  apply IH; try assumption. unfold out_sized, push_out. cbn [n_out]. rewrite put_peer_out.
  apply Forall_app. split; [exact Hn|]. now repeat constructor.
Qed.

Lemma send_message_out : forall P, prims_ok P -> forall n now l i m priority rs,
  ids_sized m -> rnd_sized rs -> sized n -> out_sized (snd (send_message P n now l i m priority rs)).
Proof.
  intros P HP n now l i m priority rs Hm Hrs (Ho & Hh & Hp). unfold send_message.
  destruct (n_peers n !! l) as [ps|] eqn:El; [|exact Ho].
  destruct (ps !! i) as [p|] eqn:Ei; [|exact Ho].
  destruct (n_keys n !! l) as [secret|]; [|exact Ho].
  assert (Hi : length i = 32%nat). { apply (Hp l i p). unfold get_peer. now rewrite El. }
  assert (Hch : forall c, match n_by_peer n !! i with Some h => n_heap n !! h | None => None end = Some c -> channel_sized c).
  { intros c. destruct (n_by_peer n !! i) as [h|]; [|discriminate]. apply Hh. }
  cbv zeta. destruct (match n_by_peer n !! i with Some h => n_heap n !! h | None => None end) as [c|].
  - specialize (Hch c eq_refl). destruct (message_size m) as [size|] eqn:Es; [|exact Ho].
    destruct (ch_ready c).
    + destruct (plan P None m size) as [pl|] eqn:Epl; [|exact Ho]. cbn [snd].
      apply send_packets_out; try assumption. eapply plan_size; eauto. exact I.
    + destruct (plan P _ m size) as [pl|] eqn:Epl; [|exact Ho]. cbn [snd].
      apply send_packets_out; try assumption; [|exact I]. eapply plan_size; eauto.
      cbn [put_message]. unfold put_hash, MSG_CONFIRM_CHANNEL_SIZE.
      rewrite !len_app, !put_u32_len, (len_of _ _ (pub_len P HP _)), (len_of _ _ (proj1 Hch)). lia.
  - destruct (message_size m) as [size|] eqn:Es; [|exact Ho].
    destruct (plan P _ m size) as [pl|] eqn:Epl; [|exact Ho]. cbn [snd].
    apply send_packets_out; try assumption; [|exact I]. eapply plan_size; eauto.
    cbn [put_message]. unfold put_hash, MSG_CREATE_CHANNEL_SIZE.
    rewrite !len_app, !put_u32_len, (len_of _ _ (pub_len P HP _)). lia.
Qed.

Lemma heap_same : forall a b, n_heap b = n_heap a -> heap_sized a -> heap_sized b.
Proof. intros a b H Ha h c Hc. rewrite H in Hc. eauto. Qed.
Lemma peers_sized_rel : forall (A : bytes -> bytes -> peer -> Prop) (R : peer -> peer -> Prop) a b, (forall l i p, A l i p -> length i = 32%nat) -> peers_rel A R a b ->
  peers_sized a -> peers_sized b.
Proof.
  intros A R a b HA [_ H] Ha l i p Hp. specialize (H l i). rewrite Hp in H.
  destruct (get_peer a l i) eqn:E; [eauto|eauto].
Qed.
Lemma peers_sized_same : forall a b, n_peers b = n_peers a -> peers_sized a -> peers_sized b.
Proof. intros a b H Ha l i p Hp. unfold get_peer in Hp. rewrite H in Hp. apply (Ha l i p Hp). Qed.

Lemma send_sized : forall P, prims_ok P -> forall n now l i m priority rs,
  ids_sized m -> rnd_sized rs -> sized n -> sized (snd (send_message P n now l i m priority rs)).
Proof.
  intros P HP n now l i m priority rs Hm Hrs Hn. split; [now apply send_message_out|].
  destruct (quiet_send P n now l i m priority rs) as [_ (Q & _) _ Qp]. destruct Hn as (_ & Hh & Hp). split.
  - now apply (heap_same n).
  - apply (peers_sized_rel none_new kept n); [|exact Qp|exact Hp]. intros ? ? ? [].
Qed.

Lemma put_sized : forall n l i p p', get_peer n l i = Some p -> sized n -> sized (put_peer n l i p').
Proof.
  intros n l i p p' Hg (Ho & Hh & Hp). split; [|split].
  - unfold out_sized. now rewrite put_peer_out.
  - apply (heap_same n); [|exact Hh]. destruct (put_peer_channels n l i p') as (E & _). auto.
  - intros l' i' q Hq. destruct (decide ((l', i') = (l, i))) as [E|E].
    + injection E as -> ->. eauto.
    + rewrite get_put_other in Hq by assumption. eauto.
Qed.

Lemma add_sized : forall n ctx l i a k f, length i = 32%nat -> sized n -> sized (snd (add_peer n ctx l i a k f)).
Proof.
  intros n ctx l i a k f Hi Hn. destruct (add_peer_effect n ctx l i a k f) as (_ & (E & _) & _ & He).
  destruct He as [->|(_ & _ & _ & p' & _ & Hput & _)]; [exact Hn|]. rewrite Hput in *. destruct Hn as (Ho & Hh & Hp).
  split; [|split].
  - unfold out_sized. now rewrite put_peer_out.
  - now apply (heap_same n).
  - intros l' i' q Hq. destruct (decide ((l', i') = (l, i))) as [E'|E'].
    + injection E' as -> ->. exact Hi.
    + rewrite get_put_other in Hq by assumption. eauto.
Qed.

Lemma set_channels_sized : forall n heap a b, (forall h c, heap !! h = Some c -> channel_sized c) -> sized n ->
  sized (set_channels n heap a b).
Proof. intros n heap a b H (Ho & _ & Hp). split; [exact Ho|]. split; [exact H|exact Hp]. Qed.

Lemma insert_sized : forall (m : gmap nat channel) h c, (forall h c, m !! h = Some c -> channel_sized c) -> channel_sized c ->
  forall h' c', <[h := c]> m !! h' = Some c' -> channel_sized c'.
Proof. intros m h c Hm Hc h' c' H. apply lookup_insert_Some in H as [[_ <-]|[_ H]]; eauto. Qed.

Lemma create_sized : forall P, prims_ok P -> forall n l i k d ctx, length k = 32%nat -> sized n ->
  sized (snd (create_channel P n l i k d ctx)).
Proof.
  intros P HP n l i k d ctx Hk Hn. unfold create_channel.
  destruct (n_peers n !! l) as [ps|]; [|exact Hn]. destruct (ps !! i) as [p|]; [|exact Hn].
  cbv zeta. pose proof (sc_id_length P HP l i (p_channel_secret p) k d ctx) as Hid.
  set (new := channel_new P l i (p_channel_secret p) k d ctx) in *.
  assert (Hnew : channel_sized new).
  { split; [|exact Hid]. unfold new, channel_new. destruct (bytes_cmp l i); exact Hk. }
  clearbody new. destruct Hn as (Ho & Hh & Hp).
  assert (Hins : forall h a b, sized (set_channels n (<[h := new]> (n_heap n)) a b)).
  { intros. apply set_channels_sized; [now apply insert_sized|split; [|split]; assumption]. }
  destruct (n_by_peer n !! i) as [oh|]; [|apply Hins].
  destruct (n_heap n !! oh) as [c|] eqn:Ec; [|apply Hins].
  destruct (is_still_valid c k d); [|apply Hins]. cbn [snd]. destruct ctx; [split; [|split]; assumption|].
  apply set_channels_sized; [|split; [|split]; assumption]. apply insert_sized; [exact Hh|].
  destruct (Hh oh c Ec). split; assumption.
Qed.

Lemma drop_out : forall n i, n_out (drop_channel n i) = n_out n.
Proof.
  intros n i. unfold drop_channel. destruct (n_by_peer n !! i) as [h|]; [|reflexivity]. now destruct (n_heap n !! h).
Qed.
Lemma drop_sized : forall n i, sized n -> sized (drop_channel n i).
Proof.
  intros n i (Ho & Hh & Hp). destruct (drop_channel_effect n i) as (_ & E1 & _ & E2). split; [|split].
  - unfold out_sized. now rewrite drop_out.
  - now apply (heap_same n).
  - now apply (peers_sized_same n).
Qed.

(** Parsed messages have 32-byte keys. *)
Lemma take_len : forall n l a r, take n l = Some (a, r) -> length a = n.
Proof.
  intros n l a r H. unfold take in H. destruct (Nat.leb_spec n (length l)); [|discriminate].
  injection H as <- _. rewrite firstn_length. lia.
Qed.
Lemma bind_some : forall A B (p : parser A) (f : A -> parser B) l b r, bind p f l = Some (b, r) ->
  exists a l', p l = Some (a, l') /\ f a l' = Some (b, r).
Proof. intros A B p f l b r H. unfold bind in H. destruct (p l) as [[a l']|]; [eauto|discriminate]. Qed.

Ltac binds H := repeat (apply bind_some in H as (? & ? & ? & H)).
Lemma get_message_sized : forall l m r, get_message l = Some (m, r) -> ids_sized m.
Proof.
  intros l m r H. unfold get_message in H. apply bind_some in H as (c & l' & _ & H).
  repeat match type of H with (if ?b then _ else _) _ = _ => destruct b end; [..|discriminate];
    binds H; injection H as <- _; cbn [ids_sized]; try exact I;
    repeat match goal with H : get_hash _ = Some _ |- _ => apply take_len in H end; try assumption; split; assumption.
Qed.
Lemma get_many_all : forall A (p : parser A) (Q : A -> Prop), (forall l a r, p l = Some (a, r) -> Q a) ->
  forall fuel n l ms r, get_many fuel p n l = Some (ms, r) -> Forall Q ms.
Proof.
  intros A p Q HQ fuel. induction fuel as [|k IH]; intros n l ms r H; cbn [get_many] in H.
  - destruct (n =? 0); [injection H as <- _; constructor|discriminate].
  - destruct (n =? 0); [injection H as <- _; constructor|].
    destruct (p l) as [[a l']|] eqn:E; [|discriminate].
    destruct (get_many k p (n - 1) l') as [[rest r']|] eqn:E2; [|discriminate]. injection H as <- _.
    constructor; eauto.
Qed.

Lemma parse_packet_sized : forall c p, parse_packet c = Some p -> Forall ids_sized (ip_messages p).
Proof.
  intros c p H. unfold parse_packet, deserialize in H.
  destruct (get_in_packet_at c c) as [[p' r]|] eqn:E; [|discriminate]. injection H as ->.
  unfold get_in_packet_at in E. apply bind_some in E as (ctor & l0 & _ & E).
  destruct (negb _); [discriminate|].
  do 5 apply bind_some in E as (? & ? & _ & E).
  apply bind_some in E as (m & ? & Hm & E). apply bind_some in E as (ms & ? & Hms & E).
  do 9 apply bind_some in E as (? & ? & _ & E).
  assert (Hm' : forall x, m = Some x -> ids_sized x).
  { intros y ->. unfold get_optional in Hm. destruct (N.testbit _ 2); [|discriminate].
    apply bind_some in Hm as (a & ? & Ha & Hm). injection Hm as <- _. now apply get_message_sized in Ha. }
  assert (Hms' : forall x, ms = Some x -> Forall ids_sized x).
  { intros y ->. unfold get_optional in Hms. destruct (N.testbit _ 3); [|discriminate].
    apply bind_some in Hms as (a & ? & Ha & Hms). injection Hms as <- _.
    unfold get_vector in Ha. apply bind_some in Ha as (? & ? & _ & Ha).
    eapply get_many_all in Ha; [exact Ha|]. exact get_message_sized. }
  destruct ms as [ms|], m as [m|]; try discriminate E; injection E as <- _; cbn [ip_messages].
  - constructor; [apply (Hm' m eq_refl)|apply (Hms' ms eq_refl)].
  - apply (Hms' ms eq_refl).
  - repeat constructor. apply (Hm' m eq_refl).
Qed.

Lemma process_message_sized : forall P, prims_ok P -> forall fuel n l i m, ids_sized m -> sized n ->
  sized (snd (process_message P fuel n l i m)).
Proof.
  intros P HP.
  assert (Hw : forall n l i m, ids_sized m -> sized n -> sized (snd (process_whole P n l i m))).
  { intros n l i m Hm Hn. destruct m; cbn [process_whole snd ids_sized] in *; try exact Hn.
    - destruct (valid_pub P key); [|exact Hn].
      pose proof (create_sized P HP n l i key date CtxConfirm (proj1 Hm) Hn) as H.
      destruct (create_channel _ _ _ _ _ _ _) as [[|] ?]; exact H.
    - destruct (valid_pub P key); [|exact Hn].
      pose proof (create_sized P HP n l i key date CtxCreate Hm Hn) as H.
      destruct (create_channel _ _ _ _ _ _ _) as [[|] ?]; exact H. }
  intros fuel n l i m Hm Hn. destruct m; cbn [process_message]; try (apply Hw; assumption).
  destruct (process_part P fuel (n_transfers n) hash total_size offset data) as [r ts].
  assert (Ht : sized (set_transfers n ts)) by exact Hn.
  destruct r; try exact Ht. unfold deserialize. destruct (get_message message) as [[m r]|] eqn:E; [|exact Ht].
  apply Hw; [|exact Ht]. now apply get_message_sized in E.
Qed.

Lemma process_messages_sized : forall P, prims_ok P -> forall fuel ms n l i, Forall ids_sized ms -> sized n ->
  sized (snd (process_messages P fuel n l i ms)).
Proof.
  intros P HP fuel ms. induction ms as [|m ms IH]; intros n l i Hms Hn; cbn [process_messages]; [exact Hn|].
  apply Forall_cons in Hms as [Hm Hms].
  pose proof (process_message_sized P HP fuel n l i m Hm Hn) as H.
  destruct (process_message P fuel n l i m) as [[ds|e] n1]; cbn [snd] in *; [|exact H].
  specialize (IH n1 l i Hms H). destruct (process_messages P fuel n1 l i ms) as [[o ds2] n2]. exact IH.
Qed.

Lemma open_sized : forall P n data, sized n -> sized (snd (open_datagram P n data)).
Proof.
  intros P n data Hn. unfold open_datagram.
  destruct (parse_handshake _ _ _) as [[[[i v] ct]|]|e]; try exact Hn.
  destruct (n_by_id n !! firstn 32 data) as [[pr h]|]; [|exact Hn].
  destruct (n_heap n !! h) as [c|] eqn:Ec; [|exact Hn].
  destruct (channel_decrypt P c data pr) as [[v ct]|e]; [|exact Hn]. cbn [snd].
  apply set_channels_sized; [|exact Hn]. destruct Hn as (_ & Hh & _). apply insert_sized; [exact Hh|].
  destruct (Hh h c Ec). split; assumption.
Qed.

Lemma check_packet_sized : forall P, prims_ok P -> forall n now raw packet l cp pr f rs, rnd_sized rs -> sized n ->
  sized (snd (check_packet P n now raw packet l cp pr f rs)).
Proof.
  intros P HP n now raw packet l cp pr f rs Hrs Hn. unfold check_packet.
  assert (Hs : sized (snd (packet_source P n now raw packet l cp f))).
  { destruct (packet_source_effect P n now raw packet l cp f) as [->|(k & a & -> & _)]; [exact Hn|].
    apply add_sized; [apply (sha_len P HP)|exact Hn]. }
  destruct (packet_source P n now raw packet l cp f) as [[[i chk]|e] n1]; cbn [snd] in Hs; [|exact Hs].
  destruct (n_peers n1 !! l) as [ps|] eqn:El; [|exact Hs].
  destruct (match cp with Some _ => _ | None => false end); [exact Hs|].
  destruct (ps !! i) as [p|] eqn:Ei; [|exact Hs].
  assert (Hg : get_peer n1 l i = Some p) by (unfold get_peer; now rewrite El).
  destruct (if chk then _ else None); [exact Hs|].
  pose proof (check_reinit_effect P n1 now l i p (ip_reinit_dates packet) rs Hg) as [_ Hc].
  assert (Hr : sized (snd (check_reinit P n1 now l i p (ip_reinit_dates packet) rs))).
  { unfold check_reinit. destruct (ip_reinit_dates packet) as [d|]; [|exact Hs].
    destruct (n_start n1 <? rd_target d); [exact Hs|]. destruct (_ <? rd_local d); [exact Hs|].
    destruct (try_reinit_sender p (rd_local d)) as [[] p']; [|exact Hs].
    assert (Hp' : sized (put_peer n1 l i p')) by (eapply put_sized; eauto).
    destruct (_ && _); [|exact Hp'].
    pose proof (send_sized P HP (put_peer n1 l i p') now l i MNop false rs I Hrs Hp') as H.
    destruct (send_message _ _ _ _ _ _ _ _) as [[|] ?]; exact H. }
  destruct (check_reinit P n1 now l i p (ip_reinit_dates packet) rs) as [[p2|e] n2]; cbn [snd] in Hr; [|exact Hr].
  destruct (Hc _ _ eq_refl) as (_ & Hg2 & _). cbv zeta.
  match goal with |- context [put_peer n2 l i ?p3] =>
    assert (H3 : sized (put_peer n2 l i p3)) by (eapply put_sized; eauto) end.
  match goal with |- context [fst ?x] => destruct (fst x) end;
    [|exact H3|exact Hr].
  destruct (ip_confirm_seqno packet); [|exact H3]. match goal with |- context [if ?b then _ else _] => destruct b end; exact H3.
Qed.

Lemma step_sized : forall P, prims_ok P -> forall fuel n o, op_sized o -> sized n -> sized (step P fuel n o).
Proof.
  intros P HP fuel n o Ho Hn. destruct o; cbn [step op_sized] in *.
  - now apply add_sized.
  - unfold remove_peer. destruct (n_peers n !! local_id) as [ps|] eqn:El; [|exact Hn]. cbn [snd].
    destruct (drop_sized n peer_id Hn) as (H1 & H2 & _). split; [exact H1|]. split; [exact H2|].
    destruct Hn as (_ & _ & Hp). intros l i p Hg. unfold get_peer, set_peers in Hg. cbn [n_peers] in Hg.
    destruct (decide (l = local_id)) as [->|Hne].
    + rewrite lookup_insert in Hg. apply lookup_delete_Some in Hg as [_ Hg]. apply (Hp local_id i p).
      unfold get_peer. now rewrite El.
    + rewrite lookup_insert_ne in Hg by congruence. now apply (Hp l i p).
  - now apply send_sized.
  - unfold handle_received_data. pose proof (open_sized P n data Hn) as H1.
    destruct (open_datagram P n data) as [[[od|]|e] n1]; cbn [snd] in *; try exact H1.
    destruct (match od_version od with Some _ => _ | None => false end); [exact H1|].
    destruct (parse_packet (od_contents od)) as [packet|] eqn:Ep; [|exact H1].
    pose proof (check_packet_sized P HP n1 now (od_contents od) packet (od_local od) (od_channel_peer od) (od_priority od) fresh rs Ho H1) as H3.
    destruct (check_packet P n1 now _ packet _ _ _ fresh rs) as [[[j|]|e] n2]; cbn [snd] in *; try exact H3.
    apply process_messages_sized; [assumption| |assumption]. now apply parse_packet_sized in Ep.
  - destruct sent_over as [h|]; cbn [query_timed_out]; [|exact Hn].
    destruct (n_heap n !! h) as [c|] eqn:Ec; [|exact Hn].
    destruct (update_drop_timeout _ _ _) as [b t]. set (n' := set_channels _ _ _ _).
    assert (H' : sized n').
    { apply set_channels_sized; [|exact Hn]. destruct Hn as (_ & Hh & _). apply insert_sized; [exact Hh|].
      destruct (Hh h c Ec). split; assumption. }
    destruct b; [|exact H']. unfold reset_peer.
    destruct (n_peers n' !! local_id) as [ps|] eqn:El; [|exact H'].
    destruct (ps !! peer_id) as [p|] eqn:Ei; [|exact H']. cbn [snd].
    eapply put_sized; [|apply drop_sized, H'].
    unfold get_peer. destruct (drop_channel_effect n' peer_id) as (_ & -> & _). rewrite El. exact Ei.
  - exact Hn.
Qed.

Lemma every_datagram_fits : forall P, prims_ok P -> forall fuel addr start opts filter keys ops d,
  Forall op_sized ops -> In d (n_out (run P fuel (node_new addr start opts filter keys) ops)) ->
  N.of_nat (length (snd d)) <= 1360.
Proof.
  intros P HP fuel addr start opts filter keys ops d Hops Hd.
  assert (H : sized (run P fuel (node_new addr start opts filter keys) ops)).
  { assert (H0 : sized (node_new addr start opts filter keys)).
    { split; [constructor|]. split.
      - intros h c H. cbn in H. rewrite lookup_empty in H. discriminate.
      - intros l i p H. unfold get_peer, node_new in H. cbn [n_peers] in H. rewrite lookup_fmap in H.
        destruct (keys !! l); cbn in H; [|discriminate]. rewrite lookup_empty in H. discriminate. }
    revert H0. generalize (node_new addr start opts filter keys) as n. clear Hd.
    induction Hops as [|o ops Ho Hops IH]; intros n Hn; [exact Hn|]. cbn [run fold_left]. apply IH.
    now apply step_sized. }
  destruct H as [H _]. unfold out_sized in H. rewrite Forall_forall in H. apply H. now apply elem_of_list_In.
Qed.
