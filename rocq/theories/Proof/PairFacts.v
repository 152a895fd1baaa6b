(** Everything that can happen between two nodes that know each other. *)
From stdpp Require Import gmap.
From Coq Require Import NArith Lia.
From Coq Require Import ZifyBool ZifyNat ZifyN.
From Verif.Base Require Import Bytes BytesFacts Res.
From Verif.Model Require Import Crypto Encryption Tl Scheme ProtoAdnl History Channel Handshake Peer Transfer AdnlNode.
From Verif.Spec Require Import Codec CryptoSpec ChannelSpec HistorySpec TransferSpec NodeSpec BystanderSpec PairSpec.
From Verif.Proof Require Import HistoryFacts CipherFacts PacketFacts PeerFacts SplitFacts NodeFacts NodeSize BystanderFacts PairWire PairReceive.
Open Scope N_scope.

Lemma channel_ids_sym : forall P, prims_ok P -> forall x y, channel_ids P y x = channel_ids P x y.
Proof. intros P HP x y. unfold channel_ids. now rewrite (dh_comm P HP). Qed.
Lemma parties_sym : forall P, prims_ok P -> forall x y, parties_ok P x y -> parties_ok P y x.
Proof.
  intros P HP x y (H1 & H2 & H3 & H4). split; [exact H2|]. split; [exact H1|]. split; [congruence|].
  rewrite (channel_ids_sym P HP). apply NoDup_cons_iff in H4 as [H4 H5]. apply NoDup_cons_iff in H5 as [H5 H6].
  constructor; [|constructor; [|exact H6]].
  - intros [E|E]; [apply H4; now left|contradiction].
  - intros E. apply H4. now right.
Qed.

Lemma parties_ways : forall P, prims_ok P -> forall x y, parties_ok P x y -> ways_ok P x y.
Proof.
  intros P HP x y (H1 & H2 & H3 & H4).
  assert (Hin : channel_in_id (new_chan P x y) true <> channel_in_id (new_chan P x y) false
    /\ forall pr, channel_in_id (new_chan P x y) pr <> party_id P x).
  { unfold channel_ids in H4. cbn [map] in H4.
    apply NoDup_cons_iff in H4 as [N1 N2]. apply NoDup_cons_iff in N2 as [N2 N3].
    apply NoDup_cons_iff in N3 as [N3 N4]. apply NoDup_cons_iff in N4 as [N4 N5].
    apply NoDup_cons_iff in N5 as [N5 N6].
    unfold channel_in_id, new_chan, channel_new, side_from_secret, compute_channel_id.
    set (secret := dh P (pa_channel x) (pub_of P (pa_channel y))) in *.
    destruct (bytes_cmp (party_id P x) (party_id P y)); cbn [ch_in pick sd_priority sd_ordinary sc_id].
    all: split; [intros E|intros [] E]; cbn [pick sd_priority sd_ordinary sc_id] in *.
    all: first [apply N3; rewrite E; now left | apply N5; rewrite E; now left
               | apply N1; rewrite <- E; cbn [In]; tauto]. }
  split; try assumption.
  - intros E. apply NoDup_cons_iff in H4 as [H4 _]. apply H4. now left.
  - apply Hin.
  - apply Hin.
Qed.

Lemma other_other : forall w, other (other w) = w.
Proof. now intros []. Qed.
Lemma who_cases : forall v w, v = w \/ v = other w.
Proof. intros [] []; auto. Qed.
Lemma other_neq : forall w, other w <> w.
Proof. intros []; discriminate. Qed.

Lemma node_changed_same : forall s w n' now m seen, node_of (changed s w n' now m seen) w = n'.
Proof. now intros s [] n' now m seen. Qed.
Lemma node_changed_other : forall s w n' now m seen, node_of (changed s w n' now m seen) (other w) = node_of s (other w).
Proof. now intros s [] n' now m seen. Qed.
Lemma letters_changed : forall s w n' now m seen out, n_out n' = n_out (node_of s w) ++ out ->
  pr_letters (changed s w n' now m seen) = pr_letters s ++ map (fun d => mk_letter w now m (fst d) (snd d)) out.
Proof. intros s w n' now m seen out H. unfold changed. cbn [pr_letters]. rewrite H, drop_app. reflexivity. Qed.

Section facts.
Variables (P : prims) (fuel : nat) (a b : party).
Variable HP : prims_ok P.
Variable Hab : parties_ok P a b.
Local Notation party w := (pick_who w a b).
Local Notation idw := (id_of_who P a b).

Lemma ways : forall w, ways_ok P (party w) (party (other w)).
Proof. intros []; cbn [pick_who other]; apply parties_ways; try assumption. now apply parties_sym. Qed.

Notation tag := (who * bool * N)%type.
Definition letter_with (s : pair) (pp : who -> peer) (l : letter) (pr : bool) (q c : N) (k : kind) : Prop :=
  wire P (party (lt_from l)) (party (other (lt_from l))) (lt_time l) (lt_message l) (lt_data l) pr q c k
  /\ small_payload (lt_message l) /\ plain P a b l /\ lt_dest l = pa_addr (party (other (lt_from l)))
  /\ q <= ss_seqno pr (p_send (pp (lt_from l))) /\ c <= ss_seqno pr (p_send (pp (other (lt_from l))))
  /\ (k <> KCreate -> has (node_of s (lt_from l)) (idw (other (lt_from l)))) /\ (k = KChannel -> has (node_of s (other (lt_from l))) (idw (lt_from l))).
Definition letter_ok (s : pair) (pp : who -> peer) (l : letter) (t : tag) : Prop :=
  let '(w, pr, q) := t in w = lt_from l /\ exists c k, letter_with s pp l pr q c k.
Definition numbers_ok (s : pair) (pp : who -> peer) (tags : list tag) (w : who) (pr : bool) (known : remembered) : Prop :=
  inv (rs_history pr (p_recv (pp w))) known
  /\ h_seqno (rs_history pr (p_recv (pp w))) <= ss_seqno pr (p_send (pp (other w)))
  /\ (forall q, In q known -> exists i, In i (pr_seen s) /\ nth_error tags i = Some (other w, pr, q))
  /\ (o_history_enabled (pa_opts (party w)) = true -> (length (pr_letters s) < 256)%nat ->
      forall i q, In i (pr_seen s) -> nth_error tags i = Some (other w, pr, q) -> In q known).
Record pair_inv (s : pair) (pp : who -> peer) (tags : list tag) : Prop := mk_pair_inv
  { pi_good : forall w, node_good P (party w) (party (other w)) (node_of s w) (pp w);
    pi_ready : forall w, ready (node_of s w) (idw (other w)) -> has (node_of s (other w)) (idw w);
    pi_letters : Forall2 (letter_ok s pp) (pr_letters s) tags;
    pi_tags : List.NoDup tags;
    pi_count : forall w pr, ss_seqno pr (p_send (pp w)) <= N.of_nat (length (pr_letters s));
    pi_bound : N.of_nat (length (pr_letters s)) <= 2 ^ 62;
    pi_seen : forall i, In i (pr_seen s) -> (i < length (pr_letters s))%nat;
    pi_recv : forall w pr, exists known, numbers_ok s pp tags w pr known;
    pi_off : forall w pr, o_history_enabled (pa_opts (party w)) = false -> rs_history pr (p_recv (pp w)) = history_new }.

Lemma tags_length : forall s pp tags, pair_inv s pp tags -> length tags = length (pr_letters s).
Proof. intros s pp tags H. symmetry. exact (Forall2_length _ _ _ (pi_letters _ _ _ H)). Qed.
Lemma letter_tag : forall s pp tags i l, pair_inv s pp tags -> nth_error (pr_letters s) i = Some l ->
  exists t, nth_error tags i = Some t /\ letter_ok s pp l t.
Proof.
  intros s pp tags i l H Hi. pose proof (pi_letters _ _ _ H) as HF. clear H. revert i Hi.
  induction HF as [|x y lx ly Hxy HF IH]; intros [|i] Hi; cbn in *; try discriminate.
  - injection Hi as <-. eauto.
  - eauto.
Qed.
Lemma tag_number : forall s pp tags w pr q, pair_inv s pp tags -> In (w, pr, q) tags -> q <= ss_seqno pr (p_send (pp w)).
Proof.
  intros s pp tags w pr q H Hin. pose proof (pi_letters _ _ _ H) as HF. clear H.
  induction HF as [|x y lx ly Hxy HF IH]; [destruct Hin|].
  destruct Hin as [-> |Hin]; [|auto]. destruct Hxy as (-> & c & k & _ & _ & _ & _ & Hq & _). exact Hq.
Qed.

Lemma node_start : forall x y, ways_ok P x y ->
  node_good P x y (party_node P x y) (peer_new (pa_start x) (pa_addr y) (party_key P y) (pa_channel x))
  /\ n_by_peer (party_node P x y) = ∅ /\ n_out (party_node P x y) = [].
Proof.
  intros x y HW. unfold party_node, add_peer. cbn [n_addr node_new n_filter n_peers n_start].
  rewrite bytes_eqb_neq by (apply not_eq_sym, (wo_id _ _ _ HW)).
  rewrite sockaddr_eqb_neq by (apply not_eq_sym, (wo_addr _ _ _ HW)). cbn [orb].
  rewrite map_fmap_singleton, lookup_singleton, lookup_empty.
  cbn [snd]. unfold put_peer. cbn [n_peers node_new]. rewrite map_fmap_singleton, lookup_singleton.
  split; [|split; reflexivity]. split; try reflexivity.
  - unfold get_peer. cbn [set_peers n_peers]. rewrite lookup_insert. apply lookup_insert.
  - now left.
  - intros h Hh. cbn in Hh. rewrite lookup_empty in Hh. discriminate.
Qed.

Lemma no_channel : forall n i, n_by_peer n = ∅ -> ~ has n i.
Proof. intros n i H [c Hc]. unfold chan_of in Hc. rewrite H, lookup_empty in Hc. discriminate. Qed.
Lemma ready_has : forall n i, ready n i -> has n i.
Proof. intros n i (c & H & _). now exists c. Qed.

Lemma inv_start : exists pp, pair_inv (pair_start P a b) pp [].
Proof.
  exists (fun w => peer_new (pa_start (party w)) (pa_addr (party (other w))) (party_key P (party (other w))) (pa_channel (party w))).
  assert (Hs : forall w, node_of (pair_start P a b) w = party_node P (party w) (party (other w))) by (now intros []).
  split.
  - intros w. rewrite Hs. apply node_start, ways.
  - intros w Hr. rewrite Hs in Hr. apply ready_has in Hr. exfalso.
    refine (no_channel _ _ _ Hr). apply node_start, ways.
  - constructor.
  - constructor.
  - intros w []; cbn; lia.
  - cbn. lia.
  - intros i [].
  - intros w pr. exists []. split; [|split; [|split]].
    + destruct pr; apply inv_new.
    + destruct pr; cbn; lia.
    + intros q [].
    + intros _ _ i q Hi. destruct Hi.
  - now intros w [] _.
Qed.

Lemma ss_set : forall pr q v s, ss_seqno q (set_ss_seqno pr v s) = if Bool.eqb q pr then v else ss_seqno q s.
Proof. now intros [] [] v s. Qed.
Lemma rs_set : forall pr p p', rs_history pr (p_recv p') = rs_history pr (p_recv p) -> rs_history (negb pr) (p_recv p') = rs_history (negb pr) (p_recv p) ->
  forall q, rs_history q (p_recv p') = rs_history q (p_recv p).
Proof. intros [] p p' H1 H2 []; assumption. Qed.

Lemma Forall2_weaken : forall A B (R S : A -> B -> Prop) l m, (forall x y, In x l -> R x y -> S x y) -> Forall2 R l m -> Forall2 S l m.
Proof. intros A B R S l m H HF. induction HF; constructor; [apply H; [now left|assumption]|]. apply IHHF. intros. apply H; [now right|assumption]. Qed.

(** Sending. *)
Lemma inv_says : forall s pp tags w now m priority r, pair_inv s pp tags -> may_say P a b s w now m priority r ->
  let s' := says P a b s w now m priority r in
  exists pp' tags' l k pr q c, pair_inv s' pp' tags'
    /\ pr_letters s' = pr_letters s ++ [l] /\ lt_from l = w /\ lt_time l = now /\ lt_message l = m
    /\ tags' = tags ++ [(w, pr, q)]
    /\ letter_with s' pp' l pr q c k /\ (has (node_of s w) (idw (other w)) -> k <> KCreate)
    /\ (forall v, channel_of P a b s' v = channel_of P a b s v) /\ pr_seen s' = pr_seen s.
Proof.
  intros s pp tags w now m priority r HI (Hnow & Hm & Hr & Hlen & Hplain) s'.
  destruct HI as [I1 I2 I3 I4 I5 I6 I8 I7 I9].
  destruct (send_good P HP (party w) (party (other w)) (node_of s w) (pp w) now m priority r (ways w) (I1 w) Hnow Hm Hr)
    as (pr & d & k & p' & n' & E1 & E2 & E3 & E4 & E5 & E6 & E7 & E8 & E9 & E10).
  { intros q. specialize (I5 w q). lia. }
  { intros q. destruct (I7 w q) as (known & _ & H & _). specialize (I5 (other w) q). lia. }
  change (party_id P (party w)) with (idw w) in *. change (party_id P (party (other w))) with (idw (other w)) in *.
  set (l := mk_letter w now m (pa_addr (party (other w))) d).
  set (q := ss_seqno pr (p_send (pp w)) + 1) in *. set (c := h_seqno (rs_history pr (p_recv (pp w)))) in *.
  assert (Hs' : s' = changed s w n' now m (pr_seen s)).
  { unfold s', says. now rewrite E1. }
  assert (Hlet : pr_letters s' = pr_letters s ++ [l]).
  { rewrite Hs'. rewrite (letters_changed s w n' now m _ [(pa_addr (party (other w)), d)] E2). reflexivity. }
  destruct E6 as (C1 & C2 & C3).
  assert (Hco : forall i, chan_of n' i = chan_of (node_of s w) i) by (intros i; unfold chan_of; now rewrite C1, C3).
  assert (Hnw : node_of s' w = n') by (rewrite Hs'; apply node_changed_same).
  assert (Hno : node_of s' (other w) = node_of s (other w)) by (rewrite Hs'; apply node_changed_other).
  assert (Hchan : forall v i, chan_of (node_of s' v) i = chan_of (node_of s v) i).
  { intros v i. destruct (who_cases v w) as [-> | ->]; [rewrite Hnw; apply Hco|now rewrite Hno]. }
  assert (Hhas : forall v i, has (node_of s' v) i <-> has (node_of s v) i) by (intros v i; unfold has; now rewrite Hchan).
  assert (Hready : forall v i, ready (node_of s' v) i <-> ready (node_of s v) i) by (intros v i; unfold ready; now rewrite Hchan).
  set (pp' := fun v => pick_who v (pick_who w p' (pp Alice)) (pick_who w (pp Bob) p')).
  assert (Hpw : pp' w = p') by (unfold pp'; now destruct w).
  assert (Hpo : pp' (other w) = pp (other w)) by (unfold pp'; now destruct w).
  assert (Hsend : forall v pr', ss_seqno pr' (p_send (pp v)) <= ss_seqno pr' (p_send (pp' v))).
  { intros v pr'. destruct (who_cases v w) as [-> | ->]; [|rewrite Hpo; lia]. rewrite Hpw, E5, ss_set.
    destruct (Bool.eqb pr' pr) eqn:E; [|lia]. apply Bool.eqb_prop in E as ->. lia. }
  assert (Hrecv : forall v, p_recv (pp' v) = p_recv (pp v)).
  { intros v. destruct (who_cases v w) as [-> | ->]; [now rewrite Hpw|now rewrite Hpo]. }
  assert (Hwith : letter_with s' pp' l pr q c k).
  { split; [exact E7|]. split; [exact Hm|]. split; [|split; [reflexivity|split; [|split; [|split]]]]; cbn [lt_from l].
    - unfold may_say in *. fold s' in Hplain. rewrite Hlet in Hplain. apply Forall_app in Hplain as [_ Hplain].
      now apply Forall_cons_iff in Hplain as [Hplain _].
    - rewrite Hpw, E5, ss_set, Bool.eqb_reflx. unfold q. lia.
    - rewrite Hpo. destruct (I7 w pr) as (known & _ & H & _). exact H.
    - intros Hk. apply Hhas. destruct k; [now destruct Hk|now apply E9|]. apply ready_has. now apply E10.
    - intros Hk. rewrite Hhas. apply I2, E10, Hk. }
  exists pp', (tags ++ [(w, pr, q)]), l, k, pr, q, c.
  split; [|split; [exact Hlet|split; [reflexivity|split; [reflexivity|split; [reflexivity|split; [reflexivity|split; [exact Hwith|split; [exact E8|split]]]]]]]].
  3:{ rewrite Hs'. reflexivity. }
  2:{ intros v. unfold channel_of. fold (chan_of (node_of s' v) (idw (other v))) (chan_of (node_of s v) (idw (other v))). apply Hchan. }
  split.
  - intros v. destruct (who_cases v w) as [-> | ->]; [now rewrite Hnw, Hpw|]. rewrite Hno, Hpo. apply I1.
  - intros v Hr'. apply Hready in Hr'. apply Hhas. now apply I2.
  - rewrite Hlet. apply Forall2_app.
    + eapply Forall2_weaken; [|exact I3]. intros x [[v prx] qx] _ (-> & cx & kx & X2 & X3 & X4 & X5 & X6 & X7 & X8 & X9).
      split; [reflexivity|]. exists cx, kx. split; [exact X2|]. split; [exact X3|]. split; [exact X4|]. split; [exact X5|].
      pose proof (Hsend (lt_from x) prx). pose proof (Hsend (other (lt_from x)) prx).
      split; [lia|]. split; [lia|]. split; intros Hk; apply Hhas; auto.
    + constructor; [|constructor]. split; [reflexivity|]. exists c, k. exact Hwith.
  - apply NoDup_ListNoDup, NoDup_app. split; [|split].
    + now apply NoDup_ListNoDup.
    + intros t Ht Ht'. apply elem_of_list_singleton in Ht' as ->. apply elem_of_list_In in Ht.
      pose proof (tag_number s pp tags w pr q ltac:(split; eassumption) Ht) as Hq. unfold q in Hq. lia.
    + apply NoDup_singleton.
  - intros v pr'. rewrite Hlet, app_length. cbn [length]. specialize (I5 v pr').
    destruct (who_cases v w) as [-> | ->]; [|rewrite Hpo; lia]. rewrite Hpw, E5, ss_set.
    destruct (Bool.eqb pr' pr) eqn:E; [|lia]. apply Bool.eqb_prop in E as ->. lia.
  - rewrite Hlet, app_length. cbn [length]. lia.
  - intros i Hi. rewrite Hlet, app_length. cbn [length]. rewrite Hs' in Hi. apply I8 in Hi. lia.
  - intros v pr'. destruct (I7 v pr') as (known & K1 & K2 & K3 & K4). exists known.
    assert (Htl : length tags = length (pr_letters s)) by (symmetry; exact (Forall2_length _ _ _ I3)).
    split; [now rewrite Hrecv|]. split; [rewrite Hrecv; pose proof (Hsend (other v) pr'); lia|]. split.
    + intros q' Hq'. destruct (K3 q' Hq') as (i & Hi & Ht). exists i. split; [rewrite Hs'; exact Hi|].
      rewrite nth_error_app1; [exact Ht|]. apply nth_error_Some. congruence.
    + intros He Hl i q' Hi Ht. rewrite Hlet, app_length in Hl. cbn [length] in Hl.
      rewrite Hs' in Hi. change (pr_seen (changed s w n' now m (pr_seen s))) with (pr_seen s) in Hi.
      destruct (Nat.lt_ge_cases i (length tags)) as [Hlt|Hge].
      * rewrite nth_error_app1 in Ht by exact Hlt. apply (K4 He ltac:(lia) i q' Hi Ht).
      * (* only letters that exist were received *)
        apply I8 in Hi. lia.
  - intros v pr' Hoff. rewrite Hrecv. now apply I9.
Qed.

(** Receiving. *)
Lemma inv_gets : forall s pp tags i l now fresh rs pr q c k, pair_inv s pp tags -> may_get a b s i l now ->
  nth_error tags i = Some (lt_from l, pr, q) -> letter_with s pp l pr q c k ->
  let s' := gets P fuel s i l now fresh rs in
  let w := other (lt_from l) in
  exists pp' ds n' known, pair_inv s' pp' tags /\ numbers_ok s pp tags w pr known
    /\ arrival P fuel s l now fresh rs = (Ok tt, ds, n')
    /\ (let acc := fst (spec_receive (o_history_enabled (pa_opts (party w))) known q) in
       ds = (if acc then shown P a b l else [])
       /\ (acc = true -> has n' (idw (lt_from l))) /\ (acc = true -> k <> KCreate -> ready n' (idw (lt_from l))))
    /\ (ready (node_of s w) (idw (lt_from l)) -> ready n' (idw (lt_from l)))
    /\ (has (node_of s w) (idw (lt_from l)) -> has n' (idw (lt_from l)))
    /\ node_of s' w = n' /\ node_of s' (lt_from l) = node_of s (lt_from l)
    /\ pr_letters s' = pr_letters s /\ pr_seen s' = i :: pr_seen s.
Proof.
  intros s pp tags i l now fresh rs pr q c k HI (Hi & T1 & T2 & T3) Ht (L1 & L2 & L3 & L4 & L5 & L6 & L7 & L8) s' w.
 fold w in L1, L4, L6, L7, L8, T1.
  pose proof HI as HI0. destruct HI as [I1 I2 I3 I4 I5 I6 I8 I7 I9].
  destruct (I7 w pr) as (known & HN). pose proof HN as HN0. destruct HN as (K1 & K2 & K3 & K4).
  assert (Hww : other w = lt_from l) by apply other_other.
  pose proof (I1 w) as G. rewrite Hww in G. pose proof (ways w) as HW. rewrite Hww in HW.
  destruct (receive_good P HP fuel (party (lt_from l)) (party w) (node_of s w) (pp w) (lt_time l) (lt_message l) (lt_data l)
    pr q c k now fresh rs known HW G L1 L2 L3 L8 K1) as (n' & p' & E1 & E2 & E3 & E4 & E5 & E6 & E7 & E8 & E9).
  { pose proof (tag_number s pp tags _ pr q HI0 (nth_error_In _ _ Ht)). specialize (I5 (lt_from l) pr).
    lia. }
  { rewrite L6. lia. }
  1: exact T1. 1: exact T2. 1: exact T3.
  change (party_id P (party w)) with (idw w) in *. change (party_id P (party (lt_from l))) with (idw (lt_from l)) in *.
  assert (Har : arrival P fuel s l now fresh rs = (Ok tt, if fst (spec_receive (o_history_enabled (pa_opts (party w))) known q) then shown P a b l else [], n')).
  { unfold arrival. fold w. exact E1. }
  assert (Hs' : s' = changed s w n' now MNop (i :: pr_seen s)) by (unfold s', gets; now rewrite Har).
  assert (Hlet : pr_letters s' = pr_letters s).
  { rewrite Hs'. rewrite (letters_changed s w n' now MNop _ []) by (now rewrite E4, app_nil_r). apply app_nil_r. }
  assert (Hnw : node_of s' w = n') by (rewrite Hs'; apply node_changed_same).
  assert (Hno : node_of s' (lt_from l) = node_of s (lt_from l)) by (rewrite <- Hww, Hs'; apply node_changed_other).
  set (pp' := fun v => pick_who v (pick_who w p' (pp Alice)) (pick_who w (pp Bob) p')).
  assert (Hpw : pp' w = p') by (unfold pp'; now destruct w).
  assert (Hpo : pp' (lt_from l) = pp (lt_from l)) by (rewrite <- Hww; unfold pp'; now destruct w).
  assert (Hcases : forall v, v = w \/ v = lt_from l) by (intros v; rewrite <- Hww; apply who_cases).
  assert (Hol : other (lt_from l) = w) by reflexivity.
  destruct E3 as [S1 S2 S3 S4 S5].
  assert (Hsend : forall v pr', ss_seqno pr' (p_send (pp' v)) = ss_seqno pr' (p_send (pp v))).
  { intros v pr'. destruct (Hcases v) as [-> | ->]; [rewrite Hpw; apply S1|now rewrite Hpo]. }
  assert (Hhas : forall v j, j = idw (other v) -> has (node_of s v) j -> has (node_of s' v) j).
  { intros v j -> H. destruct (Hcases v) as [-> | ->]; [|now rewrite Hno]. rewrite Hnw, Hww in *. now apply E5. }
  exists pp', (if fst (spec_receive (o_history_enabled (pa_opts (party w))) known q) then shown P a b l else []), n', known.
  split; [|split; [exact HN0|split; [exact Har|split; [|split; [exact E6|split; [exact E5|split; [exact Hnw|split; [exact Hno|split; [exact Hlet|rewrite Hs'; reflexivity]]]]]]]]].
  2:{ cbv zeta. split; [reflexivity|]. split; [exact E7|exact E8]. }
  split.
  - intros v. destruct (Hcases v) as [-> | ->].
    + rewrite Hnw, Hpw, Hww. exact E2.
    + rewrite Hno, Hpo. apply I1.
  - intros v Hr. destruct (Hcases v) as [-> | ->].
    + rewrite Hww in *. rewrite Hno. rewrite Hnw in Hr. destruct (E9 Hr) as [Hr'|Hk].
      * pose proof (I2 w) as Hx. rewrite Hww in Hx. exact (Hx Hr').
      * now apply L7.
    + rewrite Hol in *. rewrite Hno in Hr. apply Hhas; [now rewrite Hww|]. pose proof (I2 (lt_from l)) as Hx. rewrite Hol in Hx. exact (Hx Hr).
  - rewrite Hlet. eapply Forall2_weaken; [|exact I3]. intros x [[v prx] qx] _ (-> & cx & kx & X2 & X3 & X4 & X5 & X6 & X7 & X8 & X9).
    split; [reflexivity|]. exists cx, kx. split; [exact X2|]. split; [exact X3|]. split; [exact X4|]. split; [exact X5|].
    unfold letter_with. rewrite !Hsend. split; [exact X6|]. split; [exact X7|]. split; intros Hk.
    + apply Hhas; [reflexivity|auto].
    + apply Hhas; [now rewrite other_other|auto].
  - exact I4.
  - intros v pr'. rewrite Hsend, Hlet. apply I5.
  - rewrite Hlet. exact I6.
  - intros j Hj. rewrite Hlet. rewrite Hs' in Hj. destruct Hj as [<-|Hj]; [|now apply I8].
    apply nth_error_Some. congruence.
  - intros v pr'. destruct (I7 v pr') as (known' & N1 & N2 & N3 & N4).
    assert (Hold : (forall q', In q' known' -> exists j, In j (pr_seen s') /\ nth_error tags j = Some (other v, pr', q'))).
    { intros q' Hq'. destruct (N3 q' Hq') as (j & Hj & Htj). exists j. rewrite Hs'. split; [now right|exact Htj]. }
    destruct (Hcases v) as [-> | ->].
    + destruct (Bool.bool_dec pr' pr) as [->|Hpr].
      * exists (snd (spec_receive (o_history_enabled (pa_opts (party w))) known q)).
        split; [now rewrite Hpw|]. rewrite Hww in *. split; [|split].
        -- rewrite Hpw, Hsend.
           pose proof (tag_number s pp tags _ pr q HI0 (nth_error_In _ _ Ht)). lia.
        -- intros q' Hq'. unfold spec_receive, spec_deliver in Hq'.
           assert (Hor : In q' known \/ q' = q).
           { destruct (o_history_enabled _); [|now left]. destruct (256 <=? q); [destruct Hq'|].
             destruct (existsb _ _); cbn [snd] in Hq'; [now left|]. destruct Hq' as [<-|Hq']; auto. }
           destruct Hor as [Hq1| ->].
           ++ destruct (K3 q' Hq1) as (j & Hj & Htj). exists j. rewrite Hs'. split; [now right|exact Htj].
           ++ exists i. rewrite Hs'. split; [now left|exact Ht].
        -- intros He Hl j q' Hj Htj. rewrite Hlet in Hl. unfold spec_receive. rewrite He. unfold spec_deliver.
           assert (Hq256 : q < 256).
           { pose proof (tag_number s pp tags _ pr q HI0 (nth_error_In _ _ Ht)). specialize (I5 (lt_from l) pr). lia. }
           replace (256 <=? q) with false by lia.
           assert (Hor : In q' known \/ q' = q).
           { rewrite Hs' in Hj. destruct Hj as [<-|Hj]; [right; congruence|]. left.
             exact (K4 He Hl j q' Hj Htj). }
           destruct (existsb (N.eqb q) known) eqn:Ex; cbn [snd].
           ++ destruct Hor as [Hq1| ->]; [exact Hq1|]. apply existsb_exists in Ex as (z & Hz & Ez). apply N.eqb_eq in Ez as <-. exact Hz.
           ++ destruct Hor as [Hq1| ->]; [now right|now left].
      * exists known'. assert (Hpn : pr' = negb pr) by (destruct pr, pr'; (reflexivity || congruence)).
        split; [rewrite Hpw, Hpn, S3, <- Hpn; exact N1|]. split; [rewrite Hpw, Hpn, S3, <- Hpn, Hsend; exact N2|].
        split; [exact Hold|]. intros He Hl j q' Hj Htj. rewrite Hlet in Hl. rewrite Hs' in Hj.
        destruct Hj as [<-|Hj]; [rewrite Ht in Htj; congruence|]. exact (N4 He Hl j q' Hj Htj).
    + exists known'. split; [now rewrite Hpo|]. split; [rewrite Hpo, Hsend; exact N2|]. split; [exact Hold|].
      intros He Hl j q' Hj Htj. rewrite Hlet in Hl. rewrite Hs' in Hj.
      destruct Hj as [<-|Hj]; [|exact (N4 He Hl j q' Hj Htj)].
      rewrite Ht in Htj. injection Htj as Hbad _ _. exfalso. exact (other_neq _ (eq_sym Hbad)).
  - intros v pr' Hoff. destruct (Hcases v) as [-> | ->]; [|rewrite Hpo; now apply I9]. rewrite Hpw.
    destruct (Bool.bool_dec pr' pr) as [->|Hpr]; [rewrite (S5 Hoff); now apply I9|].
    assert (Hpn : pr' = negb pr) by (destruct pr, pr'; (reflexivity || congruence)). rewrite Hpn, S3. now apply I9.
Qed.

(** Something else. *)
Lemma chan_id_listed : forall x y pr, In (channel_in_id (new_chan P x y) pr) (channel_ids P x y).
Proof.
  intros x y pr. unfold channel_ids, channel_in_id, new_chan, channel_new, side_from_secret, compute_channel_id.
  cbn [map]. destruct (bytes_cmp (party_id P x) (party_id P y)); destruct pr;
    cbn [ch_in pick sd_priority sd_ordinary sc_id In]; tauto.
Qed.
Lemma party_own : forall x y, own (party_node P x y).
Proof.
  intros x y. unfold party_node.
  eapply own_same; [apply (own_new (pa_addr x) (pa_start x) (pa_opts x) None {[party_id P x := pa_secret x]})|].
  apply add_peer_effect.
Qed.
Lemma inv_else : forall s pp tags w o, pair_inv s pp tags -> own (node_of s w) -> may_happen P fuel a b s w o ->
  pair_inv (elsewhere P fuel s w o) pp tags.
Proof.
  intros s pp tags w o HI Ho [Hc Ha]. destruct HI as [I1 I2 I3 I4 I5 I6 I8 I7 I9].
  set (n := node_of s w) in *. set (s' := elsewhere P fuel s w o).
  assert (Hnw : node_of s' w = step P fuel n o) by (unfold s', elsewhere, n; now destruct w).
  assert (Hno : node_of s' (other w) = node_of s (other w)) by (unfold s', elsewhere; now destruct w).
  destruct (step_framed (fun i => In i (channel_ids P a b)) (idw w) (idw (other w)) P fuel n o Ho Hc Ha) as [F1 F2 F3 F4 F5 _].
  assert (Hchan : forall v, chan_of (node_of s' v) (idw (other v)) = chan_of (node_of s v) (idw (other v))).
  { intros v. destruct (who_cases v w) as [-> | ->]; [|now rewrite Hno]. fold n. rewrite Hnw. unfold chan_of. rewrite F3.
    destruct (n_by_peer n !! idw (other w)) as [h|] eqn:Eh; [|reflexivity].
    destruct (Ho _ _ Eh) as (c & Ec & _). rewrite Ec. apply F4. now split. }
  assert (Hchan' : forall v, chan_of (node_of s' (other v)) (idw v) = chan_of (node_of s (other v)) (idw v)).
  { intros v. pose proof (Hchan (other v)) as H. now rewrite other_other in H. }
  split.
  - intros v. destruct (who_cases v w) as [-> | ->]; [|rewrite Hno; apply I1].
    destruct (I1 w) as [G1 G2 G3 G4 G5 G6 G7 G8 G9 G10 G11]. fold n in G1, G2, G3, G4, G5, G6, G11.
    rewrite Hnw. destruct F1 as (S1 & S2 & S3 & S4 & S5).
    split; try congruence.
    + change (get_peer (step P fuel n o) (idw w) (idw (other w)) = Some (pp w)). rewrite F2. exact G6.
    + intros h Hh. change (n_by_peer (step P fuel n o) !! idw (other w) = Some h) in Hh. rewrite F3 in Hh.
      destruct (G11 h Hh) as (c & C1 & C2 & C3). exists c. split; [apply F4; now split|]. split; [exact C2|].
      intros pr. rewrite F5; [apply C3|]. destruct C2 as (_ & C2 & _). unfold channel_in_id in *. rewrite C2.
      pose proof (chan_id_listed (party w) (party (other w)) pr) as Hl. unfold channel_in_id in Hl.
      destruct w; cbn [pick_who other] in *; [exact Hl|]. now rewrite (channel_ids_sym P HP) in Hl.
  - intros v Hr. unfold ready, has in *. rewrite Hchan in Hr. rewrite Hchan'. now apply I2.
  - eapply Forall2_weaken; [|exact I3]. intros x [[v prx] qx] _ (-> & cx & kx & X2 & X3 & X4 & X5 & X6 & X7 & X8 & X9).
    split; [reflexivity|]. exists cx, kx. split; [exact X2|]. split; [exact X3|]. split; [exact X4|]. split; [exact X5|].
    split; [exact X6|]. split; [exact X7|]. unfold has in *. rewrite Hchan, Hchan'. split; assumption.
  - exact I4.
  - exact I5.
  - exact I6.
  - exact I8.
  - exact I7.
  - exact I9.
Qed.

Lemma exchange_own : forall s, exchange P fuel a b s -> forall w, own (node_of s w).
Proof.
  assert (Hch : forall s w n' now m seen, (forall v, own (node_of s v)) -> own n' ->
    forall v, own (node_of (changed s w n' now m seen) v)).
  { intros s w n' now m seen H Hn v. destruct (who_cases v w) as [-> | ->].
    - now rewrite node_changed_same.
    - rewrite node_changed_other. apply H. }
  induction 1 as [|s w now m priority r _ IH Hs|s i l now fresh rs _ IH Hg|s w o _ IH Hm].
  - intros []; apply party_own.
  - unfold says. apply Hch; [exact IH|].
    apply (own_step P fuel _ (OSend now (idw w) (idw (other w)) m priority (fun _ => r)) (IH w)).
  - unfold gets. apply Hch; [exact IH|]. apply own_receive. apply IH.
  - intros v. destruct (who_cases v w) as [-> | ->].
    + replace (node_of (elsewhere P fuel s w o) w) with (step P fuel (node_of s w) o) by (now destruct w).
      apply own_step, IH.
    + replace (node_of (elsewhere P fuel s w o) (other w)) with (node_of s (other w)) by (now destruct w). apply IH.
Qed.

Lemma exchange_inv : forall s, exchange P fuel a b s -> exists pp tags, pair_inv s pp tags.
Proof.
  induction 1 as [|s w now m priority r _ (pp & tags & IH) Hs|s i l now fresh rs _ (pp & tags & IH) Hg|s w o Hs (pp & tags & IH) Hm].
  - destruct inv_start as [pp H]. eauto.
  - destruct (inv_says s pp tags w now m priority r IH Hs) as (pp' & tags' & l & k & pr & q & c & H & _). eauto.
  - destruct (letter_tag s pp tags i l IH (proj1 Hg)) as ([[v pr] q] & Ht & -> & c & k & Hl).
    destruct (inv_gets s pp tags i l now fresh rs pr q c k IH Hg Ht Hl) as (pp' & ds & n' & known & H & _). eauto.
  - exists pp, tags. apply inv_else; [exact IH|now apply exchange_own|exact Hm].
Qed.

(** The channel of a side is the one made of the two channel keys. *)
Lemma exchange_channel : forall s w c, exchange P fuel a b s -> channel_of P a b s w = Some c ->
  chan_good P (party w) (party (other w)) c
  /\ forall pr, exists h, n_by_id (node_of s w) !! channel_in_id c pr = Some (pr, h) /\ n_heap (node_of s w) !! h = Some c.
Proof.
  intros s w c Hs Hc. destruct (exchange_inv s Hs) as (pp & tags & HI).
  unfold channel_of in Hc. destruct (n_by_peer (node_of s w) !! idw (other w)) as [h|] eqn:Eh; [|discriminate].
  destruct (ng_chan _ _ _ _ _ (pi_good _ _ _ HI w) h Eh) as (c' & H1 & H2 & H3).
  replace c' with c in * by congruence. split; [exact H2|]. intros pr. exists h. split; [apply H3|exact H1].
Qed.

Lemma same_secrets : forall s ca cb, exchange P fuel a b s ->
  channel_of P a b s Alice = Some ca -> channel_of P a b s Bob = Some cb ->
  ch_out ca = ch_in cb /\ ch_in ca = ch_out cb.
Proof.
  intros s ca cb Hs Ha Hb. destruct (exchange_channel s Alice ca Hs Ha) as ((A1 & A2 & _) & _).
  destruct (exchange_channel s Bob cb Hs Hb) as ((B1 & B2 & _) & _).
  rewrite A1, A2, B1, B2. cbn [pick_who other].
  assert (Hm : forall x y, ch_out (new_chan P x y) = ch_in (new_chan P y x)).
  { intros x y. pose proof (channel_ends_match P HP (party_id P x) (party_id P y) (pa_channel x) (pa_channel y) 0 0 CtxCreate CtxCreate) as H.
    assert (Heta : forall s1 s2 : side, pick true s1 = pick true s2 -> pick false s1 = pick false s2 -> s1 = s2).
    { intros [] []. cbn. congruence. }
    apply Heta; apply H. }
  split; [apply Hm|symmetry; apply Hm].
Qed.

Lemma ready_only_after : forall s w, exchange P fuel a b s -> uses_channel P a b s w ->
  exists c, channel_of P a b s (other w) = Some c
  /\ forall pr, exists h, n_by_id (node_of s (other w)) !! channel_in_id c pr = Some (pr, h) /\ n_heap (node_of s (other w)) !! h = Some c.
Proof.
  intros s w Hs Hu. destruct (exchange_inv s Hs) as (pp & tags & HI).
  destruct (pi_ready _ _ _ HI w Hu) as (c & Hc). exists c.
  assert (Hc' : channel_of P a b s (other w) = Some c) by (unfold channel_of; rewrite other_other; exact Hc).
  split; [exact Hc'|]. exact (proj2 (exchange_channel s (other w) c Hs Hc')).
Qed.

Lemma spec_fresh : forall e known q, ~ In q known -> fst (spec_receive e known q) = true.
Proof.
  intros e known q H. unfold spec_receive, spec_deliver. destruct e; [|reflexivity]. destruct (256 <=? q); [reflexivity|].
  destruct (existsb (N.eqb q) known) eqn:E; [|reflexivity]. apply existsb_exists in E as (z & Hz & Ez).
  apply N.eqb_eq in Ez as <-. contradiction.
Qed.
Lemma spec_repeated : forall known q, q < 256 -> In q known -> fst (spec_receive true known q) = false.
Proof.
  intros known q Hq H. unfold spec_receive, spec_deliver. replace (256 <=? q) with false by lia.
  destruct (existsb (N.eqb q) known) eqn:E; [reflexivity|]. exfalso.
  enough (existsb (N.eqb q) known = true) by congruence. apply existsb_exists. exists q. split; [exact H|apply N.eqb_refl].
Qed.

Lemma tags_fresh : forall s pp tags i w pr q known, pair_inv s pp tags -> numbers_ok s pp tags (other w) pr known ->
  nth_error tags i = Some (w, pr, q) -> ~ In i (pr_seen s) -> ~ In q known.
Proof.
  intros s pp tags i w pr q known HI (_ & _ & K & _) Ht Hi Hq. destruct (K q Hq) as (j & Hj & Htj).
  rewrite other_other in Htj. apply Hi. replace i with j; [exact Hj|].
  refine (proj1 (NoDup_nth_error tags) (pi_tags _ _ _ HI) j i _ _); [apply nth_error_Some; congruence|congruence].
Qed.

Lemma letters_arrive : forall s i l now fresh rs, exchange P fuel a b s -> may_get a b s i l now ->
  exists ds n', arrival P fuel s l now fresh rs = (Ok tt, ds, n')
    /\ (ds = shown P a b l \/ ds = [])
    /\ (~ In i (pr_seen s) -> ds = shown P a b l)
    /\ (o_history_enabled (pa_opts (party (other (lt_from l)))) = false -> ds = shown P a b l)
    /\ (o_history_enabled (pa_opts (party (other (lt_from l)))) = true -> In i (pr_seen s) ->
        (length (pr_letters s) < 256)%nat -> ds = []).
Proof.
  intros s i l now fresh rs Hs Hg. destruct (exchange_inv s Hs) as (pp & tags & HI).
  destruct (letter_tag s pp tags i l HI (proj1 Hg)) as ([[v pr] q] & Ht & -> & c & k & Hl).
  destruct (inv_gets s pp tags i l now fresh rs pr q c k HI Hg Ht Hl) as (pp' & ds & n' & known & _ & HN & Har & (Hds & _) & _).
  exists ds, n'. split; [exact Har|]. split; [|split; [|split]].
  - rewrite Hds. destruct (fst _); auto.
  - intros Hi. rewrite Hds, spec_fresh; [reflexivity|]. exact (tags_fresh s pp tags i _ pr q known HI HN Ht Hi).
  - intros He. rewrite Hds, He. reflexivity.
  - intros He Hi Hless. rewrite Hds, He. rewrite spec_repeated; [reflexivity| |].
    + pose proof (tag_number s pp tags _ pr q HI (nth_error_In _ _ Ht)). pose proof (pi_count _ _ _ HI (lt_from l) pr). lia.
    + destruct HN as (_ & _ & _ & K4). refine (K4 He Hless i q Hi _). rewrite other_other. exact Ht.
Qed.

Lemma letters_addressed : forall s l, exchange P fuel a b s -> In l (pr_letters s) ->
  lt_dest l = pa_addr (party (other (lt_from l))).
Proof.
  intros s l Hs Hl. destruct (exchange_inv s Hs) as (pp & tags & HI). apply In_nth_error in Hl as (i & Hi).
  destruct (letter_tag s pp tags i l HI Hi) as ([[v pr] q] & _ & -> & c & k & _ & _ & _ & H & _). exact H.
Qed.

(** One turn: the receiver then has a channel, and uses it if the sender had one. *)
Lemma turn_effect : forall s t, exchange P fuel a b s -> may_turn P a b s t ->
  let s' := take_turn P fuel a b s t in
  exchange P fuel a b s'
  /\ (exists c, channel_of P a b s' (other (tn_who t)) = Some c)
  /\ ((exists c, channel_of P a b s (tn_who t) = Some c) -> uses_channel P a b s' (other (tn_who t)))
  /\ (forall v, (exists c, channel_of P a b s v = Some c) -> exists c, channel_of P a b s' v = Some c)
  /\ (forall v, uses_channel P a b s v -> uses_channel P a b s' v).
Proof.
  intros s t Hs [Hsay Htime] s'.
  destruct (exchange_inv s Hs) as (pp & tags & HI).
  destruct (inv_says s pp tags _ _ _ _ _ HI Hsay) as (pp1 & tags1 & l & k & pr & q & c & HI1 & Hlet & Hw & Ht & Hm & Htag & Hwire & Hk & Hch & Hsn).
  set (s1 := says P a b s (tn_who t) (tn_sent t) (tn_message t) (tn_priority t) (tn_rnd t)) in *.
  assert (Hs1 : exchange P fuel a b s1) by (now apply ex_says).
  assert (Hlen : (length (pr_letters s1) - 1)%nat = length (pr_letters s)) by (rewrite Hlet, app_length; cbn [length]; lia).
  assert (Hlast : nth_error (pr_letters s1) (length (pr_letters s1) - 1) = Some l).
  { rewrite Hlen, Hlet, nth_error_app2 by lia. now rewrite Nat.sub_diag. }
  assert (Hget : may_get a b s1 (length (pr_letters s1) - 1) l (tn_received t)).
  { split; [exact Hlast|]. now apply Htime. }
  assert (Hs' : s' = gets P fuel s1 (length (pr_letters s1) - 1) l (tn_received t) (tn_fresh t) (tn_rnds t)).
  { unfold s', take_turn. change (sent_in P a b s t) with s1. unfold last_letter. now rewrite Hlast. }
  assert (Ht2 : nth_error tags1 (length (pr_letters s1) - 1) = Some (lt_from l, pr, q)).
  { rewrite Htag, Hlen, nth_error_app2 by (rewrite (tags_length s pp tags HI); lia).
    now rewrite (tags_length s pp tags HI), Nat.sub_diag, Hw. }
  destruct (inv_gets s1 pp1 tags1 _ l (tn_received t) (tn_fresh t) (tn_rnds t) pr q c k HI1 Hget Ht2 Hwire)
    as (pp2 & ds & n' & known & HI2 & HN & Har & (Hds & Hacc1 & Hacc2) & Hrd & Hhs & Hn1 & Hn2 & _).
  rewrite <- Hs' in *. rewrite Hw in *.
  assert (Hfresh : fst (spec_receive (o_history_enabled (pa_opts (party (other (tn_who t))))) known q) = true).
  { apply spec_fresh. refine (tags_fresh s1 pp1 tags1 _ _ pr q known HI1 HN Ht2 _).
    intros Hin. rewrite Hsn in Hin. apply (pi_seen _ _ _ HI) in Hin. lia. }
  assert (Hkeep : forall v, (exists c, channel_of P a b s v = Some c) -> exists c, channel_of P a b s' v = Some c).
  { intros v [cv Hv]. rewrite <- Hch in Hv. unfold channel_of in *. destruct (who_cases v (tn_who t)) as [-> | ->].
    - rewrite Hn2. eauto.
    - rewrite other_other in *. rewrite Hn1. apply Hhs. exists cv. exact Hv. }
  split; [rewrite Hs'; now apply ex_gets|]. split; [|split; [|split; [exact Hkeep|]]].
  - unfold channel_of. rewrite other_other, Hn1. exact (Hacc1 Hfresh).
  - intros [cw Hcw]. unfold uses_channel, channel_of. rewrite other_other, Hn1. apply (Hacc2 Hfresh).
    apply Hk. exists cw. exact Hcw.
  - intros v (cv & Hv & Hr). rewrite <- Hch in Hv. unfold uses_channel, channel_of in *. destruct (who_cases v (tn_who t)) as [-> | ->].
    + rewrite Hn2. eauto.
    + rewrite other_other in *. rewrite Hn1. apply Hrd. exists cv. now split.
Qed.

Lemma converges : forall s t1 t2 t3, exchange P fuel a b s ->
  tn_who t2 = other (tn_who t1) -> tn_who t3 = tn_who t1 ->
  may_turn P a b s t1 -> may_turn P a b (take_turn P fuel a b s t1) t2 ->
  may_turn P a b (take_turn P fuel a b (take_turn P fuel a b s t1) t2) t3 ->
  forall w, uses_channel P a b (take_turn P fuel a b (take_turn P fuel a b (take_turn P fuel a b s t1) t2) t3) w.
Proof.
  intros s t1 t2 t3 Hs W2 W3 M1 M2 M3.
  destruct (turn_effect s t1 Hs M1) as (X1 & H1 & _ & _ & _).
  destruct (turn_effect _ t2 X1 M2) as (X2 & _ & H2 & _ & _).
  destruct (turn_effect _ t3 X2 M3) as (X3 & _ & H3 & _ & K3).
  rewrite W2, other_other in H2. specialize (H2 H1).
  intros w. destruct (who_cases w (tn_who t1)) as [-> | ->].
  - now apply K3.
  - rewrite W3 in H3. apply H3. destruct H2 as (c & H2 & _). now exists c.
Qed.

(** For the samples. *)
Lemma turn_letter : forall s t, exchange P fuel a b s -> may_say P a b s (tn_who t) (tn_sent t) (tn_message t) (tn_priority t) (tn_rnd t) ->
  exists l, last_letter (sent_in P a b s t) = Some l /\ lt_from l = tn_who t /\ lt_time l = tn_sent t
  /\ pr_letters (sent_in P a b s t) = pr_letters s ++ [l].
Proof.
  intros s t Hs Hsay. destruct (exchange_inv s Hs) as (pp & tags & HI).
  destruct (inv_says s pp tags _ _ _ _ _ HI Hsay) as (pp1 & tags1 & l & k & pr & q & c & _ & Hlet & Hw & Ht & _).
  change (says P a b s (tn_who t) (tn_sent t) (tn_message t) (tn_priority t) (tn_rnd t)) with (sent_in P a b s t) in Hlet.
  exists l. split; [|auto]. unfold last_letter. rewrite Hlet, app_length, nth_error_app2 by (cbn [length]; lia).
  cbn [length]. replace (_ - 1 - _)%nat with 0%nat by lia. reflexivity.
Qed.
Lemma turn_letters : forall s t, exchange P fuel a b s -> may_turn P a b s t ->
  length (pr_letters (take_turn P fuel a b s t)) = S (length (pr_letters s)).
Proof.
  intros s t Hs [Hsay Htime]. destruct (turn_letter s t Hs Hsay) as (l & Hl & Hw & Ht & Hlet).
  unfold take_turn. rewrite Hl.
  assert (Hs1 : exchange P fuel a b (sent_in P a b s t)) by (now apply ex_says).
  assert (Hg : may_get a b (sent_in P a b s t) (length (pr_letters (sent_in P a b s t)) - 1) l (tn_received t)) by (split; auto).
  destruct (exchange_inv _ Hs1) as (pp & tags & HI).
  destruct (letter_tag _ pp tags _ l HI (proj1 Hg)) as ([[v pr] q] & Htg & -> & c & k & Hlw).
  destruct (inv_gets _ pp tags _ l (tn_received t) (tn_fresh t) (tn_rnds t) pr q c k HI Hg Htg Hlw)
    as (pp' & ds & n' & known & _ & _ & _ & _ & _ & _ & _ & _ & E & _).
  rewrite E, Hlet, app_length. cbn [length]. lia.
Qed.
Lemma may_turn_versioned : forall s t, exchange P fuel a b s ->
  o_version (pa_opts a) = Some 0 -> o_version (pa_opts b) = Some 0 ->
  u32_ok (tn_sent t) -> small_payload (tn_message t) -> length (r_bytes (tn_rnd t)) = 10%nat ->
  N.of_nat (length (pr_letters s)) < 2 ^ 62 ->
  (pa_start (party (tn_who t)) <= tn_received t + o_clock_tolerance (pa_opts (party (other (tn_who t))))
   /\ tn_received t <= tn_sent t + o_address_list_timeout (pa_opts (party (tn_who t)))
   /\ tn_sent t + o_address_list_timeout (pa_opts (party (tn_who t))) < 2 ^ 32) ->
  may_turn P a b s t.
Proof.
  intros s t Hs Va Vb H1 H2 H3 H4 H5.
  assert (Hsay : may_say P a b s (tn_who t) (tn_sent t) (tn_message t) (tn_priority t) (tn_rnd t)).
  { split; [exact H1|]. split; [exact H2|]. split; [exact H3|]. split; [exact H4|].
    apply Forall_forall. intros l _ Hv. exfalso. destruct (lt_from l); cbn [pick_who] in Hv; congruence. }
  split; [exact Hsay|]. intros l Hl. destruct (turn_letter s t Hs Hsay) as (l' & Hl' & Hw & Ht & _).
  rewrite Hl in Hl'. injection Hl' as <-. unfold timely. rewrite Hw, Ht. exact H5.
Qed.
End facts.

Lemma sample_parties : parties_ok light sample_alice sample_bob.
Proof.
  split; [|split; [|split]].
  - repeat split; try reflexivity. now right.
  - repeat split; try reflexivity. now right.
  - discriminate.
  - vm_compute. repeat (apply List.NoDup_cons; [cbn [In]; intuition discriminate|]). apply List.NoDup_nil.
Qed.
Lemma sample_turns :
  let s0 := pair_start light sample_alice sample_bob in
  let s1 := take_turn light 0 sample_alice sample_bob s0 turn1 in
  let s2 := take_turn light 0 sample_alice sample_bob s1 turn2 in
  may_turn light sample_alice sample_bob s0 turn1 /\ may_turn light sample_alice sample_bob s1 turn2
  /\ may_turn light sample_alice sample_bob s2 turn3
  /\ exchange light 0 sample_alice sample_bob s2.
Proof.
  intros s0 s1 s2. pose proof light_ok as HL. pose proof sample_parties as HS.
  assert (X0 : exchange light 0 sample_alice sample_bob s0) by apply ex_start.
  assert (M1 : may_turn light sample_alice sample_bob s0 turn1).
  { apply (may_turn_versioned light 0 _ _ HL HS); [exact X0|reflexivity|reflexivity|reflexivity| |reflexivity|reflexivity|cbn; lia].
    split; [reflexivity|]. cbn. lia. }
  destruct (turn_effect light 0 _ _ HL HS s0 turn1 X0 M1) as (X1 & _). fold s1 in X1.
  pose proof (turn_letters light 0 _ _ HL HS s0 turn1 X0 M1) as L1. fold s1 in L1.
  assert (M2 : may_turn light sample_alice sample_bob s1 turn2).
  { apply (may_turn_versioned light 0 _ _ HL HS); [exact X1|reflexivity|reflexivity|reflexivity| |reflexivity| |cbn; lia].
    - split; [|cbn; lia]. split; reflexivity.
    - rewrite L1. reflexivity. }
  destruct (turn_effect light 0 _ _ HL HS s1 turn2 X1 M2) as (X2 & _). fold s2 in X2.
  pose proof (turn_letters light 0 _ _ HL HS s1 turn2 X1 M2) as L2. fold s2 in L2.
  assert (M3 : may_turn light sample_alice sample_bob s2 turn3).
  { apply (may_turn_versioned light 0 _ _ HL HS); [exact X2|reflexivity|reflexivity|reflexivity| |reflexivity| |cbn; lia].
    - split; [|cbn; lia]. split; reflexivity.
    - rewrite L2, L1. reflexivity. }
  tauto.
Qed.
Lemma sample_sent : exchange light 0 sample_alice sample_bob
  (sent_in light sample_alice sample_bob (take_turn light 0 sample_alice sample_bob (pair_start light sample_alice sample_bob) turn1) turn2).
Proof.
  destruct sample_turns as (M1 & M2 & _).
  destruct (turn_effect light 0 _ _ light_ok sample_parties _ turn1 (ex_start _ _ _ _) M1) as (X1 & _).
  exact (ex_says _ _ _ _ _ _ _ _ _ _ X1 (proj1 M2)).
Qed.
