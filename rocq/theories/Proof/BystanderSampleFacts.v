(** The hypotheses of C96 and of the pair theorems with others are met by Carol. *)
From stdpp Require Import gmap.
From Coq Require Import NArith Lia.
From Verif.Base Require Import Bytes BytesFacts Res.
From Verif.Model Require Import Crypto Tl ProtoAdnl Channel Handshake Peer Transfer AdnlNode.
From Verif.Spec Require Import Codec CryptoSpec TransferSpec NodeSpec BystanderSpec Sample PairSpec BystanderSample.
From Verif.Proof Require Import PairFacts.
Open Scope N_scope.

Definition distinct_ids (n : node) : bool :=
  let l := flat_map (fun e => [(snd e, true); (snd e, false)]) (map_to_list (n_heap n)) in
  forallb (fun p => forallb (fun q =>
    negb (bytes_eqb (channel_in_id (fst p) (snd p)) (channel_in_id (fst q) (snd q)))
    || (bytes_eqb (ch_peer (fst p)) (ch_peer (fst q)) && Bool.eqb (snd p) (snd q))) l) l.
Lemma distinct_ok : forall n, distinct_ids n = true -> no_id_collision n.
Proof.
  intros n H h1 c1 b1 h2 c2 b2 H1 H2 He.
  assert (Hin : forall h c b, n_heap n !! h = Some c ->
    In (c, b) (flat_map (fun e => [(snd e, true); (snd e, false)]) (map_to_list (n_heap n)))).
  { intros h c b Hc. apply in_flat_map. exists (h, c). split.
    - apply elem_of_list_In, elem_of_map_to_list. exact Hc.
    - cbn [snd]. destruct b; [now left|right; now left]. }
  unfold distinct_ids in H. rewrite forallb_forall in H.
  specialize (H _ (Hin _ _ b1 H1)). cbv beta in H. rewrite forallb_forall in H.
  specialize (H _ (Hin _ _ b2 H2)). cbn [fst snd] in H. rewrite He, bytes_eqb_refl in H. cbn [negb orb] in H.
  apply andb_true_iff in H as [E1 E2]. apply bytes_eqb_eq in E1. apply Bool.eqb_prop in E2. auto.
Qed.

Definition not_from (P : prims) (n : node) (data y : bytes) : bool :=
  (match parse_handshake P (fun i => n_keys n !! i) data with
   | Ok (Some (_, _, contents)) =>
     match parse_packet contents with
     | Some packet =>
       match ip_from packet with Some (PkEd25519 key) => negb (bytes_eqb y (id_of_key P key)) | _ => false end
     | None => true
     end
   | _ => true
   end)
  && match n_by_id n !! firstn 32 data with None => true | _ => false end.
Lemma not_from_ok : forall P n now data f rs x y, not_from P n data y = true ->
  ~ concerns P n (OReceive now data f rs) x y.
Proof.
  intros P n now data f rs x y H. unfold not_from in H. apply andb_true_iff in H as [H1 H2]. intros [C|C].
  - destruct C as (l & contents & packet & [v Hd] & Hp & Hn & _). rewrite Hd, Hp in H1. unfold names in Hn.
    destruct (ip_from packet) as [k|]; [|discriminate H1].
    destruct Hn as (key & -> & ->). rewrite bytes_eqb_refl in H1. discriminate H1.
  - destruct C as (l & contents & pr & h & c & v & Hi & _). rewrite Hi in H2. discriminate H2.
Qed.

Lemma carol_unconcerned : unconcerned light 10 alice1 carol_ops (id_of 1) (id_of 2).
Proof.
  assert (N23 : id_of 3 <> id_of 2) by (apply bytes_eqb_neq; vm_compute; reflexivity).
  unfold carol_ops. cbn [unconcerned].
  split; [intros [_ E]; exact (N23 E)|].
  split; [apply not_from_ok; vm_compute; reflexivity|].
  split; [intros [_ E]; exact (N23 E)|].
  split; [apply not_from_ok; vm_compute; reflexivity|].
  split; [apply not_from_ok; vm_compute; reflexivity|].
  split.
  { intros [E|(h & E1 & E2)]; [exact (N23 E)|]. injection E1 as <-. revert E2. vm_compute. discriminate. }
  split.
  { intros [E|(h & E1 & E2)]; [exact (N23 E)|]. injection E1 as <-. revert E2. vm_compute. discriminate. }
  split; [exact N23|exact I].
Qed.
Lemma carol_distinct : no_id_collision (srun alice1 carol_ops).
Proof. apply distinct_ok. vm_compute. reflexivity. Qed.

(** Between the two. *)
Definition ids_apart (n : node) (y : bytes) (ids : list bytes) : bool :=
  forallb (fun e => bytes_eqb (ch_peer (snd e)) y
    || forallb (fun i => negb (bytes_eqb (channel_in_id (snd e) true) i) && negb (bytes_eqb (channel_in_id (snd e) false) i)) ids)
    (map_to_list (n_heap n)).
Lemma ids_apart_ok : forall n y ids, ids_apart n y ids = true ->
  forall h c pr, n_heap n !! h = Some c -> ch_peer c <> y -> ~ In (channel_in_id c pr) ids.
Proof.
  intros n y ids H h c pr Hc Hne Hin. unfold ids_apart in H. rewrite forallb_forall in H.
  specialize (H (h, c)). cbn [snd] in H.
  assert (In (h, c) (map_to_list (n_heap n))) as Hm by (apply elem_of_list_In, elem_of_map_to_list; exact Hc).
  specialize (H Hm). apply bytes_eqb_neq in Hne. rewrite Hne in H. cbn [orb] in H. rewrite forallb_forall in H.
  specialize (H _ Hin). apply andb_true_iff in H as [H1 H2].
  destruct pr; [rewrite bytes_eqb_refl in H1; discriminate H1|rewrite bytes_eqb_refl in H2; discriminate H2].
Qed.
Lemma carol_between : exchange light 0 sample_alice sample_bob pair_with_carol.
Proof.
  unfold pair_with_carol. destruct sample_turns as (M1 & _).
  pose proof (turn_effect light 0 sample_alice sample_bob light_ok sample_parties _ turn1 (ex_start _ _ _ _) M1) as [X _].
  cbv zeta in X |- *.
  set (s0 := take_turn light 0 sample_alice sample_bob (pair_start light sample_alice sample_bob) turn1) in *.
  assert (H1 : may_happen light 0 sample_alice sample_bob s0 Alice carol_hears).
  { split.
    - intros [_ E]. revert E. apply bytes_eqb_neq. vm_compute. reflexivity.
    - apply ids_apart_ok. vm_compute. reflexivity. }
  pose proof (ex_else _ _ _ _ s0 Alice carol_hears X H1) as X1.
  apply ex_else; [exact X1|]. split.
  - apply not_from_ok. vm_compute. reflexivity.
  - apply ids_apart_ok. vm_compute. reflexivity.
Qed.

(** Of two peers that send the same long message one is not heard. *)
Definition same_message : message := MCustom (repeat 5 20).
Definition same_pieces : list bytes := [firstn 10 (put_message same_message); skipn 10 (put_message same_message)].
Definition delivery_eqb (d e : delivery) : bool :=
  match d, e with DCustom l p x, DCustom m q y => bytes_eqb l m && bytes_eqb p q && bytes_eqb x y | _, _ => false end.
Lemma one_heard : ~ forall P fuel n local first second m pieces, prims_ok P -> n_transfers n = ∅ -> first <> second ->
  message_ok m -> message_of pieces = put_message m -> Forall (fun x => x <> []) pieces -> (length pieces <= fuel)%nat ->
  forall peer d, peer = first \/ peer = second -> delivered_as local peer m = Some d ->
  In (Ok [d]) (fst (hear P fuel n (both_send local first second (parts_of P pieces)))).
Proof.
  intros H.
  assert (Hm : message_ok same_message) by (vm_compute; repeat split; reflexivity).
  specialize (H light 10%nat (sample_node 1 sample_options) [1] [2] [3] same_message same_pieces light_ok eq_refl
    ltac:(discriminate) Hm eq_refl ltac:(repeat constructor; discriminate) ltac:(vm_compute; lia) [3]
    (DCustom [1] [3] (repeat 5 20)) (or_intror eq_refl) eq_refl).
  assert (E : existsb (fun r => match r with Ok [d] => delivery_eqb d (DCustom [1] [3] (repeat 5 20)) | _ => false end)
    (fst (hear light 10 (sample_node 1 sample_options) (both_send [1] [2] [3] (parts_of light same_pieces)))) = false)
    by (vm_compute; reflexivity).
  assert (T : existsb (fun r => match r with Ok [d] => delivery_eqb d (DCustom [1] [3] (repeat 5 20)) | _ => false end)
    (fst (hear light 10 (sample_node 1 sample_options) (both_send [1] [2] [3] (parts_of light same_pieces)))) = true).
  { apply existsb_exists. eexists. split; [exact H|]. vm_compute. reflexivity. }
  rewrite E in T. discriminate T.
Qed.
