(** Facts about the DHT storage. *)
From stdpp Require Import gmap.
From Coq Require Import NArith Permutation Lia.
From Coq Require Import ZifyBool ZifyNat ZifyN.
From Verif.Base Require Import Bytes BytesFacts Res.
From Verif.Model Require Import Crypto Tl Scheme ProtoAdnl ProtoDht ProtoOverlay AdnlNode DhtStorage.
From Verif.Spec Require Import Codec DhtSpec.
From Verif.Proof Require Import TlFacts ProtoFacts TlBack.
Open Scope N_scope.

Lemma public_key_eqb_eq : forall a b, public_key_eqb a b = true <-> a = b.
Proof.
  intros [a|a|a|a] [b|b|b|b]; cbn; (split; [intros H; try discriminate|intros H; try discriminate]);
    try (apply bytes_eqb_eq in H; now subst); injection H as ->; apply bytes_eqb_refl.
Qed.
Lemma public_key_eqb_neq : forall a b, public_key_eqb a b = false <-> a <> b.
Proof.
  intros a b. destruct (public_key_eqb a b) eqn:E.
  - apply public_key_eqb_eq in E. split; [discriminate|contradiction].
  - split; [|reflexivity]. intros _ ->. assert (H : public_key_eqb b b = true) by now apply public_key_eqb_eq. congruence.
Qed.

(** ** Merging *)
Lemma put_newer_in : forall l n x, In x (put_newer l n) -> In x l \/ x = n.
Proof.
  induction l as [|y l IH]; intros n x; cbn [put_newer].
  - intros [<-|[]]. now right.
  - destruct (public_key_eqb (on_id y) (on_id n)).
    + destruct (on_version y <? on_version n); intros [<-|H]; cbn; auto.
    + intros [<-|H]; cbn; auto. destruct (IH _ _ H); auto.
Qed.
Lemma put_newer_ids : forall l n, List.NoDup (map on_id l) -> List.NoDup (map on_id (put_newer l n)).
Proof.
  intros l n. revert l. assert (Hin : forall l i, In i (map on_id (put_newer l n)) -> In i (map on_id l) \/ i = on_id n).
  { intros l i H. apply in_map_iff in H as (x & <- & H). destruct (put_newer_in _ _ _ H) as [H1| ->]; [left; now apply in_map|now right]. }
  induction l as [|y l IH]; cbn [put_newer map]; intros H.
  - constructor; [easy|constructor].
  - apply List.NoDup_cons_iff in H as [H1 H2]. destruct (public_key_eqb (on_id y) (on_id n)) eqn:E; cbn [map].
    + apply public_key_eqb_eq in E. apply List.NoDup_cons_iff. split; [|assumption].
      destruct (on_version y <? on_version n); congruence.
    + apply public_key_eqb_neq in E. apply List.NoDup_cons_iff. split; [|now apply IH].
      intros H. destruct (Hin _ _ H); [contradiction|congruence].
Qed.
Lemma put_newer_covers : forall l n x, In x l \/ x = n ->
  exists y, In y (put_newer l n) /\ on_id y = on_id x /\ on_version x <= on_version y.
Proof.
  induction l as [|y l IH]; intros n x; cbn [put_newer].
  - intros [[]| ->]. exists n. cbn. split; [auto|split; [reflexivity|lia]].
  - destruct (public_key_eqb (on_id y) (on_id n)) eqn:E.
    + apply public_key_eqb_eq in E. intros H.
      destruct (N.ltb_spec (on_version y) (on_version n)) as [Hv|Hv].
      * destruct H as [[->|H]| ->]; [exists n|exists x|exists n]; cbn; (split; [auto|split; [congruence|lia]]).
      * destruct H as [[->|H]| ->]; [exists x|exists x|exists y]; cbn; (split; [auto|split; [congruence|lia]]).
    + intros [[->|H]|H].
      * exists x. cbn. split; [auto|split; [reflexivity|lia]].
      * destruct (IH n x (or_introl H)) as (z & H1 & H2). exists z. cbn. auto.
      * destruct (IH n x (or_intror H)) as (z & H1 & H2). exists z. cbn. auto.
Qed.

Lemma put_always_in : forall l n x, In x (put_always l n) -> In x l \/ x = n.
Proof.
  induction l as [|y l IH]; intros n x; cbn [put_always].
  - intros [<-|[]]. now right.
  - destruct (public_key_eqb (on_id y) (on_id n)).
    + intros [<-|H]; cbn; auto.
    + intros [<-|H]; cbn; auto. destruct (IH _ _ H); auto.
Qed.
Lemma put_always_fresh : forall l n, ~ In (on_id n) (map on_id l) -> put_always l n = l ++ [n].
Proof.
  induction l as [|y l IH]; intros n H; [reflexivity|]. cbn [put_always]. destruct (public_key_eqb (on_id y) (on_id n)) eqn:E.
  - apply public_key_eqb_eq in E. destruct H. now left.
  - cbn. rewrite IH; [reflexivity|]. intros H1. apply H. now right.
Qed.
Lemma collect_nodup : forall l acc, List.NoDup (map on_id (acc ++ l)) -> fold_left put_always l acc = acc ++ l.
Proof.
  induction l as [|n l IH]; intros acc H; [cbn; now rewrite app_nil_r|]. cbn [fold_left]. rewrite put_always_fresh.
  - rewrite IH; rewrite <- app_assoc; [reflexivity|exact H].
  - rewrite map_app in H. cbn in H. apply NoDup_remove_2 in H. intros H1. apply H. apply in_or_app. now left.
Qed.

Lemma newer_fold : forall new acc, List.NoDup (map on_id acc) ->
  let r := fold_left put_newer new acc in
  List.NoDup (map on_id r) /\ (forall n, In n r -> In n acc \/ In n new)
  /\ (forall n, In n acc \/ In n new -> exists m, In m r /\ on_id m = on_id n /\ on_version n <= on_version m).
Proof.
  induction new as [|a new IH]; intros acc H; cbn [fold_left].
  - split; [assumption|]. split; [auto|]. intros n [H1|[]]. exists n. split; [assumption|split; [reflexivity|lia]].
  - specialize (IH (put_newer acc a) (put_newer_ids _ _ H)). cbv zeta in IH. destruct IH as (I1 & I2 & I3).
    split; [assumption|]. split.
    + intros n Hn. destruct (I2 n Hn) as [H1|H1]; [destruct (put_newer_in _ _ _ H1) as [H2| ->]|]; cbn; auto.
    + intros n Hn. assert (Hc : (In n acc \/ n = a) \/ In n new) by (destruct Hn as [?|[?|?]]; auto).
      destruct Hc as [Hc|Hc].
      * destruct (put_newer_covers acc a n Hc) as (y & Hy & Hi & Hv). destruct (I3 y (or_introl Hy)) as (m & Hm & Hmi & Hmv).
        exists m. split; [assumption|]. split; [congruence|lia].
      * apply I3. now right.
Qed.

Lemma merge_newest : forall new old, List.NoDup (map on_id old) -> newest_of_each old new (merge_nodes new old).
Proof.
  intros new old H. unfold merge_nodes, newest_of_each. rewrite collect_nodup by exact H. cbn [app].
  destruct (newer_fold new old H) as (H1 & H2 & H3). repeat split; [exact H1|exact H2|exact H3].
Qed.

Lemma newest_permutation : forall old new a b, Permutation a b -> newest_of_each old new a -> newest_of_each old new b.
Proof.
  intros old new a b Hp (H1 & H2 & H3). split; [|split].
  - exact (Permutation_NoDup (Permutation_map on_id Hp) H1).
  - intros n Hn. apply H2. now apply (Permutation_in n (Permutation_sym Hp)).
  - intros n Hn. destruct (H3 n Hn) as (m & Hm & Hr). exists m. split; [now apply (Permutation_in m Hp)|exact Hr].
Qed.

(** ** Signatures *)
Lemma full_id_ok : forall P k key, full_id P k = Ok key <-> (k = PkEd25519 key /\ valid_pub P key = true).
Proof.
  intros P k key. destruct k; cbn; try (split; [discriminate|intros [? _]; discriminate]).
  destruct (valid_pub P key0) eqn:E; split.
  - intros [= ->]. auto.
  - intros [[= ->] _]. reflexivity.
  - discriminate.
  - intros [[= ->] H]. congruence.
Qed.
Lemma verify_full_iff : forall P key m g, valid_pub P key = true -> (verify_full P key m g = true <-> signed_by P key m g).
Proof.
  intros P key m g Hv. unfold verify_full, signed_by. rewrite andb_true_iff, Nat.eqb_eq. tauto.
Qed.
Lemma check_signatures_iff : forall P v, kd_rule (dv_key v) = UrSignature ->
  (check_signatures P v = Ok tt <-> signed_value P v).
Proof.
  intros P v Hr. unfold check_signatures, signed_value. destruct (full_id P (kd_id (dv_key v))) as [key|e] eqn:E.
  - apply full_id_ok in E as [E1 E2].
    pose proof (verify_full_iff P key (put_key_description_boxed (unsigned_key (dv_key v))) (kd_signature (dv_key v)) E2) as V1.
    pose proof (verify_full_iff P key (put_dht_value_boxed (unsigned_value v)) (dv_signature v) E2) as V2.
    unfold unsigned_key, unsigned_value in *. split.
    + intros H. destruct (verify_full P key _ (kd_signature _)); [|discriminate].
      destruct (verify_full P key _ (dv_signature _)); [|discriminate]. split; [exact Hr|]. exists key. tauto.
    + intros (_ & key' & Hk & H1 & H2). assert (key' = key) by congruence. subst key'. rewrite (proj2 V1 H1), (proj2 V2 H2). reflexivity.
  - split; [discriminate|]. intros (_ & key & Hk & H1 & _). destruct H1 as (Hv & _).
    assert (H : full_id P (kd_id (dv_key v)) = Ok key) by (apply full_id_ok; auto). congruence.
Qed.
Lemma verify_overlay_node_iff : forall P overlay n, verify_overlay_node P overlay n = true <-> signed_node P overlay n.
Proof.
  intros P overlay n. unfold verify_overlay_node, signed_node.
  destruct (bytes_eqb (on_overlay n) overlay) eqn:E; cbn [negb].
  - apply bytes_eqb_eq in E. destruct (full_id P (on_id n)) as [key|e] eqn:F.
    + apply full_id_ok in F as [F1 F2]. rewrite verify_full_iff by exact F2. rewrite E. split.
      * intros H. split; [reflexivity|]. exists key. auto.
      * intros (_ & key' & Hk & H). assert (key' = key) by congruence. subst. exact H.
    + split; [discriminate|]. intros (_ & key & Hk & Hv & _).
      assert (H : full_id P (on_id n) = Ok key) by (apply full_id_ok; auto). congruence.
  - split; [discriminate|]. intros [H _]. apply bytes_eqb_neq in E. contradiction.
Qed.

(** ** Injectivity of encodings *)
Lemma reads_inj : forall A (put : A -> bytes) get wf, reads put get wf ->
  forall a b, wf a -> wf b -> put a = put b -> a = b.
Proof.
  intros A put get wf H a b Ha Hb E. pose proof (H a [] Ha) as H1. pose proof (H b [] Hb) as H2.
  rewrite E in H1. congruence.
Qed.
Lemma put_public_key_inj : forall a b, public_key_ok a -> public_key_ok b -> put_public_key a = put_public_key b -> a = b.
Proof. exact (reads_inj _ _ _ _ public_key_reads). Qed.
Lemma put_dht_key_boxed_inj : forall a b, dht_key_ok a -> dht_key_ok b -> put_dht_key_boxed a = put_dht_key_boxed b -> a = b.
Proof.
  intros a b Ha Hb H. unfold put_dht_key_boxed in H. apply app_inv_head in H.
  exact (reads_inj _ _ _ _ dht_key_reads a b Ha Hb H).
Qed.

(** ** The invariant *)
Definition nodes_value (result : list ov_node) : bytes :=
  put_u32 id_overlay_nodes ++ put_u32 (N.of_nat (length result)) ++ flat_map put_ov_node result.

Lemma nodes_value_reads : forall result, Forall ov_node_ok result ->
  deserialize get_ov_nodes_boxed (nodes_value result)
  = Some (firstn (N.to_nat (N.of_nat (length result) mod 2 ^ 32)) result).
Proof.
  intros result H. pose proof (vector_prefix _ put_ov_node get_ov_node ov_node_ok ov_node_reads) as V.
  assert (Hne : forall a, put_ov_node a <> []).
  { intros a. unfold put_ov_node, put_public_key. destruct (on_id a); rewrite <- ?app_assoc; apply put_u32_cons. }
  specialize (V Hne result H). unfold nodes_value, deserialize, get_ov_nodes_boxed, bind in *.
  rewrite u32_reads by reflexivity. rewrite N.eqb_refl. unfold put_vector in V. exact V.
Qed.

(** What a successful store of a list writes. *)
Inductive list_written (P : prims) (s : storage) (order : list ov_node -> list ov_node) (now' : N) (v : dht_value)
    (received : list ov_node) : list ov_node -> Prop :=
| written_fresh : s !! storage_key P (kd_key (dv_key v)) = None -> list_written P s order now' v received []
| written_expired : forall old, s !! storage_key P (kd_key (dv_key v)) = Some old -> dv_ttl old < now' ->
    list_written P s order now' v received []
| written_merged : forall old old_nodes, s !! storage_key P (kd_key (dv_key v)) = Some old -> now' <= dv_ttl old ->
    dv_ttl old <= dv_ttl v -> deserialize get_ov_nodes_boxed (dv_value old) = Some old_nodes ->
    list_written P s order now' v received old_nodes.

Inductive stored (P : prims) (o : storage_options) (order : list ov_node -> list ov_node) (s : storage) (now now' : N)
    (v : dht_value) : dht_value -> Prop :=
| stored_signed : kd_rule (dv_key v) = UrSignature -> check_signatures P v = Ok tt ->
    (forall old, s !! storage_key P (kd_key (dv_key v)) = Some old -> dv_ttl old < dv_ttl v) ->
    stored P o order s now now' v v
| stored_list : forall received old_nodes, kd_rule (dv_key v) = UrOverlayNodes ->
    dv_signature v = [] -> kd_signature (dv_key v) = [] -> (exists name, kd_id (dv_key v) = PkOverlay name) ->
    kd_key (dv_key v) = mk_dht_key (sha256 P (put_public_key (kd_id (dv_key v)))) key_nodes 0 ->
    deserialize get_ov_nodes_boxed (dv_value v) = Some received ->
    list_written P s order now' v received old_nodes ->
    stored P o order s now now' v
      (make_overlay_nodes_value order v
         (List.filter (verify_overlay_node P (sha256 P (put_public_key (kd_id (dv_key v))))) received) old_nodes).

Lemma storage_insert_cases : forall P o order s now now' v,
  let k := kd_key (dv_key v) in
  (snd (storage_insert P o order s now now' v) = s /\ fst (storage_insert P o order s now now' v) <> Ok true)
  \/ (exists w, storage_insert P o order s now now' v = (Ok true, <[storage_key P k := w]> s)
      /\ now < dv_ttl v /\ N.of_nat (length (dk_name k)) <= so_name_len o /\ dk_idx k <= so_index o
      /\ dk_id k = sha256 P (put_public_key (kd_id (dv_key v)))
      /\ stored P o order s now now' v w).
Proof.
  intros P o order s now now' v k. unfold storage_insert. fold k.
  destruct (N.leb_spec (dv_ttl v) now) as [Ht|Ht]; [left; cbn; split; [reflexivity|discriminate]|].
  destruct (N.leb_spec (N.of_nat (length (dk_name k))) (so_name_len o)) as [Hn|Hn]; cbn [negb orb];
    [|left; cbn; split; [reflexivity|discriminate]].
  destruct (N.ltb_spec (so_index o) (dk_idx k)) as [Hi|Hi]; [left; cbn; split; [reflexivity|discriminate]|].
  destruct (bytes_eqb (dk_id k) _) eqn:Hid; cbn [negb]; [|left; cbn; split; [reflexivity|discriminate]].
  apply bytes_eqb_eq in Hid. destruct (kd_rule (dv_key v)) eqn:Hr.
  - left; cbn; split; [reflexivity|discriminate].
  - unfold insert_overlay_nodes. destruct (dv_signature v) as [|? ?] eqn:Hs1; [|left; cbn; split; [reflexivity|discriminate]].
    destruct (kd_signature (dv_key v)) as [|? ?] eqn:Hs2; [|left; cbn; split; [reflexivity|discriminate]].
    destruct (kd_id (dv_key v)) as [?|?|name|?] eqn:Hk; try (left; cbn; split; [reflexivity|discriminate]).
    rewrite <- Hk in *. cbv zeta. fold k.
    destruct (bytes_eqb (dk_id k) _ && bytes_eqb (dk_name k) key_nodes && (dk_idx k =? 0)) eqn:Hreq; cbn [negb];
      [|left; cbn; split; [reflexivity|discriminate]].
    apply andb_true_iff in Hreq as [Hreq H3]. apply andb_true_iff in Hreq as [_ H2].
    apply bytes_eqb_eq in H2. apply N.eqb_eq in H3.
    assert (Hkey : k = mk_dht_key (sha256 P (put_public_key (kd_id (dv_key v)))) key_nodes 0)
      by (destruct k; cbn in *; congruence).
    destruct (deserialize get_ov_nodes_boxed (dv_value v)) as [received|] eqn:Hd; [|left; cbn; split; [reflexivity|discriminate]].
    remember (List.filter (verify_overlay_node P (sha256 P (put_public_key (kd_id (dv_key v))))) received) as new eqn:Hnew.
    assert (Hgo : forall old_nodes, list_written P s order now' v received old_nodes ->
      exists w, (Ok true : res storage_error bool, <[storage_key P k := make_overlay_nodes_value order v new old_nodes]> s) = (Ok true, <[storage_key P k := w]> s)
      /\ now < dv_ttl v /\ N.of_nat (length (dk_name k)) <= so_name_len o /\ dk_idx k <= so_index o
      /\ dk_id k = sha256 P (put_public_key (kd_id (dv_key v)))
      /\ stored P o order s now now' v w).
    { intros on Hw. exists (make_overlay_nodes_value order v new on). repeat (split; [first [reflexivity|assumption]|]).
      rewrite Hnew. eapply stored_list; eauto. }
    destruct new as [|n0 new0]; [left; cbn; split; [reflexivity|discriminate]|].
    destruct (s !! storage_key P k) as [old|] eqn:Ho.
    + destruct (N.ltb_spec (dv_ttl old) now') as [H4|H4].
      { right. apply Hgo. eapply written_expired; eauto. }
      destruct (N.ltb_spec (dv_ttl v) (dv_ttl old)) as [H5|H5]; [left; cbn; split; [reflexivity|discriminate]|].
      destruct (deserialize get_ov_nodes_boxed (dv_value old)) as [old_nodes|] eqn:Hd2; [|left; cbn; split; [reflexivity|discriminate]].
      right. apply Hgo. eapply written_merged; eauto.
    + right. apply Hgo. now apply written_fresh.
  - unfold insert_signed_value. destruct (check_signatures P v) as [[]|e] eqn:Hc; [|left; cbn; split; [reflexivity|discriminate]].
    cbv zeta. fold k. destruct (s !! storage_key P k) as [old|] eqn:Ho.
    + destruct (N.ltb_spec (dv_ttl old) (dv_ttl v)) as [H4|H4]; [|left; cbn; split; [reflexivity|discriminate]].
      right. exists v. repeat (split; [first [reflexivity|assumption]|]). apply stored_signed; [assumption..|].
      intros old' H. assert (old' = old) by (unfold k in *; congruence). subst. exact H4.
    + right. exists v. repeat (split; [first [reflexivity|assumption]|]). apply stored_signed; [assumption..|].
      intros old' H. unfold k in *. congruence.
Qed.

(** The merged list, read back. *)
Lemma deserialized_nodes_ok : forall l nodes, bytes_ok l = true -> deserialize get_ov_nodes_boxed l = Some nodes ->
  Forall ov_node_ok nodes.
Proof.
  intros l nodes Hl. unfold deserialize. destruct (get_ov_nodes_boxed l) as [[a r]|] eqn:E; [|discriminate].
  intros [= <-]. destruct (ov_nodes_boxed_gives _ _ _ Hl E) as [[H _] _]. exact H.
Qed.

Definition value_inv (P : prims) (o : storage_options) (msgs : list bytes) (key : bytes) (v : dht_value) : Prop :=
  authentic P o key v /\ key_description_ok (dv_key v)
  /\ (forall nodes, overlay_list P v nodes -> Forall ov_node_ok nodes)
  /\ In (put_dht_key_boxed (kd_key (dv_key v))) msgs /\ In (put_public_key (kd_id (dv_key v))) msgs.

Lemma filter_signed : forall P ov received, Forall (signed_node P ov) (List.filter (verify_overlay_node P ov) received).
Proof.
  intros. apply List.Forall_forall. intros n Hn. apply filter_In in Hn as [_ Hn]. now apply verify_overlay_node_iff.
Qed.

(** The list written to the storage. *)
Definition written_nodes (order : list ov_node -> list ov_node) (new old : list ov_node) : list ov_node :=
  let r := order (merge_nodes new old) in firstn (N.to_nat (N.of_nat (length r) mod 2 ^ 32)) r.

Lemma firstn_In : forall A n (l : list A) x, In x (firstn n l) -> In x l.
Proof. intros A n l x H. rewrite <- (firstn_skipn n l). apply in_or_app. now left. Qed.
Lemma firstn_ids : forall n (l : list ov_node), List.NoDup (map on_id l) -> List.NoDup (map on_id (firstn n l)).
Proof.
  intros n l H. rewrite <- (firstn_skipn n l), map_app in H. revert H. generalize (map on_id (skipn n l)).
  generalize (map on_id (firstn n l)). intros a b. induction a as [|x a IH]; intros H; [constructor|].
  cbn in H. apply List.NoDup_cons_iff in H as [H1 H2]. apply List.NoDup_cons_iff. split; [|now apply IH].
  intros H. apply H1, in_or_app. now left.
Qed.

Lemma written_overlay_list : forall P order v received old_nodes,
  kd_rule (dv_key v) = UrOverlayNodes -> (exists name, kd_id (dv_key v) = PkOverlay name) ->
  let ov := sha256 P (put_public_key (kd_id (dv_key v))) in
  kd_key (dv_key v) = mk_dht_key ov key_nodes 0 ->
  Forall ov_node_ok received -> Forall ov_node_ok old_nodes -> Forall (signed_node P ov) old_nodes ->
  List.NoDup (map on_id old_nodes) -> (forall l, Permutation (order l) l) ->
  let new := List.filter (verify_overlay_node P ov) received in
  overlay_list P (make_overlay_nodes_value order v new old_nodes) (written_nodes order new old_nodes)
  /\ Forall ov_node_ok (written_nodes order new old_nodes).
Proof.
  intros P order v received old_nodes Hr Hname ov Hkey Hrec Hold Hsig Hnd Hord new.
  pose proof (merge_newest new old_nodes Hnd) as Hm.
  apply (newest_permutation _ _ _ (order (merge_nodes new old_nodes))) in Hm; [|apply Permutation_sym, Hord].
  destruct Hm as (Hm1 & Hm2 & _).
  assert (Hok : Forall ov_node_ok (order (merge_nodes new old_nodes))).
  { apply List.Forall_forall. intros n Hn. destruct (Hm2 n Hn) as [H|H].
    - rewrite List.Forall_forall in Hold. auto.
    - apply filter_In in H as [H _]. rewrite List.Forall_forall in Hrec. auto. }
  split.
  - unfold overlay_list, make_overlay_nodes_value. cbn [dv_key dv_value]. fold ov.
    repeat (split; [assumption|]). split; [|split].
    + fold (nodes_value (order (merge_nodes new old_nodes))). now rewrite nodes_value_reads.
    + apply List.Forall_forall. intros n Hn. apply firstn_In in Hn. destruct (Hm2 n Hn) as [H|H].
      * rewrite List.Forall_forall in Hsig. auto.
      * apply filter_In in H as [_ H]. now apply verify_overlay_node_iff.
    + now apply firstn_ids.
  - apply List.Forall_forall. intros n Hn. apply firstn_In in Hn. rewrite List.Forall_forall in Hok. auto.
Qed.

Definition run_inv (P : prims) (o : storage_options) (ops : list storage_op) (s : storage) : Prop :=
  forall key v, s !! key = Some v -> value_inv P o (flat_map hashed_by ops) key v.

Lemma value_inv_mono : forall P o a b key v, (forall x, In x a -> In x b) -> value_inv P o a key v -> value_inv P o b key v.
Proof. intros P o a b key v H (H1 & H2 & H3 & H4 & H5). repeat (split; auto). Qed.

Lemma same_owner : forall P o msgs key v w, 
  (forall x y, In x msgs -> In y msgs -> sha256 P x = sha256 P y -> x = y) ->
  value_inv P o msgs key v -> key_description_ok (dv_key w) ->
  In (put_dht_key_boxed (kd_key (dv_key w))) msgs -> In (put_public_key (kd_id (dv_key w))) msgs ->
  key = storage_key P (kd_key (dv_key w)) -> dk_id (kd_key (dv_key w)) = sha256 P (put_public_key (kd_id (dv_key w))) ->
  kd_key (dv_key v) = kd_key (dv_key w) /\ kd_id (dv_key v) = kd_id (dv_key w).
Proof.
  intros P o msgs key v w Hc (Ha & Hok & _ & Hm1 & Hm2) Hokw Hw1 Hw2 Hkey Hid.
  destruct Ha as (A1 & A2 & _). unfold storage_key in Hkey. rewrite A1 in Hkey.
  apply Hc in Hkey; [|assumption..]. apply put_dht_key_boxed_inj in Hkey; [|apply Hok|apply Hokw].
  split; [exact Hkey|]. rewrite Hkey, Hid in A2. symmetry in A2. apply Hc in A2; [|assumption..].
  apply put_public_key_inj in A2; [exact A2|apply Hok|apply Hokw].
Qed.

Lemma stored_inv : forall P o ops order s now now' v w,
  run_inv P o ops s -> op_ok (OpStore order now now' v) ->
  no_collision P (ops ++ [OpStore order now now' v]) ->
  let k := kd_key (dv_key v) in
  N.of_nat (length (dk_name k)) <= so_name_len o -> dk_idx k <= so_index o ->
  dk_id k = sha256 P (put_public_key (kd_id (dv_key v))) ->
  stored P o order s now now' v w ->
  value_inv P o (flat_map hashed_by (ops ++ [OpStore order now now' v])) (storage_key P k) w.
Proof.
  intros P o ops order s now now' v w Hinv (Hb & Hkok & Hord) Hnc k Hn Hi Hid Hst.
  assert (Hmsg1 : In (put_dht_key_boxed (kd_key (dv_key v))) (flat_map hashed_by (ops ++ [OpStore order now now' v]))).
  { rewrite flat_map_app. apply in_or_app. right. cbn. auto. }
  assert (Hmsg2 : In (put_public_key (kd_id (dv_key v))) (flat_map hashed_by (ops ++ [OpStore order now now' v]))).
  { rewrite flat_map_app. apply in_or_app. right. cbn. auto. }
  destruct Hst as [Hr Hc Hold|received old_nodes Hr Hs1 Hs2 Hname Hkey Hd Hw].
  - split; [|split; [exact Hkok|split; [|split; assumption]]].
    + split; [reflexivity|]. split; [exact Hid|]. split; [exact Hn|]. split; [exact Hi|]. left. now apply check_signatures_iff.
    + intros nodes (H & _). congruence.
  - assert (Hold : Forall ov_node_ok old_nodes /\ Forall (signed_node P (sha256 P (put_public_key (kd_id (dv_key v))))) old_nodes
                   /\ List.NoDup (map on_id old_nodes)).
    { destruct Hw as [Hnone|old Hsome Hexp|old on Hsome Hnow Httl Hod].
      - repeat split; constructor.
      - repeat split; constructor.
      - pose proof (Hinv _ _ Hsome) as Hv.
        apply (value_inv_mono P o _ (flat_map hashed_by (ops ++ [OpStore order now now' v]))) in Hv;
          [|intros x Hx; rewrite flat_map_app; apply in_or_app; now left].
        destruct (same_owner P o _ _ old v Hnc Hv Hkok Hmsg1 Hmsg2 eq_refl Hid) as [Hk1 Hk2].
        destruct Hv as ((_ & _ & _ & _ & Hauth) & Hokold & Hnodes & _).
        destruct Hauth as [(Hr1 & key & Hpk & _)|(nodes & Hol)].
        + destruct Hname as (name & Hname). congruence.
        + pose proof (Hnodes _ Hol) as Hok1. destruct Hol as (_ & _ & _ & Hdes & Hsg & Hnd).
          assert (nodes = on) by congruence. subst nodes. rewrite <- Hk2. auto. }
    destruct Hold as (Ho1 & Ho2 & Ho3).
    destruct (written_overlay_list P order v received old_nodes Hr Hname Hkey (deserialized_nodes_ok _ _ Hb Hd) Ho1 Ho2 Ho3 Hord) as [Hl1 Hl2].
    split; [|split; [exact Hkok|split; [|split; assumption]]].
    + split; [reflexivity|]. split; [exact Hid|]. split; [exact Hn|]. split; [exact Hi|]. right. eexists. exact Hl1.
    + intros nodes (_ & _ & _ & Hdes & _). destruct Hl1 as (_ & _ & _ & Hdes' & _). rewrite Hdes in Hdes'. injection Hdes' as ->. exact Hl2.
Qed.

Lemma no_collision_prefix : forall P a b, no_collision P (a ++ b) -> no_collision P a.
Proof. intros P a b H x y Hx Hy. apply H; rewrite flat_map_app; apply in_or_app; now left. Qed.

Lemma step_inv : forall P o ops s op, run_inv P o ops s -> op_ok op -> no_collision P (ops ++ [op]) ->
  run_inv P o (ops ++ [op]) (storage_step P o s op).
Proof.
  intros P o ops s op Hinv Hop Hnc.
  assert (Hmono : forall key v, s !! key = Some v -> value_inv P o (flat_map hashed_by (ops ++ [op])) key v).
  { intros key v H. eapply value_inv_mono; [|exact (Hinv _ _ H)]. intros x Hx. rewrite flat_map_app. apply in_or_app. now left. }
  destruct op as [order now now' v|now]; cbn [storage_step].
  - destruct (storage_insert_cases P o order s now now' v) as [[H _]|(w & H & Ht & Hn & Hi & Hid & Hst)].
    + rewrite H. exact Hmono.
    + rewrite H. cbn [snd]. intros key u Hu. apply lookup_insert_Some in Hu as [[<- <-]|[_ Hu]]; [|now apply Hmono].
      eapply stored_inv; eauto.
  - intros key v H. unfold storage_gc in H. apply map_filter_lookup_Some in H as [H _]. now apply Hmono.
Qed.

Lemma run_app : forall P o a b s, fold_left (storage_step P o) (a ++ b) s = fold_left (storage_step P o) b (fold_left (storage_step P o) a s).
Proof. intros. apply fold_left_app. Qed.

Theorem storage_run_inv : forall P o ops, Forall op_ok ops -> no_collision P ops -> run_inv P o ops (storage_run P o ops).
Proof.
  intros P o ops. induction ops as [|op ops IH] using rev_ind; intros Hok Hnc.
  - intros key v H. exfalso. unfold storage_run in H. cbn [fold_left] in H. exact (lookup_empty_Some key v H).
  - apply Forall_app in Hok as [Hok1 Hok2]. apply List.Forall_inv in Hok2. unfold storage_run. rewrite run_app. cbn [fold_left].
    apply step_inv; [apply IH; [assumption|eapply no_collision_prefix; eauto]|assumption|assumption].
Qed.

(** ** C37 *)
Theorem served_authentic : forall P o ops key now v, Forall op_ok ops -> no_collision P ops ->
  storage_get (storage_run P o ops) key now = Some v -> now < dv_ttl v /\ authentic P o key v.
Proof.
  intros P o ops key now v Hok Hnc. unfold storage_get.
  destruct (storage_run P o ops !! key) as [u|] eqn:E; [|discriminate].
  destruct (N.ltb_spec now (dv_ttl u)); [|discriminate]. intros [= <-]. split; [assumption|].
  exact (proj1 (storage_run_inv P o ops Hok Hnc key u E)).
Qed.

(** An accepted value is served until it expires or is replaced. *)
Theorem accepted_served : forall P o order s now now' v t,
  fst (storage_insert P o order s now now' v) = Ok true ->
  exists w, snd (storage_insert P o order s now now' v) !! storage_key P (kd_key (dv_key v)) = Some w
    /\ dv_key w = dv_key v /\ dv_ttl w = dv_ttl v
    /\ (kd_rule (dv_key v) = UrSignature -> w = v)
    /\ (t < dv_ttl v -> storage_get (snd (storage_insert P o order s now now' v)) (storage_key P (kd_key (dv_key v))) t = Some w).
Proof.
  intros P o order s now now' v t H.
  destruct (storage_insert_cases P o order s now now' v) as [[_ H1]|(w & H1 & Ht & _ & _ & _ & Hst)]; [contradiction|].
  rewrite H1. cbn [snd]. exists w. rewrite lookup_insert. split; [reflexivity|].
  assert (Hw : dv_key w = dv_key v /\ dv_ttl w = dv_ttl v /\ (kd_rule (dv_key v) = UrSignature -> w = v)).
  { destruct Hst as [Hr _ _|received old_nodes Hr _ _ _ _ _ _]; cbn; split; auto. split; [reflexivity|congruence]. }
  destruct Hw as (W1 & W2 & W3). repeat (split; [assumption|]). intros Hlt. unfold storage_get. rewrite lookup_insert.
  replace (t <? dv_ttl w) with true by (symmetry; apply N.ltb_lt; lia). reflexivity.
Qed.

(** ** C38 *)
Theorem refused_unchanged : forall P o order s now now' v,
  fst (storage_insert P o order s now now' v) <> Ok true -> snd (storage_insert P o order s now now' v) = s.
Proof.
  intros P o order s now now' v H. destruct (storage_insert_cases P o order s now now' v) as [[H1 _]|(w & H1 & _)]; [exact H1|].
  rewrite H1 in H. cbn in H. congruence.
Qed.

Theorem other_keys_unchanged : forall P o order s now now' v key,
  key <> storage_key P (kd_key (dv_key v)) -> snd (storage_insert P o order s now now' v) !! key = s !! key.
Proof.
  intros P o order s now now' v key H. destruct (storage_insert_cases P o order s now now' v) as [[H1 _]|(w & H1 & _)]; rewrite H1; [reflexivity|].
  cbn [snd]. now rewrite lookup_insert_ne by congruence.
Qed.

Theorem live_value_kept : forall P o s op key v t,
  s !! key = Some v -> clock_until t op -> t < dv_ttl v ->
  exists w, storage_step P o s op !! key = Some w /\ dv_ttl v <= dv_ttl w.
Proof.
  intros P o s op key v t Hs Hc Ht. destruct op as [order now now' x|now]; cbn [storage_step].
  - destruct Hc as [Hc1 Hc2]. destruct (storage_insert_cases P o order s now now' x) as [[H1 _]|(w & H1 & _ & _ & _ & _ & Hst)]; rewrite H1.
    + exists v. split; [exact Hs|lia].
    + cbn [snd]. destruct (decide (storage_key P (kd_key (dv_key x)) = key)) as [Hk|Hk].
      * subst key. rewrite lookup_insert. exists w. split; [reflexivity|].
        destruct Hst as [Hr _ Hold|received old_nodes Hr _ _ _ _ _ Hw].
        -- specialize (Hold _ Hs). lia.
        -- cbn. destruct Hw as [Hnone|old Hsome Hexp|old on Hsome Hnow Httl Hod].
           ++ congruence.
           ++ assert (old = v) by congruence. subst. lia.
           ++ assert (old = v) by congruence. now subst.
      * rewrite lookup_insert_ne by exact Hk. exists v. split; [exact Hs|lia].
  - exists v. split; [|lia]. unfold storage_gc. apply map_filter_lookup_Some. cbn. cbn in Hc. split; [exact Hs|lia].
Qed.

Theorem live_value_kept_run : forall P o ops s key v t,
  s !! key = Some v -> Forall (clock_until t) ops -> t < dv_ttl v ->
  exists w, fold_left (storage_step P o) ops s !! key = Some w /\ dv_ttl v <= dv_ttl w.
Proof.
  intros P o ops. induction ops as [|op ops IH]; intros s key v t Hs Hc Ht; cbn [fold_left].
  - exists v. split; [exact Hs|lia].
  - apply List.Forall_cons_iff in Hc as [Hc1 Hc2]. destruct (live_value_kept P o s op key v t Hs Hc1 Ht) as (w & Hw & Hle).
    destruct (IH _ _ w t Hw Hc2) as (u & Hu & Hle2); [lia|]. exists u. split; [exact Hu|lia].
Qed.

Theorem signed_replaced_by_newer : forall P o ops op key v w,
  Forall op_ok (ops ++ [op]) -> no_collision P (ops ++ [op]) ->
  storage_run P o ops !! key = Some v -> signed_value P v ->
  storage_run P o (ops ++ [op]) !! key = Some w ->
  w = v \/ (signed_value P w /\ kd_id (dv_key w) = kd_id (dv_key v) /\ kd_key (dv_key w) = kd_key (dv_key v) /\ dv_ttl v < dv_ttl w).
Proof.
  intros P o ops op key v w Hok Hnc Hv Hsv Hw. pose proof (storage_run_inv P o _ Hok Hnc _ _ Hw) as Iw.
  apply Forall_app in Hok as [Hok1 Hok2]. apply List.Forall_inv in Hok2.
  pose proof (storage_run_inv P o _ Hok1 (no_collision_prefix _ _ _ Hnc) _ _ Hv) as Iv.
  apply (value_inv_mono P o _ (flat_map hashed_by (ops ++ [op]))) in Iv;
    [|intros x Hx; rewrite flat_map_app; apply in_or_app; now left].
  unfold storage_run in Hw. rewrite run_app in Hw. cbn [fold_left] in Hw. fold (storage_run P o ops) in Hw.
  destruct op as [order now now' x|now]; cbn [storage_step] in Hw.
  - destruct (storage_insert_cases P o order (storage_run P o ops) now now' x) as [[H1 _]|(u & H1 & _ & _ & _ & Hid & Hst)]; rewrite H1 in Hw.
    + left. congruence.
    + cbn [snd] in Hw. apply lookup_insert_Some in Hw as [[Hk <-]|[_ Hw]]; [|left; congruence].
      right. destruct Hst as [Hr Hc Hold|received old_nodes Hr Hs1 Hs2 Hname Hkey Hd Hwr].
      * destruct Iw as (Iw & Iwk & _ & Im1 & Im2).
        destruct (same_owner P o _ key v x Hnc Iv Iwk Im1 Im2 (eq_sym Hk) Hid) as [E1 E2].
        split; [now apply check_signatures_iff|]. split; [congruence|]. split; [congruence|]. apply Hold. now rewrite Hk.
      * exfalso. destruct Iw as (Iw & Iwk & _ & Im1 & Im2). cbn [make_overlay_nodes_value dv_key] in *.
        destruct (same_owner P o _ key v x Hnc Iv Iwk Im1 Im2 (eq_sym Hk) Hid) as [E1 E2].
        destruct Hsv as (_ & pk & Hpk & _). destruct Hname as (name & Hname). congruence.
  - left. unfold storage_gc in Hw. apply map_filter_lookup_Some in Hw as [Hw _]. congruence.
Qed.

(** ** C39 *)
Theorem lists_merged : forall P o ops order now now' v old_value old received,
  Forall op_ok ops -> op_ok (OpStore order now now' v) -> no_collision P (ops ++ [OpStore order now now' v]) ->
  let key := storage_key P (kd_key (dv_key v)) in
  let s := storage_run P o ops in
  s !! key = Some old_value -> overlay_list P old_value old -> now' <= dv_ttl old_value ->
  deserialize get_ov_nodes_boxed (dv_value v) = Some received ->
  N.of_nat (length old) + N.of_nat (length received) < 2 ^ 32 ->
  fst (storage_insert P o order s now now' v) = Ok true ->
  exists w result new,
    snd (storage_insert P o order s now now' v) !! key = Some w /\ overlay_list P w result
    /\ (forall n, In n new <-> In n received /\ signed_node P (sha256 P (put_public_key (kd_id (dv_key v)))) n)
    /\ newest_of_each old new result.
Proof.
  intros P o ops order now now' v old_value old received Hok Hop Hnc key s Hs Hol Hnow Hd Hlen Hacc.
  pose proof (storage_run_inv P o ops Hok (no_collision_prefix _ _ _ Hnc)) as Hinv. fold s in Hinv.
  destruct (storage_insert_cases P o order s now now' v) as [[_ H1]|(w & H1 & Ht & Hn & Hi & Hid & Hst)]; [contradiction|].
  rewrite H1. cbn [snd]. fold key.
  pose proof (stored_inv P o ops order s now now' v w Hinv Hop Hnc Hn Hi Hid Hst) as Iw.
  destruct Hst as [Hr Hc Hold|received' old_nodes Hr Hs1 Hs2 Hname Hkey Hd' Hw].
  - exfalso. apply check_signatures_iff in Hc; [|exact Hr]. destruct Hc as (_ & pk & Hpk & _).
    pose proof (Hinv _ _ Hs) as Iv. apply (value_inv_mono P o _ (flat_map hashed_by (ops ++ [OpStore order now now' v]))) in Iv;
      [|intros x Hx; rewrite flat_map_app; apply in_or_app; now left].
    destruct Iw as (_ & Iwk & _ & Im1 & Im2).
    destruct (same_owner P o _ key old_value v Hnc Iv Iwk Im1 Im2 eq_refl Hid) as [E1 E2].
    destruct Hol as (_ & _ & (name & Hname) & _). congruence.
  - assert (received' = received) by congruence. subst received'.
    destruct Hw as [Hnone|old' Hsome Hexp|old' on Hsome Hnow' Httl Hod].
    + unfold s, key in *; congruence.
    + assert (old' = old_value) by (unfold s, key in *; congruence). subst. lia.
    + assert (old' = old_value) by (unfold s, key in *; congruence). subst old'.
      assert (on = old) by (destruct Hol as (_ & _ & _ & Hdes & _); congruence). subst on.
      pose proof (Hinv _ _ Hs) as Iv. pose proof Iv as (_ & _ & Hnodes & _). pose proof (Hnodes _ Hol) as Hoko.
      apply (value_inv_mono P o _ (flat_map hashed_by (ops ++ [OpStore order now now' v]))) in Iv;
        [|intros x Hx; rewrite flat_map_app; apply in_or_app; now left].
      pose proof Iw as (_ & Iwk & _ & Im1 & Im2). cbn [make_overlay_nodes_value dv_key] in Iwk, Im1, Im2.
      destruct (same_owner P o _ key old_value v Hnc Iv Iwk Im1 Im2 eq_refl Hid) as [E1 E2].
      pose proof Hol as (_ & _ & _ & _ & Hsg & Hnd). rewrite E2 in Hsg.
      destruct Hop as (Hb & _ & Hord).
      destruct (written_overlay_list P order v received old Hr Hname Hkey (deserialized_nodes_ok _ _ Hb Hd) Hoko Hsg Hnd Hord) as [Hl1 _].
      set (new := List.filter (verify_overlay_node P (sha256 P (put_public_key (kd_id (dv_key v))))) received) in *.
      exists (make_overlay_nodes_value order v new old), (written_nodes order new old), new.
      split; [now rewrite lookup_insert|]. split; [exact Hl1|]. split.
      * intros n. unfold new. rewrite filter_In, verify_overlay_node_iff. reflexivity.
      * pose proof (merge_newest new old Hnd) as Hm. unfold written_nodes.
        apply (newest_permutation _ _ _ (order (merge_nodes new old))) in Hm; [|apply Permutation_sym, Hord].
        assert (Hle : N.of_nat (length (order (merge_nodes new old))) < 2 ^ 32).
        { pose proof Hm as (M1 & M2 & _). assert (Hinc : (length (order (merge_nodes new old)) <= length (old ++ new))%nat).
          { apply List.NoDup_incl_length; [now apply (List.NoDup_map_inv on_id)|]. intros n Hn'. apply in_or_app. auto. }
          rewrite app_length in Hinc.
          assert (Hf : (length new <= length received)%nat) by (unfold new; clear; induction received as [|a l IH]; cbn; [lia|destruct (verify_overlay_node _ _ a); cbn; lia]).
          lia. }
        rewrite N.mod_small by exact Hle. rewrite Nat2N.id, firstn_all. exact Hm.
Qed.

(** A check that a history has no collisions. *)
Definition collision_free (P : prims) (l : list bytes) : bool :=
  forallb (fun x => forallb (fun y => negb (bytes_eqb (sha256 P x) (sha256 P y)) || bytes_eqb x y) l) l.
Lemma no_collision_check : forall P ops, collision_free P (flat_map hashed_by ops) = true -> no_collision P ops.
Proof.
  intros P ops H x y Hx Hy He. unfold collision_free in H. rewrite forallb_forall in H. specialize (H x Hx). rewrite forallb_forall in H.
  specialize (H y Hy). rewrite He, bytes_eqb_refl in H. cbn in H. now apply bytes_eqb_eq.
Qed.
