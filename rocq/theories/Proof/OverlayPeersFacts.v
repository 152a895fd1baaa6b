From stdpp Require Import gmap.
From Coq Require Import NArith Lia Permutation.
From Verif.Base Require Import Bytes BytesFacts Res.
From Verif.Model Require Import Crypto Tl Scheme ProtoAdnl ProtoOverlay Peer AdnlNode PeersSet DhtStorage OverlayPeers.
From Verif.Spec Require Import CryptoSpec PeersSetSpec DhtSpec OverlaySpec.
From Verif.Proof Require Import PeersSetFacts DhtStorageFacts.
From Verif.Proof Require PeersSetLists.
Open Scope N_scope.

(** ** Sets of peers *)
Definition good (s : peers_set) : Prop := exists c q, reps c s q.

Lemma good_new : forall c, good (peers_set_new c).
Proof.
  intros c. destruct (with_peers_reps [] c) as [H _]. unfold with_peers_and_capacity in H. cbn [fill_new] in H.
  eexists _, _. unfold peers_set_new in *. cbn [ps_version ps_cache ps_index ps_capacity ps_upper] in H.
  rewrite Nat.mod_0_l in H by (unfold make_capacity; lia). exact H.
Qed.

Lemma good_with : forall l c, good (with_peers_and_capacity l c).
Proof. intros. eexists _, _. apply with_peers_reps. Qed.

Lemma good_insert : forall s p, good s -> good (snd (ps_insert s p)).
Proof. intros s p (c & q & H). destruct (insert_reps c s q p H) as (_ & Hr & _). eexists _, _. exact Hr. Qed.

Lemma good_extend : forall l s, good s -> good (ps_extend s l).
Proof.
  induction l as [|p r IH]; intros s H; [exact H|]. unfold ps_extend in *. cbn [fold_left].
  apply IH. now apply good_insert.
Qed.

Lemma good_contains : forall s p, good s -> ps_contains s p = true <-> In p (ps_members s).
Proof.
  intros s p (c & q & H). rewrite (reps_member _ _ _ p H). unfold ps_members.
  rewrite PeersSetLists.member_In. pose proof (reps_perm _ _ _ H) as Hp. split; intros Hin.
  - apply (Permutation_in p (Permutation_sym Hp) Hin).
  - apply (Permutation_in p Hp Hin).
Qed.

Lemma good_nodup : forall s, good s -> List.NoDup (ps_members s).
Proof. intros s (c & q & H). apply (reps_index_nodup _ _ _ H). Qed.

Lemma good_capacity : forall s, good s -> (length (ps_members s) <= ps_capacity s)%nat.
Proof.
  intros s (c & q & H). unfold ps_members. rewrite (rep_cap _ _ _ H).
  destruct (rep_queue _ _ _ H) as [(?&?&?)|(?&?&?)]; lia.
Qed.

Lemma in_replace_at : forall l i (x y : bytes), In y (replace_at l i x) -> y = x \/ In y l.
Proof.
  induction l as [|a r IH]; intros i x y H; cbn in H; [destruct H|].
  destruct i as [|i]; cbn in H.
  - destruct H as [<-|H]; [now left|right; now right].
  - destruct H as [<-|H]; [right; now left|]. destruct (IH i x y H) as [?|?]; [now left|right; now right].
Qed.

Lemma insert_members : forall s p x, In x (ps_members (snd (ps_insert s p))) -> x = p \/ In x (ps_members s).
Proof.
  intros s p x. unfold ps_insert, ps_members. destruct (ps_cache s !! p); [now right|].
  destruct (nth_error (ps_index s) (ps_upper s)); cbn [snd ps_index].
  - apply in_replace_at.
  - intros H. apply in_app_or in H as [H|[<-|[]]]; [now right|now left].
Qed.

Lemma extend_members : forall l s x, In x (ps_members (ps_extend s l)) -> In x l \/ In x (ps_members s).
Proof.
  induction l as [|p r IH]; intros s x H; [now right|]. unfold ps_extend in *. cbn [fold_left] in H.
  destruct (IH _ _ H) as [Hr|Hs]; [left; now right|].
  apply insert_members in Hs as [->|Hs]; [left; now left|now right].
Qed.

Lemma choose_in : forall l picks (x : bytes), In x (choose l picks) -> In x l.
Proof.
  intros l picks x H. unfold choose in H. apply in_flat_map in H as (i & _ & H).
  destruct (nth_error l i) as [y|] eqn:E; [|destruct H]. destruct H as [<-|[]]. eapply nth_error_In; eauto.
Qed.

Lemma in_firstn : forall {A} n (l : list A) x, In x (firstn n l) -> In x l.
Proof. intros A n l x H. rewrite <- (firstn_skipn n l). apply in_or_app. now left. Qed.

Lemma existsb_eq_in : forall (x : bytes) l, existsb (bytes_eqb x) l = true <-> In x l.
Proof.
  intros x l. rewrite existsb_exists. split.
  - intros (y & Hy & He). apply bytes_eqb_eq in He. now subst.
  - intros H. exists x. split; [exact H|apply bytes_eqb_refl].
Qed.

Lemma fill_members : forall s other amount l picks x,
  In x (ps_members (randomly_fill_from s other amount (Some l) picks)) ->
  (In x (ps_members other) /\ ~ In x l) \/ In x (ps_members s).
Proof.
  intros s other amount l picks x H. unfold randomly_fill_from in H. apply extend_members in H as [H|H]; [|now right].
  left. apply in_firstn in H. apply filter_In in H as [Hc He]. split; [now apply choose_in in Hc|].
  intros Hin. apply existsb_eq_in in Hin. rewrite Hin in He. discriminate.
Qed.

Lemma good_fill : forall s other amount e picks, good s -> good (randomly_fill_from s other amount e picks).
Proof. intros. unfold randomly_fill_from. now apply good_extend. Qed.

Lemma distinct_in : forall l seen (x : bytes), In x (distinct seen l) -> In x l.
Proof.
  induction l as [|p r IH]; intros seen x H; cbn [distinct] in H; [destruct H|].
  destruct (member p seen); [right; eapply IH; eauto|]. destruct H as [<-|H]; [now left|right; eapply IH; eauto].
Qed.

Lemma with_members : forall l c x, In x (ps_members (with_peers_and_capacity l c)) -> In x l.
Proof.
  intros l c x H. destruct (with_peers_reps l c) as [Hr _]. unfold ps_members in H.
  apply (Permutation_in x (reps_perm _ _ _ Hr)) in H. apply in_firstn in H. now apply distinct_in in H.
Qed.

(** ** Records *)
Lemma keep_newer_lookup : forall m k n k' n',
  keep_newer m k n !! k' = Some n' -> (k' = k /\ n' = n) \/ m !! k' = Some n'.
Proof.
  intros m k n k' n' H. unfold keep_newer in H. destruct (m !! k) as [old|] eqn:E.
  - destruct (on_version old <? on_version n); [|now right].
    destruct (decide (k = k')) as [->|Hne].
    + rewrite lookup_insert in H. injection H as ->. now left.
    + rewrite lookup_insert_ne in H by done. now right.
  - destruct (decide (k = k')) as [->|Hne].
    + rewrite lookup_insert in H. injection H as ->. now left.
    + rewrite lookup_insert_ne in H by done. now right.
Qed.

Lemma keep_newer_has : forall m k n, exists m', keep_newer m k n !! k = Some m' /\ on_version n <= on_version m'.
Proof.
  intros m k n. unfold keep_newer. destruct (m !! k) as [old|] eqn:E.
  - destruct (N.ltb_spec (on_version old) (on_version n)).
    + exists n. rewrite lookup_insert. split; [done|lia].
    + exists old. split; [done|lia].
  - exists n. rewrite lookup_insert. split; [done|lia].
Qed.

Lemma keep_newer_grows : forall m k n k' n',
  m !! k' = Some n' -> exists m', keep_newer m k n !! k' = Some m' /\ on_version n' <= on_version m'.
Proof.
  intros m k n k' n' H. destruct (decide (k = k')) as [->|Hne].
  - unfold keep_newer. rewrite H. destruct (N.ltb_spec (on_version n') (on_version n)).
    + exists n. rewrite lookup_insert. split; [done|lia].
    + exists n'. split; [done|lia].
  - exists n'. split; [|lia]. unfold keep_newer. destruct (m !! k) as [old|].
    + destruct (_ <? _); [|exact H]. now rewrite lookup_insert_ne.
    + now rewrite lookup_insert_ne.
Qed.

Lemma signed_full_id : forall P ov n, signed_node P ov n ->
  exists key, on_id n = PkEd25519 key /\ full_id P (on_id n) = Ok key.
Proof.
  intros P ov n (_ & key & Hk & Hs). exists key. split; [exact Hk|]. rewrite Hk. unfold full_id.
  now rewrite (proj1 Hs).
Qed.

Lemma verify_false : forall P ov n, verify_overlay_node P ov n = false <-> ~ signed_node P ov n.
Proof.
  intros. rewrite <- verify_overlay_node_iff. now destruct (verify_overlay_node P ov n).
Qed.

(** ** Adding a peer *)
Lemma add_public_peer_spec : forall P o adnl addr n fresh,
  let '(r, o', adnl') := add_public_peer P o adnl addr n fresh in
  (exists peer, r = Ok (Some peer) /\ record_of P (ov_id o) (ov_local_id P o) peer n
     /\ o' = insert_public_peer o peer n)
  \/ ((r = Ok None \/ r = Err PeersNotFound) /\ o' = o).
Proof.
  intros P o adnl addr n fresh. unfold add_public_peer.
  destruct (verify_overlay_node P (ov_id o) n) eqn:Ev; cbn [negb]; [|right; auto].
  apply verify_overlay_node_iff in Ev. destruct (signed_full_id _ _ _ Ev) as (key & Hk & ->).
  unfold add_peer. destruct (bytes_eqb (short_id P key) (ov_local_id P o)) eqn:Eq; cbn [orb]; [right; auto|].
  destruct (sockaddr_eqb addr (n_addr adnl)); [right; auto|].
  destruct (match n_filter adnl with Some f => negb (f CtxPublicOverlay addr (short_id P key)) | None => false end);
    [right; auto|].
  assert (Hr : record_of P (ov_id o) (ov_local_id P o) (short_id P key) n).
  { split; [exact Ev|]. exists key. split; [exact Hk|]. split; [reflexivity|].
    intros Hx. rewrite Hx, bytes_eqb_refl in Eq. discriminate. }
  destruct (n_peers adnl !! ov_local_id P o) as [ps|]; [|right; auto].
  destruct (ps !! short_id P key); left; eexists; split; [reflexivity| |reflexivity|]; auto.
Qed.

(** When a peer is added. *)
Lemma add_public_peer_iff : forall P o adnl addr n fresh peer,
  fst (fst (add_public_peer P o adnl addr n fresh)) = Ok (Some peer)
  <-> record_of P (ov_id o) (ov_local_id P o) peer n /\ acceptable adnl (ov_local_id P o) peer addr.
Proof.
  intros P o adnl addr n fresh peer. unfold add_public_peer, acceptable. split.
  - destruct (verify_overlay_node P (ov_id o) n) eqn:Ev; cbn [negb fst]; [|discriminate].
    apply verify_overlay_node_iff in Ev. destruct (signed_full_id _ _ _ Ev) as (key & Hk & ->).
    unfold add_peer. destruct (bytes_eqb (short_id P key) (ov_local_id P o)) eqn:Eq; cbn [orb fst]; [discriminate|].
    destruct (sockaddr_eqb addr (n_addr adnl)); cbn [fst]; [discriminate|].
    destruct (match n_filter adnl with Some f => negb (f CtxPublicOverlay addr (short_id P key)) | None => false end) eqn:Ef;
      cbn [fst]; [discriminate|].
    assert (Hne : short_id P key <> ov_local_id P o) by (intros Hx; rewrite Hx, bytes_eqb_refl in Eq; discriminate).
    destruct (n_peers adnl !! ov_local_id P o) as [ps|] eqn:Ep; cbn [fst]; [|discriminate].
    intros H. assert (Hp : peer = short_id P key) by (destruct (ps !! short_id P key); cbn in H; congruence).
    subst peer. split.
    + split; [exact Ev|]. exists key. auto.
    + split; [exact Hne|]. split; [reflexivity|]. split; [|now eexists].
      destruct (n_filter adnl); [|exact I]. now apply negb_false_iff in Ef.
  - intros ((Hs & key & Hk & -> & Hne) & Hne2 & Ha & Hf & [ps Hp]).
    rewrite (proj2 (verify_overlay_node_iff _ _ _) Hs). cbn [negb].
    destruct (signed_full_id _ _ _ Hs) as (key' & Hk' & ->). rewrite Hk in Hk'. injection Hk' as <-.
    change (node_id P key) with (short_id P key) in *.
    unfold add_peer. destruct (bytes_eqb (short_id P key) (ov_local_id P o)) eqn:Eq.
    { apply bytes_eqb_eq in Eq. contradiction. }
    rewrite Ha. cbn [orb].
    assert (Hf' : (match n_filter adnl with Some f => negb (f CtxPublicOverlay addr (short_id P key)) | None => false end) = false).
    { destruct (n_filter adnl); [|reflexivity]. now rewrite Hf. }
    rewrite Hf', Hp. now destruct (ps !! short_id P key).
Qed.

(** ** The invariant *)
Record overlay_inv (P : prims) (id key : bytes) (initial : list bytes) (off gos : list ov_node) (o : overlay) : Prop :=
  { oi_id : ov_id o = id;
    oi_key : ov_key o = key;
    oi_known_good : good (ov_known o);
    oi_neigh_good : good (ov_neighbours o);
    oi_known : forall p, In p (ps_members (ov_known o)) ->
      In p initial \/ exists n, In n off /\ record_of P id (node_id P (pub_of P key)) p n;
    oi_neigh : forall p, In p (ps_members (ov_neighbours o)) ->
      In p initial \/ exists n, In n off /\ record_of P id (node_id P (pub_of P key)) p n;
    oi_nodes : forall p n, ov_nodes o !! p = Some n -> In n off /\ record_of P id (node_id P (pub_of P key)) p n;
    oi_received : forall k n, ov_received o !! k = Some n ->
      In n gos /\ k = put_public_key (on_id n) /\ signed_node P id n /\ on_id n <> PkEd25519 (pub_of P key) }.

Lemma inv_weaken : forall P id key initial off gos off' gos' o,
  overlay_inv P id key initial off gos o -> incl off off' -> incl gos gos' ->
  overlay_inv P id key initial off' gos' o.
Proof.
  intros P id key initial off gos off' gos' o [] Ho Hg. split; try assumption.
  - intros p Hp. destruct (oi_known0 p Hp) as [?|(n & Hn & Hr)]; [now left|right; exists n; auto].
  - intros p Hp. destruct (oi_neigh0 p Hp) as [?|(n & Hn & Hr)]; [now left|right; exists n; auto].
  - intros p n Hn. destruct (oi_nodes0 p n Hn). auto.
  - intros k n Hn. destruct (oi_received0 k n Hn) as (?&?&?&?). auto.
Qed.

Lemma inv_update : forall P id key initial off gos o amount picks,
  overlay_inv P id key initial off gos o -> overlay_inv P id key initial off gos (update_neighbours o amount picks).
Proof.
  intros P id key initial off gos o amount picks []. unfold update_neighbours.
  split; cbn [ov_id ov_key ov_known ov_neighbours ov_nodes ov_received]; try assumption.
  - now apply good_fill.
  - intros p Hp. apply fill_members in Hp as [[Hp _]|Hp]; auto.
Qed.

Lemma inv_new : forall P id key initial m picks,
  overlay_inv P id key initial [] [] (overlay_new key id initial m picks).
Proof.
  intros. unfold overlay_new.
  assert (H : overlay_inv P id key initial [] []
    (mk_overlay id key m ∅ [] (with_peers_and_capacity initial (N.to_nat max_overlay_peers)) (peers_set_new (N.to_nat m)) ∅)).
  { split; cbn [ov_id ov_key ov_known ov_neighbours ov_nodes ov_received]; try reflexivity.
    - apply good_with.
    - apply good_new.
    - intros p Hp. left. now apply with_members in Hp.
    - intros p [].
    - intros p n Hn. now rewrite lookup_empty in Hn.
    - intros p n Hn. now rewrite lookup_empty in Hn. }
  destruct initial; [exact H|]. now apply inv_update.
Qed.

Lemma inv_insert : forall P id key initial off gos o peer n,
  overlay_inv P id key initial off gos o -> In n off -> record_of P id (node_id P (pub_of P key)) peer n ->
  overlay_inv P id key initial off gos (insert_public_peer o peer n).
Proof.
  intros P id key initial off gos o peer n [] Hn Hr. unfold insert_public_peer.
  split; cbn [ov_id ov_key ov_known ov_neighbours ov_nodes ov_received]; try assumption.
  - now apply good_insert.
  - destruct (ps_is_full _); [assumption|now apply good_insert].
  - intros p Hp. apply insert_members in Hp as [->|Hp]; [right; exists n; auto|auto].
  - intros p Hp. destruct (ps_is_full _); [now apply oi_neigh0|].
    apply insert_members in Hp as [->|Hp]; [right; exists n; auto|auto].
  - intros p n' Hp. apply keep_newer_lookup in Hp as [[-> ->]|Hp]; auto.
Qed.

Lemma inv_add : forall P id key initial off gos o adnl addr n fresh,
  overlay_inv P id key initial off gos o -> In n off ->
  overlay_inv P id key initial off gos (snd (fst (add_public_peer P o adnl addr n fresh))).
Proof.
  intros P id key initial off gos o adnl addr n fresh H Hn.
  pose proof (add_public_peer_spec P o adnl addr n fresh) as Hs.
  destruct (add_public_peer P o adnl addr n fresh) as [[r o'] adnl']. cbn [fst snd].
  destruct Hs as [(peer & _ & Hr & ->)|[_ ->]]; [|exact H].
  apply inv_insert; [exact H|exact Hn|]. destruct H. unfold ov_local_id in Hr. rewrite oi_id0, oi_key0 in Hr. exact Hr.
Qed.

Lemma add_many_step : forall P o adnl addr n fresh r,
  snd (fst (add_public_peers P o adnl ((addr, n, fresh) :: r)))
  = (let '(x, o', adnl') := add_public_peer P o adnl addr n fresh in
     match x with Err _ => o' | Ok _ => snd (fst (add_public_peers P o' adnl' r)) end).
Proof.
  intros. cbn [add_public_peers]. destruct (add_public_peer P o adnl addr n fresh) as [[x o'] adnl'].
  destruct x as [new|e]; [|reflexivity]. destruct (add_public_peers P o' adnl' r) as [[y o''] adnl''].
  now destruct y.
Qed.

Lemma inv_add_many : forall P id key initial off gos l o adnl,
  overlay_inv P id key initial off gos o -> (forall x, In x l -> In (snd (fst x)) off) ->
  overlay_inv P id key initial off gos (snd (fst (add_public_peers P o adnl l))).
Proof.
  induction l as [|[[addr n] fresh] r IH]; intros o adnl H Hin; [exact H|].
  rewrite add_many_step. pose proof (inv_add P id key initial off gos o adnl addr n fresh H (Hin _ (or_introl eq_refl))) as Ha.
  destruct (add_public_peer P o adnl addr n fresh) as [[x o'] adnl']. cbn [fst snd] in Ha.
  destruct x; [|exact Ha]. apply IH; [exact Ha|]. intros y Hy. apply Hin. now right.
Qed.

Lemma inv_remove : forall P id key initial off gos o p picks,
  overlay_inv P id key initial off gos o ->
  overlay_inv P id key initial off gos (snd (remove_public_peer o p picks)).
Proof.
  intros P id key initial off gos o p picks H. unfold remove_public_peer.
  destruct (existsb _ _); [exact H|]. cbn [snd].
  assert (H' : overlay_inv P id key initial off gos
     (mk_overlay (ov_id o) (ov_key o) (ov_max_neighbours o) (ov_nodes o) (p :: ov_ignored o) (ov_known o) (ov_neighbours o) (ov_received o))).
  { destruct H. now split. }
  destruct (ps_contains _ _); [now apply inv_update|exact H'].
Qed.

Lemma filter_nodes_in : forall P o l n, In n (filter_nodes P o l) <->
  In n l /\ signed_node P (ov_id o) n /\ on_id n <> PkEd25519 (pub_of P (ov_key o)).
Proof.
  intros P o l n. unfold filter_nodes. rewrite filter_In. split; intros [Hin H]; (split; [exact Hin|]).
  - destruct (on_id n) as [| |key|] eqn:Hid; try discriminate. apply andb_true_iff in H as [Hk Hv].
    split; [now apply verify_overlay_node_iff|]. intros [= ->]. now rewrite bytes_eqb_refl in Hk.
  - destruct H as [Hs Hne]. destruct (signed_full_id _ _ _ Hs) as (key & Hk & _). rewrite Hk.
    rewrite (proj2 (verify_overlay_node_iff _ _ _) Hs), andb_true_r.
    destruct (bytes_eqb key _) eqn:E; [|reflexivity]. apply bytes_eqb_eq in E. subst key. contradiction.
Qed.

Lemma fold_keep_lookup : forall l m k n,
  fold_left (fun m n => keep_newer m (put_public_key (on_id n)) n) l m !! k = Some n ->
  (In n l /\ k = put_public_key (on_id n)) \/ m !! k = Some n.
Proof.
  induction l as [|x r IH]; intros m k n H; [now right|]. cbn [fold_left] in H.
  apply IH in H as [[Hin Hk]|H]; [left; split; [now right|exact Hk]|].
  apply keep_newer_lookup in H as [[-> ->]|H]; [left; split; [now left|done]|now right].
Qed.

Lemma fold_keep_grows : forall l m k n, m !! k = Some n ->
  exists m', fold_left (fun m n => keep_newer m (put_public_key (on_id n)) n) l m !! k = Some m'
             /\ on_version n <= on_version m'.
Proof.
  induction l as [|x r IH]; intros m k n H; [exists n; split; [done|lia]|]. cbn [fold_left].
  destruct (keep_newer_grows m (put_public_key (on_id x)) x k n H) as (n1 & H1 & Hle).
  destruct (IH _ _ _ H1) as (n2 & H2 & Hle2). exists n2. split; [done|lia].
Qed.

Lemma fold_keep_has : forall l m n, In n l ->
  exists m', fold_left (fun m n => keep_newer m (put_public_key (on_id n)) n) l m !! put_public_key (on_id n) = Some m'
             /\ on_version n <= on_version m'.
Proof.
  induction l as [|x r IH]; intros m n H; [destruct H|]. cbn [fold_left]. destruct H as [<-|H]; [|now apply IH].
  destruct (keep_newer_has m (put_public_key (on_id x)) x) as (n1 & H1 & Hle).
  destruct (fold_keep_grows r _ _ _ H1) as (n2 & H2 & Hle2). exists n2. split; [done|lia].
Qed.

Lemma inv_step : forall P id key initial off gos o op,
  overlay_inv P id key initial off gos o ->
  overlay_inv P id key initial (off ++ offered op) (gos ++ gossiped op) (overlay_step P o op).
Proof.
  intros P id key initial off gos o op H.
  assert (H' : overlay_inv P id key initial (off ++ offered op) (gos ++ gossiped op) o)
    by (eapply inv_weaken; [exact H| |]; apply incl_appl, incl_refl).
  destruct op as [adnl addr n fresh|adnl l|p picks|amount picks|l now picks|]; cbn [overlay_step].
  - apply inv_add; [exact H'|]. apply in_or_app. right. now left.
  - apply inv_add_many; [exact H'|]. intros x Hx. apply in_or_app. right. cbn [offered].
    apply in_map_iff. now exists x.
  - now apply inv_remove.
  - now apply inv_update.
  - destruct H'. unfold process_get_random_peers. cbn [snd].
    split; cbn [ov_id ov_key ov_known ov_neighbours ov_nodes ov_received]; try assumption.
    intros k n Hn. apply fold_keep_lookup in Hn as [[Hn Hk]|Hn]; [|now apply oi_received0].
    apply filter_nodes_in in Hn as (Hin & Hs & Hne). rewrite oi_id0 in Hs. rewrite oi_key0 in Hne.
    split; [apply in_or_app; right; exact Hin|]. auto.
  - destruct H'. cbn [take_new_peers snd].
    split; cbn [ov_id ov_key ov_known ov_neighbours ov_nodes ov_received]; try assumption.
    intros k n Hn. now rewrite lookup_empty in Hn.
Qed.

Lemma inv_run : forall P id key initial ops off gos o,
  overlay_inv P id key initial off gos o ->
  overlay_inv P id key initial (off ++ flat_map offered ops) (gos ++ flat_map gossiped ops) (overlay_run P o ops).
Proof.
  induction ops as [|op r IH]; intros off gos o H; cbn [flat_map overlay_run fold_left].
  - now rewrite !app_nil_r.
  - rewrite !app_assoc. apply IH. now apply inv_step.
Qed.

(** ** C47 *)
Lemma peers_are_verified : forall P id key initial m picks ops,
  let o := overlay_run P (overlay_new key id initial m picks) ops in
  let self := node_id P (pub_of P key) in
  let verified := fun p => exists n, In n (flat_map offered ops) /\ record_of P id self p n in
  (forall p, is_known_peer o p = true -> In p initial \/ verified p)
  /\ (forall p amount except picks', In p (broadcast_targets o amount except picks') -> In p initial \/ verified p)
  /\ (forall p, In p (ps_members (ov_neighbours o)) -> In p initial \/ verified p)
  /\ (forall p n, ov_nodes o !! p = Some n -> In n (flat_map offered ops) /\ record_of P id self p n)
  /\ (forall k n, fst (take_new_peers o) !! k = Some n ->
        In n (flat_map gossiped ops) /\ signed_node P id n /\ on_id n <> PkEd25519 (pub_of P key)).
Proof.
  intros P id key initial m picks ops. cbv zeta.
  pose proof (inv_run P id key initial ops [] [] _ (inv_new P id key initial m picks)) as H.
  cbn [app] in H. set (o := overlay_run _ _ _) in *. clearbody o. destruct H.
  split; [|split; [|split; [|split]]].
  - intros p Hp. apply oi_known0. now apply good_contains.
  - intros p amount except picks' Hp. apply oi_neigh0. unfold broadcast_targets, get_random_peers in Hp.
    destruct except as [e|].
    + apply in_firstn in Hp. apply filter_In in Hp as [Hp _]. now apply choose_in in Hp.
    + now apply choose_in in Hp.
  - assumption.
  - assumption.
  - intros k n Hn. cbn [take_new_peers fst] in Hn. destruct (oi_received0 k n Hn) as (?&?&?&?). auto.
Qed.

Lemma insert_contains : forall s p, good s -> ps_contains (snd (ps_insert s p)) p = true.
Proof.
  intros s p (c & q & H). destruct (insert_reps c s q p H) as (_ & Hr & _).
  rewrite (reps_member _ _ _ p Hr). unfold fifo_add. destruct (member p q) eqn:E; cbn [snd]; [exact E|].
  apply PeersSetLists.member_In. unfold last_n.
  assert (Hc : (0 < c)%nat) by apply (rep_pos _ _ _ H).
  rewrite skipn_app. apply in_or_app. right. rewrite app_length. cbn [length].
  replace (length q + 1 - c - length q)%nat with 0%nat by lia. now left.
Qed.

Lemma added_is_active : forall P id key initial m picks ops adnl addr n fresh,
  let o := overlay_run P (overlay_new key id initial m picks) ops in
  let self := node_id P (pub_of P key) in
  let '(r, o', _) := add_public_peer P o adnl addr n fresh in
  (forall p, r = Ok (Some p) <-> record_of P id self p n /\ acceptable adnl self p addr)
  /\ match r with
     | Ok (Some p) =>
       is_active_public_peer o' p = true
       /\ (ps_is_full (ov_neighbours o) = false -> ps_contains (ov_neighbours o') p = true)
       /\ exists kept, ov_nodes o' !! p = Some kept /\ on_version n <= on_version kept
     | _ => o' = o
     end.
Proof.
  intros P id key initial m picks ops adnl addr n fresh. cbv zeta.
  pose proof (inv_run P id key initial ops [] [] _ (inv_new P id key initial m picks)) as H.
  cbn [app] in H. set (o := overlay_run _ _ _) in *. clearbody o.
  pose proof (add_public_peer_spec P o adnl addr n fresh) as Hs.
  pose proof (add_public_peer_iff P o adnl addr n fresh) as Hiff.
  unfold ov_local_id in *. rewrite (oi_id _ _ _ _ _ _ _ H), (oi_key _ _ _ _ _ _ _ H) in Hs, Hiff.
  destruct (add_public_peer P o adnl addr n fresh) as [[r o'] adnl']. cbn [fst] in Hiff. split; [exact Hiff|].
  destruct Hs as [(peer & -> & _ & ->)|[[-> | ->] ->]]; [|reflexivity|reflexivity].
  unfold is_active_public_peer, insert_public_peer. cbn [ov_known ov_ignored ov_neighbours ov_nodes].
  split; [|split].
  - rewrite insert_contains by apply (oi_known_good _ _ _ _ _ _ _ H). cbn [andb]. apply negb_true_iff.
    apply not_true_iff_false. rewrite existsb_eq_in. intros Hin. apply filter_In in Hin as [_ Hin].
    now rewrite bytes_eqb_refl in Hin.
  - intros ->. apply insert_contains, (oi_neigh_good _ _ _ _ _ _ _ H).
  - apply keep_newer_has.
Qed.

Definition same_node (a b : node) : Prop :=
  n_addr a = n_addr b /\ n_filter a = n_filter b /\ forall k, is_Some (n_peers a !! k) <-> is_Some (n_peers b !! k).
Lemma same_acceptable : forall a b, same_node a b -> forall self p addr, acceptable a self p addr <-> acceptable b self p addr.
Proof. intros a b (H1 & H2 & H3) self p addr. unfold acceptable. rewrite H1, H2, H3. reflexivity. Qed.
Lemma add_public_peer_keeps : forall P o adnl addr n fresh,
  let '(r, o', adnl') := add_public_peer P o adnl addr n fresh in
  ov_id o' = ov_id o /\ ov_key o' = ov_key o /\ same_node adnl' adnl
  /\ (forall e, r = Err e -> n_peers adnl !! ov_local_id P o = None).
Proof.
  intros P o adnl addr n fresh. unfold add_public_peer.
  assert (H0 : same_node adnl adnl) by (split; [reflexivity|]; split; [reflexivity|]; intros k; reflexivity).
  destruct (verify_overlay_node P (ov_id o) n) eqn:Ev; cbn [negb]; [|repeat split; try exact H0; try easy].
  apply verify_overlay_node_iff in Ev. destruct (signed_full_id _ _ _ Ev) as (key & Hk & ->).
  unfold add_peer. destruct (bytes_eqb (short_id P key) (ov_local_id P o) || sockaddr_eqb addr (n_addr adnl))%bool; [now repeat split|].
  destruct (match n_filter adnl with Some f => negb (f CtxPublicOverlay addr (short_id P key)) | None => false end); [now repeat split|].
  destruct (n_peers adnl !! ov_local_id P o) as [ps|] eqn:Ep; [|now repeat split].
  assert (Ha : forall x, same_node (put_peer adnl (ov_local_id P o) (short_id P key) x) adnl).
  { intros x. unfold put_peer. rewrite Ep. split; [reflexivity|]. split; [reflexivity|]. intros k. cbn [n_peers set_peers].
    destruct (decide (k = ov_local_id P o)) as [->|Hne].
    - rewrite lookup_insert, Ep. split; intros _; now eexists.
    - rewrite lookup_insert_ne by congruence. reflexivity. }
  destruct (ps !! short_id P key); (split; [reflexivity|]; split; [reflexivity|]; split; [apply Ha|discriminate]).
Qed.
Lemma add_many_result : forall P l o adnl,
  let self := ov_local_id P o in let '(r, _, _) := add_public_peers P o adnl l in
  (is_Some (n_peers adnl !! self) -> exists ps, r = Ok ps)
  /\ forall ps, r = Ok ps -> forall p, List.In p ps <->
       exists addr n fresh, List.In (addr, n, fresh) l /\ record_of P (ov_id o) self p n /\ acceptable adnl self p addr.
Proof.
  induction l as [|[[addr n] fresh] r IH]; intros o adnl; cbv zeta.
  - cbn [add_public_peers]. split; [intros _; now eexists|]. intros ps [= <-] p. split; [intros []|]. intros (? & ? & ? & [] & _).
  - cbn [add_public_peers]. pose proof (add_public_peer_iff P o adnl addr n fresh) as Hi.
    pose proof (add_public_peer_keeps P o adnl addr n fresh) as Hk.
    destruct (add_public_peer P o adnl addr n fresh) as [[x o'] adnl'].
    destruct Hk as (K1 & K2 & K3 & K4). cbn [fst] in Hi.
    assert (Hself : ov_local_id P o' = ov_local_id P o) by (unfold ov_local_id; now rewrite K2).
    destruct x as [new|e].
    2:{ split; [|discriminate]. intros [y Hy]. specialize (K4 e eq_refl). congruence. }
    specialize (IH o' adnl'). cbv zeta in IH. rewrite Hself, K1 in IH.
    destruct (add_public_peers P o' adnl' r) as [[y o''] adnl'']. destruct IH as [IH1 IH2]. destruct y as [rest|e]; cbv beta iota; split.
    + intros _. now eexists.
    + intros ps Hps p.
      assert (Hx : ps = match new with Some q => q :: rest | None => rest end) by congruence. clear Hps.
      assert (Hrest : List.In p rest <-> exists addr n fresh, List.In (addr, n, fresh) r
        /\ record_of P (ov_id o) (ov_local_id P o) p n /\ acceptable adnl (ov_local_id P o) p addr).
      { rewrite (IH2 rest eq_refl p). split; intros (a & m & f & H1 & H2 & H3); exists a, m, f;
          (split; [exact H1|]; split; [exact H2|]; now apply (same_acceptable _ _ K3)). }
      assert (Hnew : new = Some p <-> record_of P (ov_id o) (ov_local_id P o) p n /\ acceptable adnl (ov_local_id P o) p addr).
      { rewrite <- Hi. split; congruence. }
      assert (Hps : List.In p ps <-> new = Some p \/ List.In p rest).
      { rewrite Hx. destruct new as [q|]; cbn; [|intuition congruence]. split; intros [H|H]; auto; left; congruence. }
      rewrite Hps, Hnew, Hrest. split.
      * intros [[H1 H2]|(a & m & f & H1 & H2)]; [exists addr, n, fresh|exists a, m, f]; (split; [|tauto]); [now left|now right].
      * intros (a & m & f & [H1|H1] & H2); [left|right; exists a, m, f; tauto]. injection H1 as <- <- <-. exact H2.
    + intros Hs. destruct IH1 as [ps Hps]; [now apply K3|discriminate].
    + discriminate.
Qed.
Lemma many_added : forall P id key initial m picks ops adnl l,
  let o := overlay_run P (overlay_new key id initial m picks) ops in
  let self := node_id P (pub_of P key) in
  let '(r, _, _) := add_public_peers P o adnl l in
  (is_Some (n_peers adnl !! self) -> exists ps, r = Ok ps)
  /\ forall ps, r = Ok ps -> forall p, List.In p ps <->
       exists addr n fresh, List.In (addr, n, fresh) l /\ record_of P id self p n /\ acceptable adnl self p addr.
Proof.
  intros P id key initial m picks ops adnl l. cbv zeta.
  pose proof (inv_run P id key initial ops [] [] _ (inv_new P id key initial m picks)) as H.
  cbn [app] in H. set (o := overlay_run _ _ _) in *. clearbody o.
  pose proof (add_many_result P l o adnl) as Hm. cbv zeta in Hm.
  unfold ov_local_id in Hm. rewrite (oi_id _ _ _ _ _ _ _ H), (oi_key _ _ _ _ _ _ _ H) in Hm. exact Hm.
Qed.

(** ** C48 *)
(** A peer marked as ignored is excluded from every selection. *)
Record gone (p : bytes) (allowed : bool) (o : overlay) : Prop :=
  { go_ignored : In p (ov_ignored o);
    go_known_good : good (ov_known o);
    go_neigh_good : good (ov_neighbours o);
    go_neigh : allowed = false -> ~ In p (ps_members (ov_neighbours o)) }.

Lemma gone_update : forall p b o amount picks, gone p b o -> gone p b (update_neighbours o amount picks).
Proof.
  intros p b o amount picks []. unfold update_neighbours. split; cbn [ov_ignored ov_known ov_neighbours]; try assumption.
  - now apply good_fill.
  - intros Hb Hin. apply fill_members in Hin as [[_ Hin]|Hin]; [contradiction|now apply (go_neigh0 Hb)].
Qed.

Lemma gone_add : forall P p b o adnl addr n fresh, gone p b o ->
  ~ (exists key, on_id n = PkEd25519 key /\ p = node_id P key) ->
  gone p b (snd (fst (add_public_peer P o adnl addr n fresh))).
Proof.
  intros P p b o adnl addr n fresh H Hno. pose proof (add_public_peer_spec P o adnl addr n fresh) as Hs.
  destruct (add_public_peer P o adnl addr n fresh) as [[r o'] adnl']. cbn [fst snd].
  destruct Hs as [(peer & _ & (_ & key & Hk & Hp & _) & ->)|[_ ->]]; [|exact H].
  assert (Hne : p <> peer) by (intros ->; apply Hno; eauto).
  destruct H. unfold insert_public_peer. split; cbn [ov_ignored ov_known ov_neighbours].
  - apply filter_In. split; [assumption|]. destruct (bytes_eqb p peer) eqn:E; [|reflexivity].
    apply bytes_eqb_eq in E. contradiction.
  - now apply good_insert.
  - destruct (ps_is_full _); [assumption|now apply good_insert].
  - intros Hb Hin. apply (go_neigh0 Hb). destruct (ps_is_full _); [assumption|].
    apply insert_members in Hin as [->|Hin]; [contradiction|assumption].
Qed.

Lemma gone_add_many : forall P p b l o adnl, gone p b o ->
  ~ (exists n key, In n (map (fun x => snd (fst x)) l) /\ on_id n = PkEd25519 key /\ p = node_id P key) ->
  gone p b (snd (fst (add_public_peers P o adnl l))).
Proof.
  induction l as [|[[addr n] fresh] r IH]; intros o adnl H Hno; [exact H|].
  rewrite add_many_step.
  assert (Ha : gone p b (snd (fst (add_public_peer P o adnl addr n fresh)))).
  { apply gone_add; [exact H|]. intros (key & Hk & Hp). apply Hno. exists n, key. split; [now left|auto]. }
  destruct (add_public_peer P o adnl addr n fresh) as [[x o'] adnl']. cbn [fst snd] in Ha.
  destruct x; [|exact Ha]. apply IH; [exact Ha|]. intros (n' & key & Hin & Hr). apply Hno. exists n', key.
  split; [now right|exact Hr].
Qed.

Lemma gone_step : forall P p b o op, gone p b o -> ~ offers P p op -> gone p b (overlay_step P o op).
Proof.
  intros P p b o op H Hno. destruct op as [adnl addr n fresh|adnl l|p' picks|amount picks|l now picks|]; cbn [overlay_step].
  - apply gone_add; [exact H|]. intros (key & Hk & Hp). apply Hno. exists n, key. split; [now left|auto].
  - apply gone_add_many; [exact H|]. intros (n & key & Hin & Hk & Hp). apply Hno. now exists n, key.
  - unfold remove_public_peer. destruct (existsb _ _); [exact H|]. cbn [snd].
    assert (H' : gone p b (mk_overlay (ov_id o) (ov_key o) (ov_max_neighbours o) (ov_nodes o) (p' :: ov_ignored o)
                   (ov_known o) (ov_neighbours o) (ov_received o))).
    { destruct H. split; cbn [ov_ignored ov_known ov_neighbours]; try assumption. now right. }
    destruct (ps_contains _ _); [now apply gone_update|exact H'].
  - now apply gone_update.
  - destruct H. unfold process_get_random_peers. cbn [snd]. split; assumption.
  - destruct H. cbn [take_new_peers snd]. split; assumption.
Qed.

Lemma gone_run : forall P p b ops o, gone p b o -> Forall (fun op => ~ offers P p op) ops -> gone p b (overlay_run P o ops).
Proof.
  induction ops as [|op r IH]; intros o H Hno; [exact H|]. cbn [overlay_run fold_left].
  apply List.Forall_cons_iff in Hno as [H1 H2]. apply IH; [now apply gone_step|exact H2].
Qed.

Lemma removed_gone : forall o p picks, good (ov_known o) -> good (ov_neighbours o) ->
  gone p true (snd (remove_public_peer o p picks)).
Proof.
  intros o p picks Hk Hn. unfold remove_public_peer. destruct (existsb _ _) eqn:E; cbn [snd].
  - apply existsb_eq_in in E. split; try assumption. discriminate.
  - set (o' := mk_overlay _ _ _ _ _ _ _ _).
    assert (H' : gone p true o') by (split; cbn [o' ov_ignored ov_known ov_neighbours]; try assumption; [now left|discriminate]).
    destruct (ps_contains _ _); [now apply gone_update|exact H'].
Qed.

Lemma gone_inactive : forall p b o, gone p b o ->
  is_active_public_peer o p = false
  /\ (forall amount dst picks, ps_contains dst p = false -> good dst ->
        ps_contains (write_cached_peers o amount dst picks) p = false)
  /\ (b = false -> forall amount except picks, ~ In p (broadcast_targets o amount except picks)).
Proof.
  intros p b o []. split; [|split].
  - unfold is_active_public_peer. rewrite (proj2 (existsb_eq_in _ _) go_ignored0). apply andb_false_r.
  - intros amount dst picks Hd Hg. apply not_true_iff_false. unfold write_cached_peers.
    rewrite good_contains by now apply good_fill. intros Hin. apply fill_members in Hin as [[_ Hin]|Hin]; [contradiction|].
    apply good_contains in Hin; [congruence|assumption].
  - intros Hb amount except picks Hp. apply (go_neigh0 Hb). unfold broadcast_targets, get_random_peers in Hp.
    destruct except as [e|].
    + apply in_firstn in Hp. apply filter_In in Hp as [Hp _]. now apply choose_in in Hp.
    + now apply choose_in in Hp.
Qed.

Lemma removed_peer : forall P id key initial m picks ops p picks' later,
  let o := snd (remove_public_peer (overlay_run P (overlay_new key id initial m picks) ops) p picks') in
  Forall (fun op => ~ offers P p op) later ->
  let o' := overlay_run P o later in
  is_active_public_peer o' p = false
  /\ (forall c l amount picks'', let dst := snd (ps_inserts (peers_set_new c) l) in
        ps_contains dst p = false -> ps_contains (write_cached_peers o' amount dst picks'') p = false)
  /\ (~ In p (ps_members (ov_neighbours o)) ->
      ~ In p (ps_members (ov_neighbours o')) /\ forall amount except picks'', ~ In p (broadcast_targets o' amount except picks'')).
Proof.
  intros P id key initial m picks ops p picks' later. cbv zeta. intros Hno.
  pose proof (inv_run P id key initial ops [] [] _ (inv_new P id key initial m picks)) as H.
  set (o0 := overlay_run _ _ ops) in *. clearbody o0.
  pose proof (removed_gone o0 p picks' (oi_known_good _ _ _ _ _ _ _ H) (oi_neigh_good _ _ _ _ _ _ _ H)) as Hg.
  set (o := snd (remove_public_peer o0 p picks')) in *. clearbody o.
  destruct (gone_inactive p true _ (gone_run P p true later o Hg Hno)) as (Ha & Hw & _).
  split; [exact Ha|]. split.
  - intros c l amount picks'' Hc. apply Hw; [exact Hc|].
    assert (Hd : forall l s, good s -> good (snd (ps_inserts s l))).
    { clear. induction l as [|x r IH]; intros s Hs; [exact Hs|]. cbn [ps_inserts].
      pose proof (good_insert s x Hs) as Hi. destruct (ps_insert s x) as [b s']. cbn [snd] in Hi.
      specialize (IH s' Hi). destruct (ps_inserts s' r). exact IH. }
    apply Hd, good_new.
  - intros Hn. assert (Hg' : gone p false o) by (destruct Hg; split; auto).
    pose proof (gone_run P p false later o Hg' Hno) as Hr. split; [now apply (go_neigh _ _ _ Hr)|].
    now apply (proj2 (proj2 (gone_inactive p false _ Hr))).
Qed.

(** ** Random peers *)
Lemma members_new : forall c, ps_members (peers_set_new c) = [].
Proof. reflexivity. Qed.

Lemma insert_length : forall s p, good s -> (length (ps_members (snd (ps_insert s p))) <= ps_capacity s)%nat
  /\ ps_capacity (snd (ps_insert s p)) = ps_capacity s.
Proof.
  intros s p H. assert (Hc : ps_capacity (snd (ps_insert s p)) = ps_capacity s).
  { unfold ps_insert. destruct (ps_cache s !! p); [done|]. now destruct (nth_error _ _). }
  split; [|exact Hc]. rewrite <- Hc. apply good_capacity. now apply good_insert.
Qed.

Lemma extend_capacity : forall l s, ps_capacity (ps_extend s l) = ps_capacity s.
Proof.
  induction l as [|p r IH]; intros s; [done|]. unfold ps_extend in *. cbn [fold_left]. rewrite IH.
  unfold ps_insert. destruct (ps_cache s !! p); [done|]. now destruct (nth_error _ _).
Qed.

Lemma flat_option_map_ids : forall P id self (m : gmap bytes ov_node) l,
  (forall p n, m !! p = Some n -> record_of P id self p n) -> List.NoDup l ->
  List.NoDup (map on_id (flat_map (fun p => match m !! p with Some n => [n] | None => [] end) l)).
Proof.
  intros P id self m l Hm. induction 1 as [|p l Hni Hnd IH]; cbn [flat_map map]; [constructor|].
  destruct (m !! p) as [n|] eqn:E; [|exact IH]. cbn [app map]. constructor; [|exact IH].
  intros Hin. apply in_map_iff in Hin as (n' & Hid & Hin). apply in_flat_map in Hin as (p' & Hp' & Hin).
  destruct (m !! p') as [n''|] eqn:E'; [|destruct Hin]. destruct Hin as [-> |[]].
  destruct (Hm _ _ E) as (_ & k & Hk & Hp & _), (Hm _ _ E') as (_ & k' & Hk' & Hp2 & _).
  rewrite Hk, Hk' in Hid. injection Hid as ->. subst. contradiction.
Qed.

Lemma own_record : forall P o now, prims_ok P -> signed_node P (ov_id o) (sign_overlay_node P o now).
Proof.
  intros P o now HP. unfold sign_overlay_node. split; [reflexivity|]. exists (pub_of P (ov_key o)). split; [reflexivity|].
  cbn [on_version on_signature]. split; [apply HP|]. split; [apply HP|]. apply HP.
Qed.

Lemma random_peers_answer : forall P id key initial m picks ops now picks',
  prims_ok P ->
  let o := overlay_run P (overlay_new key id initial m picks) ops in
  let answer := prepare_random_peers P o now picks' in
  let self := node_id P (pub_of P key) in
  (length answer <= 5)%nat
  /\ Forall (signed_node P id) answer
  /\ List.NoDup (map on_id answer)
  /\ (exists own rest, answer = own :: rest /\ on_id own = PkEd25519 (pub_of P key) /\ on_version own = now
      /\ (forall n, In n rest -> exists p, In p (ps_members (ov_neighbours o)) /\ record_of P id self p n
                                           /\ In n (flat_map offered ops)))
  /\ (forall other n, ov_id other = id -> In n answer -> on_id n <> PkEd25519 (pub_of P (ov_key other)) ->
        In n (filter_nodes P other answer)).
Proof.
  intros P id key initial m picks ops now picks' HP. cbv zeta.
  pose proof (inv_run P id key initial ops [] [] _ (inv_new P id key initial m picks)) as H.
  cbn [app] in H. set (o := overlay_run _ _ ops) in *. clearbody o.
  unfold prepare_random_peers.
  set (l := ps_members (randomly_fill_from (peers_set_new 4) (ov_neighbours o) 4 None picks')).
  assert (Hl : (length l <= 4)%nat /\ List.NoDup l /\ forall p, In p l -> In p (ps_members (ov_neighbours o))).
  { assert (Hg : good (randomly_fill_from (peers_set_new 4) (ov_neighbours o) 4 None picks')) by apply good_fill, good_new.
    split; [|split].
    - pose proof (good_capacity _ Hg) as Hc. unfold randomly_fill_from in Hc. rewrite extend_capacity in Hc. exact Hc.
    - now apply good_nodup.
    - intros p Hp. unfold l, randomly_fill_from in Hp. apply extend_members in Hp as [Hp|[]]. now apply choose_in in Hp. }
  clearbody l. destruct Hl as (Hlen & Hnd & Hin). destruct H.
  assert (Hflat : forall n, In n (flat_map (fun p => match ov_nodes o !! p with Some n => [n] | None => [] end) l) ->
            exists p, In p l /\ ov_nodes o !! p = Some n).
  { intros n Hn. apply in_flat_map in Hn as (p & Hp & Hn). exists p. split; [exact Hp|].
    destruct (ov_nodes o !! p); [|destruct Hn]. now destruct Hn as [-> |[]]. }
  assert (Hsig : Forall (signed_node P id) (sign_overlay_node P o now
            :: flat_map (fun p => match ov_nodes o !! p with Some n => [n] | None => [] end) l)).
  { constructor; [rewrite <- oi_id0; now apply own_record|]. apply List.Forall_forall. intros n Hn.
    destruct (Hflat n Hn) as (p & _ & Hp). apply (oi_nodes0 p n Hp). }
  split; [|split; [exact Hsig|split; [|split]]].
  - cbn [length]. assert (Hf : (length (flat_map (fun p => match ov_nodes o !! p with Some n => [n] | None => [] end) l) <= length l)%nat).
    { clear. induction l as [|p l IH]; [cbn; lia|]. cbn [flat_map length]. rewrite app_length. destruct (ov_nodes o !! p); cbn [length]; lia. }
    lia.
  - cbn [map]. constructor.
    + intros Hx. apply in_map_iff in Hx as (n & Hid & Hn). destruct (Hflat n Hn) as (p & _ & Hp).
      destruct (oi_nodes0 p n Hp) as (_ & _ & k & Hk & -> & Hne). rewrite Hk in Hid. cbn [sign_overlay_node on_id] in Hid.
      injection Hid as ->. apply Hne. now rewrite oi_key0.
    + eapply flat_option_map_ids; [|exact Hnd]. intros p n Hp. apply (oi_nodes0 p n Hp).
  - eexists _, _. split; [reflexivity|]. cbn [sign_overlay_node on_id on_version]. rewrite oi_key0. split; [reflexivity|].
    split; [reflexivity|]. intros n Hn. destruct (Hflat n Hn) as (p & Hp & He). exists p.
    split; [now apply Hin|]. destruct (oi_nodes0 p n He). auto.
  - intros other n Hid Hn Hne. apply filter_nodes_in. split; [exact Hn|]. split; [|exact Hne].
    rewrite Hid. rewrite List.Forall_forall in Hsig. now apply Hsig.
Qed.

(** What was received since the last time. *)
Lemma received_newest : forall P id key initial m picks ops,
  let o := overlay_run P (overlay_new key id initial m picks) ops in
  let valid := fun n => signed_node P id n /\ on_id n <> PkEd25519 (pub_of P key) in
  (forall k n, fst (take_new_peers o) !! k = Some n -> In n (since_taken ops) /\ valid n /\ k = put_public_key (on_id n))
  /\ (forall n, In n (since_taken ops) -> valid n ->
        exists newest, fst (take_new_peers o) !! put_public_key (on_id n) = Some newest
                       /\ on_version n <= on_version newest).
Proof.
  intros P id key initial m picks ops. cbv zeta. cbn [take_new_peers fst].
  assert (Hgen : forall ops o (l : list ov_node) , ov_id o = id -> ov_key o = key ->
    (forall k n, ov_received o !! k = Some n -> In n l /\ (signed_node P id n /\ on_id n <> PkEd25519 (pub_of P key)) /\ k = put_public_key (on_id n)) ->
    (forall n, In n l -> signed_node P id n /\ on_id n <> PkEd25519 (pub_of P key) ->
        exists newest, ov_received o !! put_public_key (on_id n) = Some newest /\ on_version n <= on_version newest) ->
    let l' := fold_left (fun l op => match op with OvTake => [] | _ => l ++ gossiped op end) ops l in
    let o' := overlay_run P o ops in
    (forall k n, ov_received o' !! k = Some n -> In n l' /\ (signed_node P id n /\ on_id n <> PkEd25519 (pub_of P key)) /\ k = put_public_key (on_id n)) /\
    (forall n, In n l' -> signed_node P id n /\ on_id n <> PkEd25519 (pub_of P key) ->
        exists newest, ov_received o' !! put_public_key (on_id n) = Some newest /\ on_version n <= on_version newest)).
  { clear ops. induction ops as [|op r IH]; intros o l Hid Hkey H1 H2; cbv zeta; [split; assumption|].
    cbn [overlay_run fold_left]. 
    assert (Hadd : forall adnl addr n fresh, let o1 := snd (fst (add_public_peer P o adnl addr n fresh)) in
              ov_id o1 = ov_id o /\ ov_key o1 = ov_key o /\ ov_received o1 = ov_received o).
    { intros adnl addr n fresh. cbv zeta. pose proof (add_public_peer_spec P o adnl addr n fresh) as Hs.
      destruct (add_public_peer P o adnl addr n fresh) as [[x o'] adnl']. cbn [fst snd].
      now destruct Hs as [(peer & _ & _ & ->)|[_ ->]]. }
    assert (Hmany : forall l adnl o, let o1 := snd (fst (add_public_peers P o adnl l)) in
              ov_id o1 = ov_id o /\ ov_key o1 = ov_key o /\ ov_received o1 = ov_received o).
    { clear. induction l as [|[[addr n] fresh] r IH]; intros adnl o; cbv zeta; [auto|]. rewrite add_many_step.
      pose proof (add_public_peer_spec P o adnl addr n fresh) as Hs.
      destruct (add_public_peer P o adnl addr n fresh) as [[x o'] adnl'].
      assert (He : ov_id o' = ov_id o /\ ov_key o' = ov_key o /\ ov_received o' = ov_received o)
        by now destruct Hs as [(peer & _ & _ & ->)|[_ ->]].
      destruct x; [|exact He]. destruct (IH adnl' o') as (? & ? & ?), He as (? & ? & ?). split; [congruence|split; congruence]. }
    destruct op as [adnl addr n fresh|adnl nl|p picks0|amount picks0|nl now0 picks0|]; cbn [gossiped].
    - rewrite app_nil_r. cbn [overlay_step]. destruct (Hadd adnl addr n fresh) as (Ea & Eb & Ec).
      apply IH; [congruence|congruence|now rewrite Ec|now rewrite Ec].
    - rewrite app_nil_r. cbn [overlay_step]. destruct (Hmany nl adnl o) as (Ea & Eb & Ec).
      apply IH; [congruence|congruence|now rewrite Ec|now rewrite Ec].
    - rewrite app_nil_r. cbn [overlay_step].
      assert (He : ov_id (snd (remove_public_peer o p picks0)) = ov_id o /\ ov_key (snd (remove_public_peer o p picks0)) = ov_key o
                   /\ ov_received (snd (remove_public_peer o p picks0)) = ov_received o).
      { unfold remove_public_peer. destruct (existsb _ _); [auto|]. cbn [snd]. now destruct (ps_contains _ _). }
      destruct He as (Ea & Eb & Ec). apply IH; [congruence|congruence|now rewrite Ec|now rewrite Ec].
    - rewrite app_nil_r. apply IH; assumption.
    - apply IH; cbn [overlay_step process_get_random_peers snd ov_id ov_key ov_received]; [assumption|assumption| |].
      + intros k n Hn. apply fold_keep_lookup in Hn as [[Hn Hk]|Hn].
        * apply filter_nodes_in in Hn as (Hin & Hs & Hne). rewrite Hid in Hs. rewrite Hkey in Hne.
          split; [apply in_or_app; now right|auto].
        * destruct (H1 k n Hn) as (Ha & Hb & Hc). split; [apply in_or_app; now left|auto].
      + intros n Hn Hv. apply in_app_or in Hn as [Hn|Hn].
        * destruct (H2 n Hn Hv) as (x & Hx & Hle). destruct (fold_keep_grows (filter_nodes P o nl) _ _ _ Hx) as (y & Hy & Hle2).
          exists y. split; [exact Hy|lia].
        * apply fold_keep_has. apply filter_nodes_in. rewrite Hid, Hkey. tauto.
    - apply IH; cbn [overlay_step take_new_peers snd ov_id ov_key ov_received]; [assumption|assumption| |].
      + intros k n Hn. now rewrite lookup_empty in Hn.
      + intros n []. }
  apply Hgen.
  - apply (oi_id _ _ _ _ _ _ _ (inv_new P id key initial m picks)).
  - apply (oi_key _ _ _ _ _ _ _ (inv_new P id key initial m picks)).
  - intros k n Hn. exfalso. assert (He : ov_received (overlay_new key id initial m picks) = ∅) by now destruct initial.
    rewrite He, lookup_empty in Hn. discriminate.
  - intros n [].
Qed.

(** The new peers of an answer. *)
Lemma new_peers_of_answer : forall P o existing answer p,
  In p (new_random_peers P o existing answer)
  <-> existing p = false
      /\ exists n key, In n answer /\ signed_node P (ov_id o) n /\ on_id n = PkEd25519 key
         /\ key <> pub_of P (ov_key o) /\ p = node_id P key.
Proof.
  intros P o existing answer p. unfold new_random_peers. rewrite in_flat_map. split.
  - intros (n & Hn & Hp). apply filter_nodes_in in Hn as (Hin & Hs & Hne).
    destruct (signed_full_id _ _ _ Hs) as (key & Hk & Hf). rewrite Hf in Hp.
    destruct (existing (short_id P key)) eqn:He; [destruct Hp|]. destruct Hp as [<-|[]]. split; [exact He|].
    exists n, key. split; [exact Hin|]. split; [exact Hs|]. split; [exact Hk|]. split; [|reflexivity].
    intros ->. contradiction.
  - intros (He & n & key & Hin & Hs & Hk & Hne & ->). exists n. split.
    + apply filter_nodes_in. split; [exact Hin|]. split; [exact Hs|]. rewrite Hk. now intros [= ->].
    + destruct (signed_full_id _ _ _ Hs) as (key' & Hk' & ->). rewrite Hk in Hk'. injection Hk' as <-.
      change (node_id P key) with (short_id P key) in He. rewrite He. now left.
Qed.
