(** Peers found by their addresses. *)
From stdpp Require Import gmap.
From Coq Require Import NArith Lia.
From Verif.Base Require Import Bytes Res.
From Verif.Model Require Import Peer AdnlNode PeerAddresses.
Open Scope N_scope.

Lemma sockaddr_eqb_spec : forall a b, sockaddr_eqb a b = true <-> a = b.
Proof.
  intros [i p] [j q]. unfold sockaddr_eqb. cbn. split.
  - intros H. apply andb_prop in H. destruct H as [H1 H2]. apply N.eqb_eq in H1. apply N.eqb_eq in H2. now subst.
  - intros [= -> ->]. now rewrite !N.eqb_refl.
Qed.
Lemma take_entry_some : forall a entries t rest, take_entry a entries = Some (t, rest) ->
  List.In (a, t) entries /\ (forall x, List.In x rest -> List.In x entries)
  /\ (forall b u, List.In (b, u) entries -> b <> a -> List.In (b, u) rest)
  /\ (List.NoDup (map fst entries) -> List.NoDup (map fst rest) /\ forall u, List.In (a, u) entries -> u = t).
Proof.
  intros a. induction entries as [|[b u] r IH]; intros t rest H; cbn in H; [discriminate|].
  destruct (sockaddr_eqb b a) eqn:E.
  - injection H as -> ->. apply sockaddr_eqb_spec in E. subst b. split; [now left|]. split; [now right|]. split.
    + intros b u [[= -> ->]|Hi] Hn; [congruence|exact Hi].
    + intros Hd. inversion Hd as [|? ? Hni Hd']; subst. split; [exact Hd'|]. intros u [[= ->]|Hi]; [reflexivity|].
      exfalso. apply Hni. apply (List.in_map fst) in Hi. exact Hi.
  - destruct (take_entry a r) as [[t' r']|] eqn:Er; [|discriminate]. injection H as -> <-.
    destruct (IH t r' eq_refl) as (H1 & H2 & H3 & H4). split; [now right|]. split.
    { intros x [<-|Hx]; [now left|right; now apply H2]. } split.
    + intros c v [[= -> ->]|Hi] Hn; [now left|right; now apply H3].
    + intros Hd. inversion Hd as [|? ? Hni Hd']; subst. destruct (H4 Hd') as [H5 H6]. split.
      * cbn. constructor; [|exact H5]. intros Hin. apply Hni. apply List.in_map_iff in Hin. destruct Hin as (x & <- & Hx).
        apply (List.in_map fst). now apply H2.
      * intros v [[= -> ->]|Hi]; [|now apply H6]. assert (sockaddr_eqb a a = true) as Hc by (now apply sockaddr_eqb_spec). congruence.
Qed.
Lemma take_entry_none : forall a entries t, take_entry a entries = None -> ~ List.In (a, t) entries.
Proof.
  intros a. induction entries as [|[b u] r IH]; intros t H; cbn in H; [tauto|].
  destruct (sockaddr_eqb b a) eqn:E; [discriminate|]. destruct (take_entry a r) as [[? ?]|] eqn:Er; [discriminate|].
  intros [[= -> ->]|Hi]; [|exact (IH t eq_refl Hi)].
  assert (sockaddr_eqb a a = true) as Hc by (now apply sockaddr_eqb_spec). congruence.
Qed.
Lemma put_result_keys : forall t id l k, List.In k (map fst (put_result t id l)) <-> k = t \/ List.In k (map fst l).
Proof.
  intros t id l k. unfold put_result. cbn. split.
  - intros [H|H]; [now left|]. right. apply List.in_map_iff in H. destruct H as (x & <- & Hx).
    apply List.filter_In in Hx. apply List.in_map. apply Hx.
  - intros [H|H]; [now left|]. destruct (Nat.eqb k t) eqn:E; [left; apply Nat.eqb_eq in E; congruence|]. right.
    apply List.in_map_iff in H. destruct H as (x & <- & Hx). apply List.in_map. apply List.filter_In. now rewrite E.
Qed.
Lemma put_result_nodup : forall t id l, List.NoDup (map fst l) -> List.NoDup (map fst (put_result t id l)).
Proof.
  intros t id l H. unfold put_result. cbn. constructor.
  - intros Hi. apply List.in_map_iff in Hi. destruct Hi as (x & Hx & Hf). apply List.filter_In in Hf. destruct Hf as [_ Hf].
    rewrite Hx, Nat.eqb_refl in Hf. discriminate.
  - induction l as [|x l IH]; cbn; [constructor|]. inversion H as [|? ? Hni Hd]; subst. destruct (negb _); [|now apply IH].
    cbn. constructor; [|now apply IH]. intros Hi. apply Hni. apply List.in_map_iff in Hi. destruct Hi as (y & <- & Hy).
    apply List.in_map. apply List.filter_In in Hy. apply Hy.
Qed.
Section Match.
Context (ps : gmap bytes peer).
Lemma match_sound : forall order entries result t id,
  List.In (t, id) (match_entries ps order entries result) ->
  List.In (t, id) result \/ exists p, ps !! id = Some p /\ List.In (peer_addr p, t) entries /\ List.In id order.
Proof.
  induction order as [|i order IH]; intros entries result t id H; cbn [match_entries] in H; [now left|].
  assert (Hsame : List.In (t, id) (match_entries ps order entries result) ->
    List.In (t, id) result \/ exists p, ps !! id = Some p /\ List.In (peer_addr p, t) entries /\ List.In id (i :: order)).
  { intros H'. destruct (IH _ _ _ _ H') as [H1|(p & H1 & H2 & H3)]; [now left|right; exists p; split; [exact H1|split; [exact H2|now right]]]. }
  destruct (ps !! i) as [p|] eqn:Ep; [|now apply Hsame].
  destruct (take_entry _ _) as [[t' rest]|] eqn:Et; [|now apply Hsame].
  destruct (take_entry_some _ _ _ _ Et) as (H1 & H2 & _).
  destruct (IH _ _ _ _ H) as [H3|(q & H3 & H4 & H5)].
  - destruct H3 as [[= <- <-]|H3]; [right; exists p; repeat split; [exact Ep|exact H1|now left]|].
    left. apply List.filter_In in H3. apply H3.
  - right. exists q. repeat split; [exact H3|now apply H2|now right].
Qed.
Lemma match_keys : forall order entries result t, List.In t (map fst result) -> List.In t (map fst (match_entries ps order entries result)).
Proof.
  induction order as [|i order IH]; intros entries result t H; cbn [match_entries]; [exact H|].
  destruct (ps !! i); [|now apply IH]. destruct (take_entry _ _) as [[? ?]|]; apply IH; [|exact H]. apply put_result_keys. now right.
Qed.
Lemma match_complete : forall order entries result a t id p, List.NoDup (map fst entries) ->
  List.In (a, t) entries -> List.In id order -> ps !! id = Some p -> peer_addr p = a ->
  List.In t (map fst (match_entries ps order entries result)).
Proof.
  induction order as [|i order IH]; intros entries result a t id p Hd He Hi Hp Ha; [destruct Hi|]. cbn [match_entries].
  destruct Hi as [<-|Hi].
  - rewrite Hp, Ha. destruct (take_entry a entries) as [[t' rest]|] eqn:Et.
    + destruct (take_entry_some _ _ _ _ Et) as (_ & _ & _ & H4). destruct (H4 Hd) as [_ H5]. rewrite (H5 t He).
      apply match_keys. apply put_result_keys. now left.
    + destruct (take_entry_none _ _ t Et He).
  - destruct (ps !! i) as [q|]; [|now apply (IH _ _ a t id p)].
    destruct (take_entry _ entries) as [[t' rest]|] eqn:Et; [|now apply (IH _ _ a t id p)].
    destruct (take_entry_some _ _ _ _ Et) as (H1 & H2 & H3 & H4). destruct (H4 Hd) as [H5 H6].
    destruct (sockaddr_eqb a (peer_addr q)) eqn:Eq.
    + apply sockaddr_eqb_spec in Eq. rewrite <- Eq in H6. rewrite (H6 t He). apply match_keys. apply put_result_keys. now left.
    + apply (IH _ _ a t id p); auto. apply H3; [exact He|]. intros E. rewrite E in Eq.
      assert (sockaddr_eqb (peer_addr q) (peer_addr q) = true) as Hc by (now apply sockaddr_eqb_spec). congruence.
Qed.
Lemma match_nodup : forall order entries result, List.NoDup (map fst result) -> List.NoDup (map fst (match_entries ps order entries result)).
Proof.
  induction order as [|i order IH]; intros entries result H; cbn [match_entries]; [exact H|].
  destruct (ps !! i); [|now apply IH]. destruct (take_entry _ _) as [[? ?]|]; apply IH; [|exact H]. now apply put_result_nodup.
Qed.
End Match.

Theorem addresses_matched : forall n local order entries result,
  match_peer_addresses n local order entries = Some result ->
  List.NoDup (map fst result)
  /\ (forall t id, List.In (t, id) result -> exists a, List.In (a, t) entries /\ get_peer_address n local id = Some a)
  /\ (List.NoDup (map fst entries) -> forall a t id, List.In (a, t) entries -> get_peer_address n local id = Some a -> List.In id order ->
      exists id', List.In (t, id') result).
Proof.
  intros n local order entries result H. unfold match_peer_addresses in H. destruct (get_peers n local) as [ps|] eqn:Ep; [|discriminate].
  injection H as <-. unfold get_peers in Ep.
  assert (Hg : forall id, get_peer_address n local id = match ps !! id with Some p => Some (peer_addr p) | None => None end).
  { intros id. unfold get_peer_address, get_peer. rewrite Ep. reflexivity. }
  split; [apply match_nodup; constructor|]. split.
  - intros t id Hin. destruct (match_sound _ _ _ _ _ _ Hin) as [[]|(p & H1 & H2 & _)]. exists (peer_addr p). rewrite Hg, H1. auto.
  - intros Hd a t id He Ha Ho. rewrite Hg in Ha. destruct (ps !! id) as [p|] eqn:Eid; [|discriminate]. injection Ha as Ha.
    pose proof (match_complete ps order entries [] a t id p Hd He Ho Eid Ha) as Hk. apply List.in_map_iff in Hk.
    destruct Hk as ([t' id'] & Ht & Hin). cbn in Ht. subst t'. now exists id'.
Qed.
