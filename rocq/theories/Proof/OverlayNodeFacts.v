From stdpp Require Import gmap.
From Coq Require Import NArith Lia.
From Verif.Base Require Import Bytes BytesFacts Res.
From Verif.Model Require Import Crypto Tl Scheme ProtoAdnl ProtoOverlay Peer AdnlNode PeersSet DhtStorage Compression Fec OverlayPeers Broadcast OverlayNode OverlayExchange.
From Verif.Model Require Subscribers.
From Verif.Spec Require Import Codec CryptoSpec CompressionSpec FecSpec DhtSpec OverlaySpec BroadcastSpec OverlayNodeSpec.
From Verif.Proof Require Import TlFacts ProtoFacts.
From Verif.Proof Require BroadcastLive.
Open Scope N_scope.

Lemma named_hash : forall l id r, get_hash (skipn 4 l) = Some (id, r) -> named l = id.
Proof. intros l id r H. unfold get_hash, take in H. destruct (Nat.leb _ _); [|discriminate]. now injection H as <- _. Qed.

Section Facts.
Context (P : prims) (z : zstd) (checks : bool) (F : fec) (react : consumers).
Local Notation step := (group_step P z checks F react).
Local Notation run := (group_run P z checks F react).

(** Alike as far as the overlay [id] is concerned. *)
Record alike (id : bytes) (g1 g2 : group) : Prop := mk_alike
  { al_key : gr_key g1 = gr_key g2;
    al_over : gr_overlays g1 !! id = gr_overlays g2 !! id;
    al_sub : gr_subscribers g1 !! id = gr_subscribers g2 !! id }.
Lemma alike_refl : forall id g, alike id g g.
Proof. now split. Qed.
Lemma alike_set : forall id g1 g2 i, alike id g1 g2 -> alike id (set_instance g1 id i) (set_instance g2 id i).
Proof. intros id g1 g2 i []. split; cbn; [assumption| |assumption]. now rewrite !lookup_insert. Qed.
Lemma alike_skip : forall id id' g i, id' <> id -> alike id g (set_instance g id' i).
Proof. intros id id' g i H. split; cbn; [reflexivity| |reflexivity]. now rewrite lookup_insert_ne. Qed.

Lemma add_alike : forall id g1 g2 key peers n o clock picks, alike id g1 g2 ->
  fst (add_overlay g1 key id peers n o clock picks) = fst (add_overlay g2 key id peers n o clock picks)
  /\ alike id (snd (add_overlay g1 key id peers n o clock picks)) (snd (add_overlay g2 key id peers n o clock picks)).
Proof.
  intros id g1 g2 key peers n o clock picks H. unfold add_overlay. rewrite (al_over _ _ _ H).
  destruct (gr_overlays g2 !! id); cbn [fst snd]; split; auto using alike_set.
Qed.
Lemma add_skip : forall id id' g key peers n o clock picks, id' <> id ->
  alike id g (snd (add_overlay g key id' peers n o clock picks)).
Proof.
  intros id id' g key peers n o clock picks H. unfold add_overlay. destruct (gr_overlays g !! id'); cbn [snd]; auto using alike_refl, alike_skip.
Qed.
Lemma message_alike : forall id g1 g2 peer con data picks, alike id g1 g2 -> named data = id ->
  fst (on_message P z checks g1 peer con data picks) = fst (on_message P z checks g2 peer con data picks)
  /\ alike id (snd (on_message P z checks g1 peer con data picks)) (snd (on_message P z checks g2 peer con data picks)).
Proof.
  intros id g1 g2 peer con data picks H Hn. unfold on_message. destruct (negb _); [split; [reflexivity|exact H]|].
  destruct (get_hash (skipn 4 data)) as [[i r]|] eqn:E; [|split; [reflexivity|exact H]].
  assert (i = id) as -> by (rewrite <- Hn; symmetry; exact (named_hash _ _ _ E)).
  destruct (get_broadcast r) as [[b r']|]; [|split; [reflexivity|exact H]]. rewrite (al_over _ _ _ H).
  destruct (gr_overlays g2 !! id) as [i|]; [|split; [reflexivity|exact H]].
  destruct b; try (split; [reflexivity|exact H]).
  - destruct (receive_broadcast _ _ _ _ _ _ _ _ _) as [x s]. cbn [fst snd]. split; [reflexivity|]. now apply alike_set.
  - destruct (receive_fec _ _ _ _ _ _ _ _) as [x s]. cbn [fst snd]. split; [reflexivity|]. now apply alike_set.
Qed.
Lemma message_skip : forall id g peer con data picks, named data <> id ->
  alike id g (snd (on_message P z checks g peer con data picks)).
Proof.
  intros id g peer con data picks Hn. unfold on_message. destruct (negb _); [apply alike_refl|].
  destruct (get_hash (skipn 4 data)) as [[i r]|] eqn:E; [|apply alike_refl].
  pose proof (named_hash _ _ _ E) as Hi. rewrite Hi in Hn.
  destruct (get_broadcast r) as [[b r']|]; [|apply alike_refl].
  destruct (gr_overlays g !! i) as [x|]; [|apply alike_refl].
  destruct b; try apply alike_refl.
  - destruct (receive_broadcast _ _ _ _ _ _ _ _ _) as [y s]. cbn [snd]. now apply alike_skip.
  - destruct (receive_fec _ _ _ _ _ _ _ _) as [y s]. cbn [snd]. now apply alike_skip.
Qed.
Lemma query_alike : forall id g1 g2 con query now picks, alike id g1 g2 -> named query = id ->
  fst (on_query P react g1 con query now picks) = fst (on_query P react g2 con query now picks)
  /\ alike id (snd (on_query P react g1 con query now picks)) (snd (on_query P react g2 con query now picks)).
Proof.
  intros id g1 g2 con query now picks H Hn. unfold on_query. destruct (negb _); [split; [reflexivity|exact H]|].
  destruct (get_hash (skipn 4 query)) as [[i r]|] eqn:E; [|split; [reflexivity|exact H]].
  assert (i = id) as -> by (rewrite <- Hn; symmetry; exact (named_hash _ _ _ E)).
  destruct (get_u32 r) as [[inner r']|]; [|split; [reflexivity|exact H]]. destruct (inner =? _).
  - destruct (get_get_random_peers r) as [[nodes r'']|]; [|split; [reflexivity|exact H]]. rewrite (al_over _ _ _ H).
    destruct (gr_overlays g2 !! id) as [i|]; [|split; [reflexivity|exact H]].
    destruct (process_get_random_peers _ _ _ _ _) as [a o]. cbn [fst snd]. split; [reflexivity|]. now apply alike_set.
  - rewrite (al_sub _ _ _ H). destruct (gr_subscribers g2 !! id); split; try reflexivity; exact H.
Qed.
Lemma query_skip : forall id g con query now picks, named query <> id ->
  alike id g (snd (on_query P react g con query now picks)).
Proof.
  intros id g con query now picks Hn. unfold on_query. destruct (negb _); [apply alike_refl|].
  destruct (get_hash (skipn 4 query)) as [[i r]|] eqn:E; [|apply alike_refl].
  pose proof (named_hash _ _ _ E) as Hi. rewrite Hi in Hn.
  destruct (get_u32 r) as [[inner r']|]; [|apply alike_refl]. destruct (inner =? _).
  - destruct (get_get_random_peers r) as [[nodes r'']|]; [|apply alike_refl].
    destruct (gr_overlays g !! i) as [x|]; [|apply alike_refl].
    destruct (process_get_random_peers _ _ _ _ _) as [a o]. cbn [snd]. now apply alike_skip.
  - destruct (gr_subscribers g !! i); apply alike_refl.
Qed.

Lemma step_alike : forall id g1 g2 op, alike id g1 g2 -> concerns id op = true -> alike id (step g1 op) (step g2 op).
Proof.
  intros id g1 g2 op H Hc. destruct op as [i n o clock|i key peers n o clock picks|i c|peer con data picks|con query now picks|i op|i e];
    cbn [concerns group_step] in *; apply bytes_eqb_eq in Hc.
  - subst i. unfold add_public_overlay. rewrite (al_key _ _ _ H). now apply add_alike.
  - subst i. unfold add_private_overlay. now apply add_alike.
  - subst i. unfold add_overlay_subscriber. rewrite (al_sub _ _ _ H). destruct (gr_subscribers g2 !! id); cbn [snd]; [exact H|].
    destruct H. split; cbn; [assumption|assumption|]. now rewrite !lookup_insert.
  - now apply message_alike.
  - now apply query_alike.
  - subst i. unfold on_instance. rewrite (al_over _ _ _ H). destruct (gr_overlays g2 !! id); auto using alike_set.
  - subst i. destruct (is_reception e); [exact H|]. unfold on_instance. rewrite (al_over _ _ _ H). destruct (gr_overlays g2 !! id); auto using alike_set.
Qed.
Lemma step_skip : forall id g op, concerns id op = false -> alike id g (step g op).
Proof.
  intros id g op Hc. assert (Hne : forall x, bytes_eqb x id = false -> x <> id).
  { intros x Hx ->. rewrite bytes_eqb_refl in Hx. discriminate. }
  destruct op as [i n o clock|i key peers n o clock picks|i c|peer con data picks|con query now picks|i op|i e];
    cbn [concerns group_step] in *; apply Hne in Hc.
  - now apply add_skip.
  - now apply add_skip.
  - unfold add_overlay_subscriber. destruct (gr_subscribers g !! i); cbn [snd]; [apply alike_refl|].
    split; cbn; [reflexivity|reflexivity|]. now rewrite lookup_insert_ne.
  - now apply message_skip.
  - now apply query_skip.
  - unfold on_instance. destruct (gr_overlays g !! i); auto using alike_refl, alike_skip.
  - destruct (is_reception e); [apply alike_refl|]. unfold on_instance. destruct (gr_overlays g !! i); auto using alike_refl, alike_skip.
Qed.
Lemma alike_trans : forall id a b c, alike id a b -> alike id b c -> alike id a c.
Proof. intros id a b c [] []. split; congruence. Qed.
Lemma alike_sym : forall id a b, alike id a b -> alike id b a.
Proof. intros id a b []. split; congruence. Qed.
Lemma run_alike : forall id ops g1 g2, alike id g1 g2 -> alike id (run g1 ops) (run g2 (List.filter (concerns id) ops)).
Proof.
  intros id ops. unfold group_run. induction ops as [|op ops IH]; intros g1 g2 H; [exact H|]. cbn [fold_left List.filter].
  destruct (concerns id op) eqn:E.
  - cbn [fold_left]. apply IH. now apply step_alike.
  - apply IH. eapply alike_trans; [|exact H]. apply alike_sym. now apply step_skip.
Qed.

Lemma isolated : forall g id ops,
  let own := List.filter (concerns id) ops in
  gr_overlays (run g ops) !! id = gr_overlays (run g own) !! id
  /\ gr_subscribers (run g ops) !! id = gr_subscribers (run g own) !! id
  /\ (forall peer con data picks, named data = id ->
      fst (on_message P z checks (run g ops) peer con data picks) = fst (on_message P z checks (run g own) peer con data picks))
  /\ (forall con query now picks, named query = id ->
      fst (on_query P react (run g ops) con query now picks) = fst (on_query P react (run g own) con query now picks)).
Proof.
  intros g id ops own. pose proof (run_alike id ops g g (alike_refl id g)) as H. fold own in H.
  split; [apply H|]. split; [apply H|]. split; intros; [now apply message_alike with (id := id)|now apply query_alike with (id := id)].
Qed.

(** Creation and registration. *)
Definition alike_terms (o1 o2 : overlay) : Prop :=
  ov_id o1 = ov_id o2 /\ ov_key o1 = ov_key o2 /\ ov_max_neighbours o1 = ov_max_neighbours o2.
Lemma add_public_terms : forall o adnl addr n fresh, alike_terms (snd (fst (add_public_peer P o adnl addr n fresh))) o.
Proof.
  intros o adnl addr n fresh. unfold add_public_peer. destruct (negb _); [now repeat split|]. destruct (full_id P (on_id n)); [|now repeat split].
  destruct (AdnlNode.add_peer _ _ _ _ _ _ _) as [[[|]|] ad]; now repeat split.
Qed.
Lemma add_many_terms : forall l o adnl, alike_terms (snd (fst (add_public_peers P o adnl l))) o.
Proof.
  induction l as [|[[addr n] fresh] l IH]; intros o adnl; [now repeat split|]. cbn [add_public_peers].
  pose proof (add_public_terms o adnl addr n fresh) as H1.
  destruct (add_public_peer P o adnl addr n fresh) as [[[new|e] o1] ad1]; cbn [fst snd] in H1; [|exact H1].
  pose proof (IH o1 ad1) as H2. destruct (add_public_peers P o1 ad1 l) as [[[rest|e] o2] ad2]; cbn [fst snd] in *;
    destruct H1 as (? & ? & ?), H2 as (? & ? & ?); repeat split; congruence.
Qed.
Lemma overlay_step_terms : forall o op, alike_terms (overlay_step P o op) o.
Proof.
  intros o op. destruct op as [adnl addr n fresh|adnl l|p picks|amount picks|l now picks|]; cbn [overlay_step].
  - apply add_public_terms.
  - apply add_many_terms.
  - unfold remove_public_peer. destruct (existsb _ _); cbn [snd]; [now repeat split|]. destruct (ps_contains _ _); now repeat split.
  - now repeat split.
  - now repeat split.
  - now repeat split.
Qed.
Lemma overlay_new_terms : forall key id peers n picks,
  ov_id (overlay_new key id peers n picks) = id /\ ov_key (overlay_new key id peers n picks) = key
  /\ ov_max_neighbours (overlay_new key id peers n picks) = n.
Proof. intros key id peers n picks. unfold overlay_new. destruct peers; repeat split. Qed.

Definition fits (id : bytes) (t : option terms) (x : option instance) : Prop :=
  option_map terms_of x = t /\ forall i, x = Some i -> ov_id (in_peers i) = id.
Lemma fits_set : forall id t x i', fits id t x -> x <> None ->
  (forall i, x = Some i -> terms_of i' = terms_of i /\ ov_id (in_peers i') = ov_id (in_peers i)) -> fits id t (Some i').
Proof.
  intros id t x i' [H1 H2] Hx Hi. destruct x as [i|]; [|congruence]. destruct (Hi i eq_refl) as [Ht Ho]. split.
  - rewrite <- H1. cbn. now rewrite Ht.
  - intros i0 [= <-]. rewrite Ho. now apply H2.
Qed.
Definition fallback {A} (a b : option A) : option A := match a with Some _ => a | None => b end.

Lemma run_terms : forall id ops g t, fits id t (gr_overlays g !! id) ->
  fits id (fallback t (created (gr_key g) id ops)) (gr_overlays (run g ops) !! id)
  /\ gr_subscribers (run g ops) !! id = fallback (gr_subscribers g !! id) (registered id ops).
Proof.
  intros id ops. induction ops as [|op ops IH]; intros g t Hf.
  { cbn. unfold fallback. split; [now destruct t|now destruct (gr_subscribers g !! id)]. }
  unfold group_run in *. cbn [fold_left].
  assert (Hkey : gr_key (step g op) = gr_key g).
  { destruct op as [i n o clock|i key peers n o clock picks|i c|peer con data picks|con query now picks|i op|i e]; cbn [group_step].
    - unfold add_public_overlay, add_overlay. now destruct (gr_overlays g !! i).
    - unfold add_private_overlay, add_overlay. now destruct (gr_overlays g !! i).
    - unfold add_overlay_subscriber. now destruct (gr_subscribers g !! i).
    - unfold on_message. destruct (negb _); [reflexivity|]. destruct (get_hash _) as [[i r]|]; [|reflexivity].
      destruct (get_broadcast r) as [[b r']|]; [|reflexivity]. destruct (gr_overlays g !! i); [|reflexivity].
      destruct b; try reflexivity; [destruct (receive_broadcast _ _ _ _ _ _ _ _ _)|destruct (receive_fec _ _ _ _ _ _ _ _)]; reflexivity.
    - unfold on_query. destruct (negb _); [reflexivity|]. destruct (get_hash _) as [[i r]|]; [|reflexivity].
      destruct (get_u32 r) as [[inner r']|]; [|reflexivity]. destruct (inner =? _).
      + destruct (get_get_random_peers r) as [[nodes r'']|]; [|reflexivity]. destruct (gr_overlays g !! i); [|reflexivity].
        now destruct (process_get_random_peers _ _ _ _ _).
      + now destruct (gr_subscribers g !! i).
    - unfold on_instance. now destruct (gr_overlays g !! i).
    - destruct (is_reception e); [reflexivity|]. unfold on_instance. now destruct (gr_overlays g !! i). }
  destruct (concerns id op) eqn:Ec.
  2:{ destruct (step_skip id g op Ec) as [_ Ho Hs]. rewrite <- Hkey, Hs.
      assert (Hc : created (gr_key (step g op)) id (op :: ops) = created (gr_key (step g op)) id ops
                   /\ registered id (op :: ops) = registered id ops).
      { destruct op; cbn [concerns] in Ec; cbn [created registered]; rewrite ?Ec; auto. }
      destruct Hc as [-> ->]. apply IH. now rewrite <- Ho. }
  rewrite <- Hkey.
  destruct op as [i n o clock|i key peers n o clock picks|i c|peer con data picks|con query now picks|i op|i e];
    cbn [concerns] in Ec; cbn [created registered]; rewrite ?Ec; apply bytes_eqb_eq in Ec.
  - subst i. cbn [group_step] in *. unfold add_public_overlay, add_overlay in *.
    destruct (gr_overlays g !! id) as [x|] eqn:Ex; cbn [snd] in *.
    + destruct Hf as [Ht Hi]. subst t. cbn [option_map fallback]. destruct (IH g (Some (terms_of x))) as [IA IB]; [now rewrite Ex|]. split; [exact IA|exact IB].
    + destruct Hf as [Ht Hi]. cbn in Ht. subst t. cbn [fallback].
      destruct (IH (set_instance g id (instance_new (gr_key g) id [] n o clock [])) (Some (mk_terms (gr_key g) n o))) as [IA IB].
      { cbn [gr_overlays set_instance set_overlays]. rewrite lookup_insert. split; [reflexivity|]. now intros i [= <-]. }
      split; [exact IA|exact IB].
  - subst i. cbn [group_step] in *. unfold add_private_overlay, add_overlay in *.
    destruct (gr_overlays g !! id) as [x|] eqn:Ex; cbn [snd] in *.
    + destruct Hf as [Ht Hi]. subst t. cbn [option_map fallback]. destruct (IH g (Some (terms_of x))) as [IA IB]; [now rewrite Ex|]. split; [exact IA|exact IB].
    + destruct Hf as [Ht Hi]. cbn in Ht. subst t. cbn [fallback].
      destruct (IH (set_instance g id (instance_new key id peers n o clock picks)) (Some (mk_terms key n o))) as [IA IB].
      { cbn [gr_overlays set_instance set_overlays]. rewrite lookup_insert. destruct (overlay_new_terms key id peers n picks) as (H1 & H2 & H3). split.
        - unfold terms_of, instance_new. cbn [option_map in_peers in_options]. now rewrite H2, H3.
        - intros i [= <-]. exact H1. }
      split; [exact IA|exact IB].
  - subst i. cbn [group_step] in *. unfold add_overlay_subscriber in *.
    destruct (gr_subscribers g !! id) as [x|] eqn:Ex; cbn [snd] in *.
    + destruct (IH g t Hf) as [IA IB]. split; [exact IA|]. rewrite IB, Ex. reflexivity.
    + destruct (IH (mk_group (gr_key g) (gr_overlays g) (<[id:=c]> (gr_subscribers g))) t Hf) as [IA IB].
      split; [exact IA|]. rewrite IB. cbn [gr_subscribers]. now rewrite lookup_insert.
  - assert (Hsub : gr_subscribers (step g (GoMessage peer con data picks)) = gr_subscribers g).
    { cbn [group_step]. unfold on_message. destruct (negb _); [reflexivity|]. destruct (get_hash _) as [[i r]|]; [|reflexivity].
      destruct (get_broadcast r) as [[b r']|]; [|reflexivity]. destruct (gr_overlays g !! i); [|reflexivity].
      destruct b; try reflexivity; [destruct (receive_broadcast _ _ _ _ _ _ _ _ _)|destruct (receive_fec _ _ _ _ _ _ _ _)]; reflexivity. }
    rewrite <- Hsub. apply IH. cbn [group_step]. unfold on_message. destruct (negb _); [exact Hf|].
    destruct (get_hash _) as [[i r]|] eqn:Eh; [|exact Hf]. destruct (get_broadcast r) as [[b r']|]; [|exact Hf].
    assert (i = id) as -> by (rewrite <- Ec; symmetry; exact (named_hash _ _ _ Eh)).
    destruct (gr_overlays g !! id) as [x|] eqn:Ex; [|cbn; now rewrite Ex].
    destruct b; try (cbn [snd]; now rewrite Ex).
    + destruct (receive_broadcast _ _ _ _ _ _ _ _ _) as [y s]. cbn [snd set_instance set_overlays gr_overlays]. rewrite lookup_insert.
      eapply fits_set; [exact Hf|discriminate|]. intros i [= <-]. split; reflexivity.
    + destruct (receive_fec _ _ _ _ _ _ _ _) as [y s]. cbn [snd set_instance set_overlays gr_overlays]. rewrite lookup_insert.
      eapply fits_set; [exact Hf|discriminate|]. intros i [= <-]. split; reflexivity.
  - assert (Hsub : gr_subscribers (step g (GoQuery con query now picks)) = gr_subscribers g).
    { cbn [group_step]. unfold on_query. destruct (negb _); [reflexivity|]. destruct (get_hash _) as [[i r]|]; [|reflexivity].
      destruct (get_u32 r) as [[inner r']|]; [|reflexivity]. destruct (inner =? _).
      + destruct (get_get_random_peers r) as [[nodes r'']|]; [|reflexivity]. destruct (gr_overlays g !! i); [|reflexivity].
        now destruct (process_get_random_peers _ _ _ _ _).
      + now destruct (gr_subscribers g !! i). }
    rewrite <- Hsub. apply IH. cbn [group_step]. unfold on_query. destruct (negb _); [exact Hf|].
    destruct (get_hash _) as [[i r]|] eqn:Eh; [|exact Hf]. destruct (get_u32 r) as [[inner r']|]; [|exact Hf].
    assert (i = id) as -> by (rewrite <- Ec; symmetry; exact (named_hash _ _ _ Eh)).
    destruct (inner =? _); [|destruct (gr_subscribers g !! id); exact Hf].
    destruct (get_get_random_peers r) as [[nodes r'']|]; [|exact Hf].
    destruct (gr_overlays g !! id) as [x|] eqn:Ex; [|cbn [snd]; now rewrite Ex].
    pose proof (overlay_step_terms (in_peers x) (OvGetRandomPeers nodes now picks)) as (H1 & H2 & H3). cbn [overlay_step] in *.
    destruct (process_get_random_peers _ _ _ _ _) as [a o]. cbn [snd set_instance set_overlays gr_overlays] in *. rewrite lookup_insert.
    eapply fits_set; [exact Hf|discriminate|]. intros i [= <-]. unfold terms_of. cbn [in_peers in_options]. split; congruence.
  - subst i. cbn [group_step] in *. unfold on_instance in *. destruct (gr_overlays g !! id) as [x|] eqn:Ex.
    + refine (IH (set_instance g id (mk_instance _ _ _)) t _). cbn [set_instance set_overlays gr_overlays]. rewrite lookup_insert.
      eapply fits_set; [exact Hf|discriminate|]. intros i [= <-]. unfold terms_of. cbn [in_peers in_options].
      destruct (overlay_step_terms (in_peers x) op) as (H1 & H2 & H3). split; congruence.
    + apply IH. now rewrite Ex.
  - subst i. cbn [group_step] in *. destruct (is_reception e); [exact (IH g t Hf)|]. unfold on_instance in *. destruct (gr_overlays g !! id) as [x|] eqn:Ex.
    + refine (IH (set_instance g id (mk_instance _ _ _)) t _). cbn [set_instance set_overlays gr_overlays]. rewrite lookup_insert.
      eapply fits_set; [exact Hf|discriminate|]. intros i [= <-]. split; reflexivity.
    + apply IH. now rewrite Ex.
Qed.

Lemma first_wins : forall key id ops,
  let g := run (group_new key) ops in
  option_map terms_of (gr_overlays g !! id) = created key id ops
  /\ (forall i, gr_overlays g !! id = Some i -> ov_id (in_peers i) = id)
  /\ gr_subscribers g !! id = registered id ops
  /\ (forall m o clock, fst (add_public_overlay g id m o clock) = true <-> created key id ops = None)
  /\ (forall k peers m o clock picks, fst (add_private_overlay g id k peers m o clock picks) = true <-> created key id ops = None)
  /\ (forall c, fst (add_overlay_subscriber g id c) = true <-> registered id ops = None).
Proof.
  intros key id ops g. destruct (run_terms id ops (group_new key) None) as [[H1 H2] H3].
  { cbn. rewrite lookup_empty. split; [reflexivity|discriminate]. }
  cbn [fallback gr_key group_new] in H1. split; [exact H1|]. split; [exact H2|].
  assert (H4 : gr_subscribers g !! id = registered id ops) by (unfold g; rewrite H3; cbn; rewrite lookup_empty; reflexivity).
  split; [exact H4|]. fold g in H1.
  assert (H5 : forall k peers m o clock picks, fst (add_overlay g k id peers m o clock picks) = true <-> created key id ops = None).
  { intros k peers m o clock picks. rewrite <- H1. unfold add_overlay. destruct (gr_overlays g !! id); cbn; split; congruence. }
  split; [intros; apply H5|]. split; [intros; apply H5|].
  intros c. rewrite <- H4. unfold add_overlay_subscriber. destruct (gr_subscribers g !! id); cbn; split; congruence.
Qed.

(** Each overlay lives as if it were alone. *)
Local Notation lives := (lives P z checks F).
Lemma arrived_more : forall id ops op peer raw b, arrived id ops peer raw b -> arrived id (ops ++ [op]) peer raw b.
Proof. intros id ops op peer raw b (picks & rest & H1 & H2). exists picks, rest. split; [apply in_or_app; now left|exact H2]. Qed.
Lemma lives_more : forall id ops op i, lives id ops i -> lives id (ops ++ [op]) i.
Proof.
  intros id ops op i (peers & picks & clock & pops & evs & H1 & H2 & H3 & H4). exists peers, picks, clock, pops, evs.
  repeat split; auto; intros; apply arrived_more; eauto.
Qed.
Lemma lives_new : forall id ops key peers n o clock picks, lives id ops (instance_new key id peers n o clock picks).
Proof.
  intros id ops key peers n o clock picks. exists peers, picks, clock, [], [].
  destruct (overlay_new_terms key id peers n picks) as (H1 & H2 & H3). unfold instance_new. cbn [in_peers in_broadcasts].
  rewrite H2, H3. repeat split; intros; contradiction.
Qed.
Lemma lives_peers : forall id ops i op, lives id ops i ->
  lives id ops (mk_instance (overlay_step P (in_peers i) op) (in_options i) (in_broadcasts i)).
Proof.
  intros id ops i op (peers & picks & clock & pops & evs & H1 & H2 & H3 & H4). exists peers, picks, clock, (pops ++ [op]), evs.
  cbn [in_peers in_broadcasts]. destruct (overlay_step_terms (in_peers i) op) as (_ & -> & ->). split; [|split; [exact H2|split; assumption]].
  unfold overlay_run in *. rewrite fold_left_app. cbn [fold_left]. now rewrite <- H1.
Qed.
Lemma lives_event : forall id ops i e, lives id ops i ->
  match e with
  | EvBroadcast _ peer raw b => arrived id ops peer raw (BBroadcast b)
  | EvFec _ peer raw b => arrived id ops peer raw (BBroadcastFec b)
  | _ => True
  end ->
  lives id ops (mk_instance (in_peers i) (in_options i) (bc_step (setup_of P z checks F id i) (in_broadcasts i) e)).
Proof.
  intros id ops i e (peers & picks & clock & pops & evs & H1 & H2 & H3 & H4) He. exists peers, picks, clock, pops, (evs ++ [e]).
  cbn [in_peers in_broadcasts]. split; [exact H1|]. split; [|split].
  - unfold bc_run in *. rewrite fold_left_app. cbn [fold_left]. unfold setup_of in *. cbn [in_options]. now rewrite <- H2.
  - intros en peer raw b Hin. apply in_app_or in Hin as [Hin|[->|[]]]; [eauto|exact He].
  - intros en peer raw b Hin. apply in_app_or in Hin as [Hin|[->|[]]]; [eauto|exact He].
Qed.
Lemma rest_of_named : forall data id r, get_hash (skipn 4 data) = Some (id, r) -> r = skipn 36 data.
Proof.
  intros data id r H. unfold get_hash, take in H. destruct (Nat.leb _ _); [|discriminate]. injection H as _ <-.
  destruct data as [|a [|b [|c [|d data]]]]; reflexivity.
Qed.
Lemma lives_step : forall ops g op,
  (forall id i, gr_overlays g !! id = Some i -> lives id ops i) ->
  forall id i, gr_overlays (step g op) !! id = Some i -> lives id (ops ++ [op]) i.
Proof.
  intros ops g op Hg.
  assert (Hm : forall id i, gr_overlays g !! id = Some i -> lives id (ops ++ [op]) i) by (intros; apply lives_more; auto).
  assert (Hs : forall id' x, lives id' (ops ++ [op]) x ->
            forall id i, gr_overlays (set_instance g id' x) !! id = Some i -> lives id (ops ++ [op]) i).
  { intros id' x Hx id i H. cbn in H. destruct (decide (id' = id)) as [->|Hne].
    - rewrite lookup_insert in H. injection H as <-. exact Hx.
    - rewrite lookup_insert_ne in H by exact Hne. auto. }
  destruct op as [i0 n o clock|i0 key peers n o clock picks|i0 c|peer con data picks|con query now picks|i0 op|i0 e]; cbn [group_step].
  - unfold add_public_overlay, add_overlay. destruct (gr_overlays g !! i0); cbn [snd]; [exact Hm|]. apply Hs, lives_new.
  - unfold add_private_overlay, add_overlay. destruct (gr_overlays g !! i0); cbn [snd]; [exact Hm|]. apply Hs, lives_new.
  - unfold add_overlay_subscriber. destruct (gr_subscribers g !! i0); exact Hm.
  - unfold on_message. destruct (con =? id_overlay_message) eqn:Ec; cbn [negb]; [|exact Hm].
    destruct (get_hash _) as [[i1 r]|] eqn:Eh; [|exact Hm]. destruct (get_broadcast r) as [[b r']|] eqn:Eb; [|exact Hm].
    destruct (gr_overlays g !! i1) as [x|] eqn:Ex; [|exact Hm].
    assert (Har : arrived i1 (ops ++ [GoMessage peer con data picks]) peer data b).
    { apply N.eqb_eq in Ec. subst con. exists picks, r'. split; [apply in_or_app; right; now left|]. split; [exact (named_hash _ _ _ Eh)|].
      rewrite <- (rest_of_named _ _ _ Eh). exact Eb. }
    destruct b; try exact Hm.
    + pose proof (lives_event i1 _ x (EvBroadcast (mk_bc_env (ov_neighbours (in_peers x)) picks) peer data b) (Hm _ _ Ex) Har) as L.
      cbn [bc_step setup_of bs_prims bs_zstd bs_checks bs_options] in L.
      destruct (receive_broadcast _ _ _ _ _ _ _ _ _) as [y s]. cbn [snd] in *. now apply Hs.
    + pose proof (lives_event i1 _ x (EvFec (mk_bc_env (ov_neighbours (in_peers x)) picks) peer data b) (Hm _ _ Ex) Har) as L.
      cbn [bc_step setup_of bs_prims bs_zstd bs_checks bs_options] in L.
      destruct (receive_fec _ _ _ _ _ _ _ _) as [y s]. cbn [snd] in *. now apply Hs.
  - unfold on_query. destruct (negb _); [exact Hm|]. destruct (get_hash _) as [[i1 r]|]; [|exact Hm].
    destruct (get_u32 r) as [[inner r']|]; [|exact Hm]. destruct (inner =? _).
    + destruct (get_get_random_peers r) as [[nodes r'']|]; [|exact Hm]. destruct (gr_overlays g !! i1) as [x|] eqn:Ex; [|exact Hm].
      pose proof (lives_peers i1 _ x (OvGetRandomPeers nodes now picks) (Hm _ _ Ex)) as L. cbn [overlay_step] in L.
      destruct (process_get_random_peers _ _ _ _ _) as [a o]. cbn [snd] in *. now apply Hs.
    + destruct (gr_subscribers g !! i1); exact Hm.
  - unfold on_instance. destruct (gr_overlays g !! i0) as [x|] eqn:Ex; [|exact Hm]. apply Hs, lives_peers. now apply Hm.
  - destruct (is_reception e) eqn:Er; [exact Hm|]. unfold on_instance. destruct (gr_overlays g !! i0) as [x|] eqn:Ex; [|exact Hm].
    apply Hs, lives_event; [now apply Hm|]. destruct e; try exact I; discriminate.
Qed.
Lemma lives_run : forall ops key id i, gr_overlays (run (group_new key) ops) !! id = Some i -> lives id ops i.
Proof.
  intros ops key. induction ops as [|op ops IH] using rev_ind; intros id i.
  - cbn. rewrite lookup_empty. discriminate.
  - unfold group_run. rewrite fold_left_app. cbn [fold_left]. apply lives_step. exact IH.
Qed.

(** Queries. *)
Lemma query_named : forall id q, hash_ok id -> get_hash (skipn 4 (put_overlay_query id ++ q)) = Some (id, q).
Proof.
  intros id q H. unfold put_overlay_query, put_u32. rewrite <- app_assoc. unfold put_hash.
  rewrite skipn_app, skipn_all2 by (rewrite le_bytes_length; lia). rewrite le_bytes_length. cbn [Nat.sub skipn app].
  exact (hash_reads id q H).
Qed.
Lemma message_named : forall id q, hash_ok id -> get_hash (skipn 4 (put_overlay_message id ++ q)) = Some (id, q).
Proof.
  intros id q H. unfold put_overlay_message, put_u32. rewrite <- app_assoc. unfold put_hash.
  rewrite skipn_app, skipn_all2 by (rewrite le_bytes_length; lia). rewrite le_bytes_length. cbn [Nat.sub skipn app].
  exact (hash_reads id q H).
Qed.
Lemma queries : forall g id q inner rest now picks, hash_ok id -> get_u32 q = Some (inner, rest) ->
  let r := on_query P react g id_overlay_query (put_overlay_query id ++ q) now picks in
  (inner <> id_overlay_get_random_peers ->
     snd r = g
     /\ match gr_subscribers g !! id with
        | None => fst r = (Subscribers.Failed NoConsumerFound, [])
        | Some c => fst r = (match react c inner q with
                             | Some (Some a) => Subscribers.Consumed a
                             | Some None => Subscribers.Failed UnsupportedQuery
                             | None => Subscribers.Failed ConsumerError
                             end, [(c, inner, q)])
        end)
  /\ (forall nodes, vec_ok ov_node_ok nodes -> q = put_get_random_peers nodes ->
     match gr_overlays g !! id with
     | None => r = (Subscribers.Failed UnknownOverlay, [], g)
     | Some i => fst r = (Subscribers.Consumed (Some (put_ov_nodes_boxed (fst (process_get_random_peers P (in_peers i) nodes now picks)))), [])
         /\ gr_overlays (snd r) !! id
            = Some (mk_instance (overlay_step P (in_peers i) (OvGetRandomPeers nodes now picks)) (in_options i) (in_broadcasts i))
     end).
Proof.
  intros g id q inner rest now picks Hid Hq r. subst r. split.
  - intros Hne. unfold on_query. rewrite N.eqb_refl. cbn [negb]. rewrite query_named by exact Hid. rewrite Hq.
    apply N.eqb_neq in Hne. rewrite Hne. destruct (gr_subscribers g !! id) as [c|]; cbn [fst snd]; split; try reflexivity.
  - intros nodes Hn ->. unfold on_query. rewrite N.eqb_refl. cbn [negb]. rewrite query_named by exact Hid.
    assert (inner = id_overlay_get_random_peers) as ->.
    { unfold put_get_random_peers in Hq. rewrite u32_reads in Hq by reflexivity. congruence. }
    rewrite Hq, N.eqb_refl. pose proof (get_random_peers_reads nodes [] Hn) as Hr. rewrite app_nil_r in Hr. rewrite Hr.
    destruct (gr_overlays g !! id) as [i|]; [|reflexivity]. cbn [overlay_step].
    destruct (process_get_random_peers _ _ _ _ _) as [a o]. cbn [fst snd]. split; [reflexivity|]. cbn. now rewrite lookup_insert.
Qed.
Lemma others_refused : forall g peer con data now picks picks',
  (con <> id_overlay_message -> on_message P z checks g peer con data picks = (Ok false, g))
  /\ (con <> id_overlay_query -> on_query P react g con data now picks' = (Subscribers.Refused data, [], g)).
Proof.
  intros g peer con data now picks picks'. split; intros H; apply N.eqb_neq in H; [unfold on_message|unfold on_query]; now rewrite H.
Qed.

(** Messages that cannot be handled. *)
Lemma not_handled : forall g peer id b rest picks, hash_ok id -> broadcast_ok b ->
  (gr_overlays g !! id = None ->
     on_message P z checks g peer id_overlay_message (overlay_message id b ++ rest) picks = (Err UnknownOverlay, g))
  /\ (forall i, gr_overlays g !! id = Some i ->
     match b with BBroadcast _ | BBroadcastFec _ => False | _ => True end ->
     on_message P z checks g peer id_overlay_message (overlay_message id b ++ rest) picks
     = (Err UnsupportedOverlayBroadcastMessage, g)).
Proof.
  intros g peer id b rest picks Hid Hb.
  assert (E : get_hash (skipn 4 (overlay_message id b ++ rest)) = Some (id, put_broadcast b ++ rest)).
  { unfold overlay_message. rewrite <- app_assoc. now apply message_named. }
  unfold on_message. rewrite N.eqb_refl. cbn [negb]. rewrite E, (broadcast_reads b rest Hb). split.
  - intros ->. reflexivity.
  - intros i -> H. destruct b; try contradiction; reflexivity.
Qed.

Lemma sent_directly : forall g peer o data now picks, hash_ok (ov_id o) ->
  let m := overlay_message_bytes o data in let q := overlay_query_bytes o data in
  (exists rest, get_u32 m = Some (id_overlay_message, rest)) /\ (exists rest, get_u32 q = Some (id_overlay_query, rest))
  /\ on_message P z checks g peer id_overlay_message m picks
     = match get_broadcast data, gr_overlays g !! ov_id o with
       | None, _ => (Err BadEncoding, g)
       | Some _, None => (Err UnknownOverlay, g)
       | Some (BBroadcast b, _), Some i =>
         let '(x, s) := receive_broadcast P z checks (in_options i) (mk_bc_env (ov_neighbours (in_peers i)) picks) (in_broadcasts i) peer m b in
         (received x, set_instance g (ov_id o) (mk_instance (in_peers i) (in_options i) s))
       | Some (BBroadcastFec b, _), Some i =>
         let '(x, s) := receive_fec P checks (in_options i) (mk_bc_env (ov_neighbours (in_peers i)) picks) (in_broadcasts i) peer m b in
         (received x, set_instance g (ov_id o) (mk_instance (in_peers i) (in_options i) s))
       | Some _, Some _ => (Err UnsupportedOverlayBroadcastMessage, g)
       end
  /\ forall inner rest c, get_u32 data = Some (inner, rest) -> inner <> id_overlay_get_random_peers ->
     gr_subscribers g !! ov_id o = Some c ->
     snd (fst (on_query P react g id_overlay_query q now picks)) = [(c, inner, data)].
Proof.
  intros g peer o data now picks Hid m q. split; [|split; [|split]].
  - unfold m, overlay_message_bytes, put_overlay_message. rewrite <- app_assoc, u32_reads by reflexivity. now eexists.
  - unfold q, overlay_query_bytes, put_overlay_query. rewrite <- app_assoc, u32_reads by reflexivity. now eexists.
  - unfold on_message. rewrite N.eqb_refl. cbn [negb]. unfold m at 1, overlay_message_bytes at 1. rewrite message_named by exact Hid.
    destruct (get_broadcast data) as [[b r]|]; [|reflexivity]. destruct (gr_overlays g !! ov_id o), b; reflexivity.
  - intros inner rest c Hd Hi Hc. destruct (queries g (ov_id o) data inner rest now picks Hid Hd) as [H _].
    specialize (H Hi). rewrite Hc in H. destruct H as [_ H]. unfold q, overlay_query_bytes. rewrite H. reflexivity.
Qed.

(** From one node to another. *)
Lemma receive_done : forall o e s peer raw b,
  snd (receive_broadcast P z checks o e s peer raw b) <> s -> fst (receive_broadcast P z checks o e s peer raw b) = Done.
Proof.
  intros o e s peer raw b. unfold receive_broadcast. destruct (outdated _ _ _ _) as [[|]|]; try (intros H; now contradiction H).
  destruct (full_id P (ob_src b)); [|intros H; now contradiction H]. cbv zeta.
  destruct (decompress z (ob_data b)) as [d|].
  - destruct (verify_full P _ (broadcast_to_sign P d _ _) _); [reflexivity|]. destruct (verify_full _ _ _ _); [reflexivity|intros H; now contradiction H].
  - destruct (verify_full _ _ _ _); [reflexivity|intros H; now contradiction H].
Qed.
Lemma message_arrives : forall ga gb id ia ib secret data targets,
  prims_ok P -> zstd_ok z -> hash_ok id -> bytes_ok data = true -> N.of_nat (length data) < 2 ^ 32 ->
  gr_overlays ga !! id = Some ia -> gr_overlays gb !! id = Some ib ->
  let date := now_sec (in_broadcasts ia) in
  let packed := bo_compress (in_options ia) in
  let cb := setup_of P z checks F id ib in
  let bid := sha256 P (broadcast_claim P 1 [] data date) in
  N.of_nat (length (wire cb packed data)) < 2 ^ 24 ->
  (forall u, decompress z (wire cb packed data) = Some u -> u <> data ->
     ~ signed_by P (pub_of P secret) (broadcast_claim P 1 [] u date) (sign P secret (broadcast_claim P 1 [] data date))) ->
  br_owned (in_broadcasts ia) !! bid = None -> br_owned (in_broadcasts ib) !! bid = None ->
  timely cb (in_broadcasts ib) date ->
  exists ia' m,
    gr_overlays (step ga (GoBroadcasts id (EvSend secret data targets))) !! id = Some ia'
    /\ br_sent (in_broadcasts ia') = br_sent (in_broadcasts ia) ++ [(targets, m)]
    /\ (exists rest, get_u32 m = Some (id_overlay_message, rest))
    /\ forall peer picks,
       let '(r, gb') := on_message P z checks gb peer id_overlay_message m picks in
       r = Ok true
       /\ (exists ib', gr_overlays gb' !! id = Some ib'
           /\ br_delivered (in_broadcasts ib') = br_delivered (in_broadcasts ib) ++ [mk_delivery bid 1 data (node_id P (pub_of P secret))])
       /\ (forall other, other <> id -> gr_overlays gb' !! other = gr_overlays gb !! other).
Proof.
  intros ga gb id ia ib secret data targets HP Hz Hid Hd Hl Ha Hb date packed cb bid Hw Hu Hna Hnb Ht.
  assert (Hclaim : broadcast_to_sign P data date None = broadcast_claim P 1 [] data date) by reflexivity.
  set (b := own_broadcast P z (in_options ia) secret data date).
  exists (mk_instance (in_peers ia) (in_options ia) (bc_step (setup_of P z checks F id ia) (in_broadcasts ia) (EvSend secret data targets))),
    (overlay_message id (BBroadcast b)).
  split; [|split; [|split]].
  - cbn [group_step is_reception]. unfold on_instance. rewrite Ha. cbn. now rewrite lookup_insert.
  - cbn [in_broadcasts bc_step setup_of bs_prims bs_zstd bs_options bs_overlay]. unfold send_broadcast. cbv zeta. fold date.
    unfold create_broadcast, broadcast_id. rewrite Hclaim. fold bid. rewrite Hna. reflexivity.
  - unfold overlay_message, put_overlay_message. rewrite <- !app_assoc. eexists. apply u32_reads. reflexivity.
  - intros peer picks. unfold on_message. rewrite N.eqb_refl. cbn [negb]. unfold overlay_message. rewrite message_named by exact Hid.
    assert (Hok : broadcast_ok (BBroadcast b)).
    { cbn [broadcast_ok]. unfold ov_broadcast_ok, b, own_broadcast. cbn [ob_src ob_certificate ob_flags ob_data ob_date ob_signature].
      split; [exact (pub_len P HP secret)|]. split; [exact I|]. split; [reflexivity|]. split; [exact Hw|]. split.
      - unfold u32_ok, date, now_sec. apply N.mod_lt. discriminate.
      - unfold blob_ok. rewrite (sign_len P HP). reflexivity. }
    pose proof (broadcast_reads (BBroadcast b) [] Hok) as Hr. rewrite app_nil_r in Hr. rewrite Hr. rewrite Hb.
    pose proof (BroadcastLive.honest_ordinary_arrives cb (in_broadcasts ib) secret data packed date
      (mk_bc_env (ov_neighbours (in_peers ib)) picks) peer (put_overlay_message id ++ put_broadcast (BBroadcast b))) as H.
    cbv zeta in H. cbn [bs_prims bs_zstd cb setup_of bs_options] in H. cbn [own_broadcast ob_signature bo_compress] in H.
    rewrite Hclaim in H. specialize (H HP Hz Hd Hl Hu Ht Hnb). destruct H as (H1 & _ & _).
    assert (HD : fst (receive_broadcast P z checks (in_options ib) (mk_bc_env (ov_neighbours (in_peers ib)) picks) (in_broadcasts ib) peer
       (put_overlay_message id ++ put_broadcast (BBroadcast b)) b) = Done).
    { apply receive_done. intros He. change (snd (receive_broadcast P z checks (in_options ib) (mk_bc_env (ov_neighbours (in_peers ib)) picks)
        (in_broadcasts ib) peer (put_overlay_message id ++ put_broadcast (BBroadcast b)) b)
        = in_broadcasts ib) in He. change (br_delivered (snd (receive_broadcast P z checks (in_options ib) (mk_bc_env (ov_neighbours (in_peers ib)) picks)
        (in_broadcasts ib) peer (put_overlay_message id ++ put_broadcast (BBroadcast b)) b))
        = br_delivered (in_broadcasts ib) ++ [mk_delivery bid 1 data (node_id P (pub_of P secret))]) in H1. rewrite He in H1.
      apply (f_equal (@length _)) in H1. rewrite app_length in H1. cbn [length] in H1. lia. }
    change (br_delivered (snd (receive_broadcast P z checks (in_options ib) (mk_bc_env (ov_neighbours (in_peers ib)) picks)
        (in_broadcasts ib) peer (put_overlay_message id ++ put_broadcast (BBroadcast b)) b))
        = br_delivered (in_broadcasts ib) ++ [mk_delivery bid 1 data (node_id P (pub_of P secret))]) in H1.
    destruct (receive_broadcast _ _ _ _ _ _ _ _ _) as [x s]. cbn [fst snd] in *.
    subst x. split; [reflexivity|]. split.
    + eexists. split; [cbn; now rewrite lookup_insert|]. exact H1.
    + intros other Ho. cbn. rewrite lookup_insert_ne; [reflexivity|congruence].
Qed.
End Facts.
