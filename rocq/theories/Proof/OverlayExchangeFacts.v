(** Facts about peer exchange between two members of an overlay. *)
From stdpp Require Import gmap.
From Coq Require Import NArith Lia Permutation.
From Coq Require Import ZifyBool ZifyNat ZifyN.
From Verif.Base Require Import Bytes BytesFacts Res.
From Verif.Model Require Import Crypto Tl Scheme ProtoAdnl ProtoOverlay Peer AdnlNode PeersSet DhtStorage OverlayPeers Broadcast OverlayNode OverlayExchange.
From Verif.Model Require Subscribers.
From Verif.Spec Require Import Codec CryptoSpec PeersSetSpec DhtSpec OverlaySpec OverlayExchangeSpec.
From Verif.Proof Require Import ProtoFacts TlFacts PeersSetFacts DhtStorageFacts OverlayPeersFacts OverlayNodeFacts.
From Verif.Proof Require PeersSetLists.
Open Scope N_scope.

(** ** The sample *)
Lemma fifo_adds_fresh : forall c l q, List.NoDup (q ++ l) -> (length (q ++ l) <= c)%nat -> snd (fifo_adds c q l) = q ++ l.
Proof.
  intros c l. induction l as [|p l IH]; intros q Hn Hl; cbn [fifo_adds]; [now rewrite app_nil_r|].
  assert (Hm : member p q = false).
  { apply not_true_iff_false. rewrite PeersSetLists.member_In. intros Hin. apply NoDup_remove_2 in Hn. apply Hn, in_or_app. now left. }
  unfold fifo_add. rewrite Hm.
  assert (Hq : last_n c (q ++ [p]) = q ++ [p]).
  { unfold last_n. rewrite app_length in *. cbn [length] in *. now replace (length q + 1 - c)%nat with 0%nat by lia. }
  rewrite Hq. specialize (IH (q ++ [p])). rewrite <- app_assoc in IH. specialize (IH Hn Hl).
  destruct (fifo_adds c (q ++ [p]) l). exact IH.
Qed.

Lemma extend_inserts : forall l s, ps_extend s l = snd (ps_inserts s l).
Proof.
  induction l as [|p l IH]; intros s; [reflexivity|]. unfold ps_extend in *. cbn [fold_left ps_inserts]. rewrite IH.
  destruct (ps_insert s p) as [b s']. cbn [snd]. now destruct (ps_inserts s' l).
Qed.

Lemma choose_nodup : forall (l : list bytes) picks, List.NoDup l -> List.NoDup picks -> List.NoDup (choose l picks).
Proof.
  intros l picks Hl. induction 1 as [|i picks Hni Hp IH]; cbn [choose flat_map]; [constructor|].
  destruct (nth_error l i) as [x|] eqn:E; [|exact IH]. cbn [app]. constructor; [|exact IH].
  intros Hin. apply in_flat_map in Hin as (j & Hj & Hin). destruct (nth_error l j) as [y|] eqn:Ej; [|destruct Hin].
  destruct Hin as [-> |[]]. assert (i = j).
  { eapply (proj1 (NoDup_nth_error l)); [exact Hl| |congruence]. apply nth_error_Some. congruence. }
  subst. contradiction.
Qed.
Lemma choose_length : forall (l : list bytes) picks, (length (choose l picks) <= length picks)%nat.
Proof.
  intros l. induction picks as [|i picks IH]; cbn [choose flat_map length]; [lia|]. rewrite app_length.
  unfold choose in IH. destruct (nth_error l i); cbn [length]; lia.
Qed.

Lemma sampled : forall s picks, good s -> sample_of (ps_len s) 4 picks ->
  forall p, In p (ps_members (randomly_fill_from (peers_set_new 4) s 4 None picks)) <-> In p (choose (ps_index s) picks).
Proof.
  intros s picks Hg (Hn & Hi & Hlen) p. unfold randomly_fill_from. rewrite extend_inserts.
  assert (Hc : List.NoDup (choose (ps_index s) picks)) by (apply choose_nodup; [exact (good_nodup s Hg)|exact Hn]).
  destruct (good_new 4) as (c & q & Hr).
  assert (Hq : q = []).
  { pose proof (reps_perm _ _ _ Hr) as Hp. apply Permutation_nil in Hp. exact Hp. }
  subst q. pose proof (inserts_reps (choose (ps_index s) picks) _ _ _ Hr) as Hx.
  pose proof (rep_cap _ _ _ Hr) as Hcap. cbn [peers_set_new ps_capacity] in Hcap.
  destruct Hx as (_ & Hx & _). rewrite fifo_adds_fresh in Hx; [|exact Hc|].
  2: { rewrite app_nil_l. pose proof (choose_length (ps_index s) picks). unfold make_capacity in Hcap. lia. }
  pose proof (reps_perm _ _ _ Hx) as Hp. unfold ps_members. split; intros Hin.
  - exact (Permutation_in p Hp Hin).
  - exact (Permutation_in p (Permutation_sym Hp) Hin).
Qed.

Section members.
Context (P : prims) (HP : prims_ok P).

(** What a member is. *)
Record member_inv (id key : bytes) (o : overlay) : Prop :=
  { mi_id : ov_id o = id; mi_key : ov_key o = key; mi_neigh : good (ov_neighbours o);
    mi_nodes : forall p n, ov_nodes o !! p = Some n -> record_of P id (node_id P (pub_of P key)) p n /\ ov_node_ok n;
    mi_received : forall k n, ov_received o !! k = Some n ->
      signed_node P id n /\ on_id n <> PkEd25519 (pub_of P key) /\ k = put_public_key (on_id n) }.

Lemma member_inv_of : forall id key o, member_of P id key o -> member_inv id key o.
Proof.
  intros id key o (initial & m & picks & ops & -> & Hok).
  pose proof (inv_run P id key initial ops [] [] _ (inv_new P id key initial m picks)) as H.
  cbn [app] in H. set (o := overlay_run _ _ ops) in *. clearbody o. split.
  - exact (oi_id _ _ _ _ _ _ _ H).
  - exact (oi_key _ _ _ _ _ _ _ H).
  - exact (oi_neigh_good _ _ _ _ _ _ _ H).
  - intros p n Hn. destruct (oi_nodes _ _ _ _ _ _ _ H p n Hn) as (Hin & Hr). split; [exact Hr|].
    rewrite List.Forall_forall in Hok. now apply Hok.
  - intros k n Hn. destruct (oi_received _ _ _ _ _ _ _ H k n Hn) as (?&?&?&?). auto.
Qed.

Lemma member_key_of : forall id key o, member_of P id key o -> member_key P o = pub_of P key.
Proof. intros id key o H. unfold member_key. now rewrite (mi_key _ _ _ (member_inv_of _ _ _ H)). Qed.
Lemma member_id_of : forall id key o, member_of P id key o -> member_id P o = node_id P (pub_of P key).
Proof. intros id key o H. unfold member_id. now rewrite (member_key_of _ _ _ H). Qed.

Lemma prepared : forall id key o now picks, member_of P id key o -> sample_of (ps_len (ov_neighbours o)) 4 picks ->
  let l := prepare_random_peers P o now picks in
  (forall n, In n l -> told_by P o now picks n)
  /\ In (sign_overlay_node P o now) l
  /\ (forall p n, In p (chosen o picks) -> ov_nodes o !! p = Some n -> In n l).
Proof.
  intros id key o now picks Hm Hs l. pose proof (member_inv_of _ _ _ Hm) as Hi.
  pose proof (sampled _ picks (mi_neigh _ _ _ Hi) Hs) as Hin. unfold l, prepare_random_peers.
  split; [|split].
  - intros n [<-|Hn].
    + left. cbn [sign_overlay_node on_id on_version]. split; [reflexivity|]. split; [reflexivity|]. now apply own_record.
    + right. apply in_flat_map in Hn as (p & Hp & Hn). exists p. split; [now apply Hin|].
      destruct (ov_nodes o !! p); [|destruct Hn]. now destruct Hn as [-> |[]].
  - now left.
  - intros p n Hp Hn. right. apply in_flat_map. exists p. split; [now apply Hin|]. rewrite Hn. now left.
Qed.

Lemma prepared_ok : forall id key o now picks, member_of P id key o -> hash_ok id -> u32_ok now ->
  let l := prepare_random_peers P o now picks in
  vec_ok ov_node_ok l /\ (length l <= 5)%nat /\ Forall (signed_node P id) l /\ List.NoDup (map on_id l).
Proof.
  intros id key o now picks Hm Hid Hnow l. pose proof (member_inv_of _ _ _ Hm) as Hi.
  destruct Hm as (initial & m & picks0 & ops & Ho & Hok).
  pose proof (random_peers_answer P id key initial m picks0 ops now picks HP) as H. cbv zeta in H. rewrite <- Ho in H.
  destruct H as (Hlen & Hsig & Hnd & _). fold l in Hlen, Hsig, Hnd.
  split; [|split; [exact Hlen|split; [exact Hsig|exact Hnd]]].
  split; [|lia]. unfold l, prepare_random_peers. constructor.
  - unfold sign_overlay_node, ov_node_ok. cbn [on_id on_overlay on_version on_signature public_key_ok].
    rewrite (mi_id _ _ _ Hi). split; [apply (pub_len P HP)|]. split; [exact Hid|]. split; [exact Hnow|].
    unfold blob_ok. rewrite (sign_len P HP). reflexivity.
  - apply List.Forall_forall. intros n Hn. apply in_flat_map in Hn as (p & _ & Hn).
    destruct (ov_nodes o !! p) as [n'|] eqn:E; [|destruct Hn]. destruct Hn as [<-|[]]. exact (proj2 (mi_nodes _ _ _ Hi _ _ E)).
Qed.

(** ** Sizes *)
Lemma signed_size : forall id n, hash_ok id -> ov_node_ok n -> signed_node P id n -> length (put_ov_node n) = 140%nat.
Proof.
  intros id n Hid (Hk & Ho & _) (_ & key & He & _ & Hl & _). unfold put_ov_node. rewrite He in *. cbn [public_key_ok] in Hk.
  unfold put_public_key, put_hash. rewrite !app_length. unfold put_u32. rewrite !le_bytes_length.
  unfold hash_ok in *. rewrite Hk, Ho, TlFacts.put_bytes_length, Hl. reflexivity.
Qed.

Lemma nodes_size : forall id l, hash_ok id -> Forall ov_node_ok l -> Forall (signed_node P id) l ->
  length (put_ov_nodes l) = (4 + 140 * length l)%nat.
Proof.
  intros id l Hid Hok Hs. unfold put_ov_nodes, put_vector. rewrite app_length. unfold put_u32 at 1. rewrite le_bytes_length.
  assert (length (flat_map put_ov_node l) = (140 * length l)%nat); [|lia].
  induction l as [|n l IH]; [reflexivity|]. apply List.Forall_cons_iff in Hok as [H1 H2], Hs as [H3 H4].
  cbn [flat_map length]. rewrite app_length, (signed_size id n Hid H1 H3), (IH H2 H4). lia.
Qed.

Lemma query_size : forall id key o now picks, member_of P id key o -> hash_ok id -> u32_ok now ->
  (length (exchange_query P o now picks) <= 744)%nat.
Proof.
  intros id key o now picks Hm Hid Hnow. destruct (prepared_ok id key o now picks Hm Hid Hnow) as (Hv & Hl & Hs & _).
  unfold exchange_query, overlay_query_bytes, put_get_random_peers, put_overlay_query, put_hash.
  rewrite !app_length. unfold put_u32 at 1 2. rewrite !le_bytes_length.
  rewrite (nodes_size id _ Hid (proj1 Hv) Hs). rewrite (mi_id _ _ _ (member_inv_of _ _ _ Hm)). unfold hash_ok in Hid. lia.
Qed.
Lemma answer_size : forall id key o now picks, member_of P id key o -> hash_ok id -> u32_ok now ->
  (length (put_ov_nodes_boxed (prepare_random_peers P o now picks)) <= 708)%nat.
Proof.
  intros id key o now picks Hm Hid Hnow. destruct (prepared_ok id key o now picks Hm Hid Hnow) as (Hv & Hl & Hs & _).
  unfold put_ov_nodes_boxed. rewrite app_length. unfold put_u32 at 1. rewrite le_bytes_length.
  rewrite (nodes_size id _ Hid (proj1 Hv) Hs). lia.
Qed.

(** ** The new peers *)
Lemma new_peers_nodup : forall o existing l, List.NoDup (map on_id l) ->
  (forall n n' key key', In n l -> In n' l -> on_id n = PkEd25519 key -> on_id n' = PkEd25519 key' ->
     node_id P key = node_id P key' -> key = key') ->
  List.NoDup (new_random_peers P o existing l).
Proof.
  intros o existing l Hnd Hinj. unfold new_random_peers.
  assert (Hf : List.NoDup (map on_id (filter_nodes P o l))).
  { unfold filter_nodes. revert Hnd. clear. induction l as [|n l IH]; intros H; [constructor|]. cbn [map] in H.
    apply NoDup_cons_iff in H as [H1 H2]. cbn [List.filter]. destruct (match on_id n with PkEd25519 _ => _ | _ => _ end); [|now apply IH].
    cbn [map]. constructor; [|now apply IH]. intros Hin. apply H1. apply in_map_iff in Hin as (x & Hx & Hin).
    apply filter_In in Hin as [Hin _]. rewrite <- Hx. now apply in_map. }
  assert (Hsub : forall n, In n (filter_nodes P o l) -> In n l).
  { intros n Hn. now apply filter_nodes_in in Hn. }
  assert (Hed : forall n, In n (filter_nodes P o l) -> exists key, on_id n = PkEd25519 key /\ full_id P (on_id n) = Ok key).
  { intros n Hn. apply filter_nodes_in in Hn as (_ & Hs & _). exact (signed_full_id _ _ _ Hs). }
  revert Hf Hsub Hed. generalize (filter_nodes P o l). intros r. induction r as [|n r IH]; intros Hf Hsub Hed; [constructor|].
  cbn [map] in Hf. apply NoDup_cons_iff in Hf as [H1 H2]. cbn [flat_map].
  assert (IH' := IH H2 (fun n Hn => Hsub n (or_intror Hn)) (fun n Hn => Hed n (or_intror Hn))).
  destruct (Hed n (or_introl eq_refl)) as (key & Hk & ->). destruct (existing _); [exact IH'|]. cbn [app]. constructor; [|exact IH'].
  intros Hin. apply in_flat_map in Hin as (n' & Hn' & Hin). destruct (Hed n' (or_intror Hn')) as (key' & Hk' & Hf'). rewrite Hf' in Hin.
  destruct (existing (short_id P key')); [destruct Hin|]. destruct Hin as [He|[]].
  assert (key' = key) as ->.
  { apply (Hinj n' n); [apply Hsub; now right|apply Hsub; now left|exact Hk'|exact Hk|exact He]. }
  apply H1. rewrite Hk, <- Hk'. now apply in_map.
Qed.

Lemma told_distinct : forall id key o now picks n n' k k', member_of P id key o ->
  In n (prepare_random_peers P o now picks) -> In n' (prepare_random_peers P o now picks) ->
  on_id n = PkEd25519 k -> on_id n' = PkEd25519 k' -> node_id P k = node_id P k' -> k = k'.
Proof.
  intros id key o now picks n n' k k' Hm Hn Hn' Hk Hk' He. pose proof (member_inv_of _ _ _ Hm) as Hi.
  assert (Hc : forall n k, In n (prepare_random_peers P o now picks) -> on_id n = PkEd25519 k ->
     k = pub_of P key \/ (node_id P k <> node_id P (pub_of P key) /\ ov_nodes o !! node_id P k = Some n)).
  { clear -Hi. intros n k Hn Hk. unfold prepare_random_peers in Hn. destruct Hn as [<-|Hn].
    - left. cbn [sign_overlay_node on_id] in Hk. injection Hk as <-. now rewrite (mi_key _ _ _ Hi).
    - right. apply in_flat_map in Hn as (p & _ & Hn). destruct (ov_nodes o !! p) as [x|] eqn:E; [|destruct Hn].
      destruct Hn as [-> |[]]. destruct (mi_nodes _ _ _ Hi _ _ E) as ((_ & k0 & Hk0 & -> & Hne) & _).
      rewrite Hk in Hk0. injection Hk0 as ->. split; [exact Hne|exact E]. }
  destruct (Hc n k Hn Hk) as [-> |[Hne E]], (Hc n' k' Hn' Hk') as [-> |[Hne' E']]; try congruence.
Qed.
End members.

(** ** The exchange *)
Lemma exchange_peers : forall P react gb id ka kb oa ib nowa nowb pa pb existing,
  prims_ok P -> hash_ok id -> u32_ok nowa -> u32_ok nowb ->
  member_of P id ka oa -> gr_overlays gb !! id = Some ib -> member_of P id kb (in_peers ib) ->
  sample_of (ps_len (ov_neighbours oa)) 4 pa -> sample_of (ps_len (ov_neighbours (in_peers ib))) 4 pb ->
  let ob := in_peers ib in
  let '(reply, asked, gb') := on_query P react gb id_overlay_query (exchange_query P oa nowa pa) nowb pb in
  exists answer peers ob',
    reply = Subscribers.Consumed (Some answer) /\ asked = []
    /\ exchange_result P oa existing (Some answer) = Ok (Some peers)
    /\ List.NoDup peers
    /\ (forall p, In p peers <-> existing p = false
         /\ ((p = member_id P ob /\ member_key P ob <> member_key P oa)
             \/ (In p (chosen ob pb) /\ exists n key, ov_nodes ob !! p = Some n /\ on_id n = PkEd25519 key /\ key <> member_key P oa)))
    /\ gb' = set_instance gb id (mk_instance ob' (in_options ib) (in_broadcasts ib))
    /\ member_of P id kb ob'
    /\ (forall n, told_by P oa nowa pa n -> on_id n <> PkEd25519 (member_key P ob) ->
         exists newest, fst (take_new_peers ob') !! put_public_key (on_id n) = Some newest
           /\ signed_node P id newest /\ on_id newest = on_id n /\ on_version n <= on_version newest)
    /\ (forall k n, fst (take_new_peers ob') !! k = Some n -> fst (take_new_peers ob) !! k = Some n \/ told_by P oa nowa pa n).
Proof.
  intros P react gb id ka kb oa ib nowa nowb pa pb existing HP Hid Hna Hnb Hma Hgb Hmb Hpa Hpb. cbv zeta.
  set (ob := in_peers ib) in *.
  pose proof (member_inv_of P _ _ _ Hma) as Hia. pose proof (member_inv_of P _ _ _ Hmb) as Hib.
  set (la := prepare_random_peers P oa nowa pa).
  destruct (prepared_ok P HP id ka oa nowa pa Hma Hid Hna) as (Hva & _ & Hsa & _). fold la in Hva, Hsa.
  destruct (prepared P HP id ka oa nowa pa Hma Hpa) as (Ha1 & Ha2 & Ha3). fold la in Ha1, Ha2, Ha3.
  set (ob' := snd (process_get_random_peers P ob la nowb pb)).
  set (lb := prepare_random_peers P ob' nowb pb).
  assert (Hmb' : member_of P id kb ob').
  { destruct Hmb as (initial & m & picks & ops & Ho & Hok). exists initial, m, picks, (ops ++ [OvGetRandomPeers la nowb pb]).
    split.
    - unfold overlay_run. rewrite fold_left_app. cbn [fold_left overlay_step]. unfold overlay_run in Ho. now rewrite <- Ho.
    - rewrite flat_map_app. cbn [flat_map offered app]. now rewrite app_nil_r. }
  assert (Hpb' : sample_of (ps_len (ov_neighbours ob')) 4 pb) by exact Hpb.
  destruct (prepared_ok P HP id kb ob' nowb pb Hmb' Hid Hnb) as (Hvb & _ & Hsb & Hndb). fold lb in Hvb, Hsb, Hndb.
  destruct (prepared P HP id kb ob' nowb pb Hmb' Hpb') as (Hb1 & Hb2 & Hb3). fold lb in Hb1, Hb2, Hb3.
  assert (Hq : get_u32 (put_get_random_peers la) = Some (id_overlay_get_random_peers, put_ov_nodes la)).
  { unfold put_get_random_peers. now rewrite u32_reads by reflexivity. }
  assert (Hr : get_get_random_peers (put_get_random_peers la) = Some (la, [])).
  { pose proof (get_random_peers_reads la [] Hva) as Hr. now rewrite app_nil_r in Hr. }
  assert (Hrun : on_query P react gb id_overlay_query (exchange_query P oa nowa pa) nowb pb
    = (Subscribers.Consumed (Some (put_ov_nodes_boxed lb)), [], set_instance gb id (mk_instance ob' (in_options ib) (in_broadcasts ib)))).
  { unfold exchange_query, overlay_query_bytes. fold la. rewrite (mi_id _ _ _ _ Hia). unfold on_query. rewrite N.eqb_refl. cbn [negb].
    rewrite query_named by exact Hid. rewrite Hq, N.eqb_refl, Hr, Hgb. reflexivity. }
  rewrite Hrun. exists (put_ov_nodes_boxed lb), (new_random_peers P oa existing lb), ob'.
  split; [reflexivity|]. split; [reflexivity|]. split.
  { unfold exchange_result, deserialize. pose proof (ov_nodes_boxed_reads lb [] Hvb) as Hx. rewrite app_nil_r in Hx. now rewrite Hx. }
  assert (Hkb : ov_key ob' = ov_key ob) by reflexivity.
  split.
  { apply new_peers_nodup; [exact Hndb|]. intros n n' k k' Hn Hn'. exact (told_distinct P id kb ob' nowb pb n n' k k' Hmb' Hn Hn'). }
  split.
  { intros p. rewrite new_peers_of_answer. split.
    - intros (He & n & key & Hn & Hs & Hk & Hne & ->). split; [exact He|].
      destruct (Hb1 n Hn) as [(Hk' & _)|(p & Hp & Hnode)].
      + left. rewrite Hk in Hk'. injection Hk' as ->. split; [reflexivity|exact Hne].
      + right. destruct (proj1 (mi_nodes _ _ _ _ (member_inv_of P _ _ _ Hmb') _ _ Hnode)) as (_ & k0 & Hk0 & Hp0 & _).
        rewrite Hk in Hk0. injection Hk0 as <-. subst p. split; [exact Hp|]. exists n, key. auto.
    - intros (He & [(-> & Hne)|(Hp & n & key & Hnode & Hk & Hne)]); (split; [exact He|]).
      + exists (sign_overlay_node P ob' nowb), (member_key P ob). split; [exact Hb2|]. split.
        { rewrite (mi_id _ _ _ _ Hia), <- (mi_id _ _ _ _ (member_inv_of P _ _ _ Hmb')). now apply own_record. }
        split; [reflexivity|]. split; [exact Hne|reflexivity].
      + pose proof (mi_nodes _ _ _ _ Hib _ _ Hnode) as ((Hs & k0 & Hk0 & Hp0 & _) & _).
        rewrite Hk in Hk0. injection Hk0 as <-. exists n, key. split; [exact (Hb3 p n Hp Hnode)|].
        split; [now rewrite (mi_id _ _ _ _ Hia)|]. auto. }
  split; [reflexivity|]. split; [exact Hmb'|]. cbn [take_new_peers fst].
  assert (Hrec : ov_received ob' = fold_left (fun m n => keep_newer m (put_public_key (on_id n)) n) (filter_nodes P ob la) (ov_received ob))
    by reflexivity.
  split.
  - assert (Hla : forall n, In n la -> on_id n <> PkEd25519 (member_key P ob) ->
      exists newest, ov_received ob' !! put_public_key (on_id n) = Some newest
        /\ signed_node P id newest /\ on_id newest = on_id n /\ on_version n <= on_version newest).
    { intros n Hn Hne. rewrite Hrec.
      destruct (fold_keep_has (filter_nodes P ob la) (ov_received ob) n) as (x & Hx & Hle).
      { apply filter_nodes_in. split; [exact Hn|]. split; [|exact Hne]. rewrite (mi_id _ _ _ _ Hib).
        rewrite List.Forall_forall in Hsa. now apply Hsa. }
      exists x. split; [exact Hx|]. rewrite <- Hrec in Hx.
      destruct (mi_received _ _ _ _ (member_inv_of P _ _ _ Hmb') _ _ Hx) as (Hs & _ & Hkx). split; [exact Hs|]. split; [|exact Hle].
      rewrite List.Forall_forall in Hsa. destruct (Hsa n Hn) as (_ & k1 & Hk1 & _), Hs as (_ & k2 & Hk2 & _).
      rewrite Hk1, Hk2 in *. unfold put_public_key in Hkx. apply app_inv_head in Hkx. unfold put_hash in Hkx. now rewrite Hkx. }
    intros n [(Hk & Hv & Hs)|(p & Hp & Hnode)] Hne.
    + destruct (Hla _ Ha2) as (x & Hx & Hsx & Hkx & Hle); [cbn [sign_overlay_node on_id]; unfold member_key in *; congruence|].
      cbn [sign_overlay_node on_id on_version] in Hx, Hkx, Hle. exists x. rewrite Hk, Hv. auto.
    + exact (Hla n (Ha3 p n Hp Hnode) Hne).
  - intros k n Hn. rewrite Hrec in Hn. apply fold_keep_lookup in Hn as [[Hn _]|Hn]; [|now left].
    right. apply Ha1. now apply filter_nodes_in in Hn.
Qed.

(** A position of the list can be in a sample. *)
Lemma sample_with : forall n i, (i < n)%nat -> exists picks, sample_of n 4 picks /\ In i picks.
Proof.
  intros n i Hi. set (rest := seq 0 i ++ seq (S i) (n - S i)).
  assert (Hperm : seq 0 n = seq 0 i ++ i :: seq (S i) (n - S i)).
  { replace n with (i + (1 + (n - S i)))%nat at 1 by lia. rewrite seq_app. f_equal. }
  assert (Hnd : List.NoDup (i :: rest)).
  { pose proof (seq_NoDup n 0) as H. rewrite Hperm in H. pose proof (NoDup_remove _ _ _ H) as [H1 H2]. constructor; assumption. }
  assert (Hlen : length (i :: rest) = n) by (cbn [length]; unfold rest; rewrite app_length, !seq_length; lia).
  exists (firstn 4 (i :: rest)). split; [|now left]. split; [|split].
  - rewrite <- (firstn_skipn 4 (i :: rest)) in Hnd. apply NoDup_ListNoDup in Hnd. apply NoDup_app in Hnd as (Hnd & _). now apply NoDup_ListNoDup.
  - intros j Hj. apply in_firstn in Hj. destruct Hj as [<-|Hj]; [exact Hi|].
    unfold rest in Hj. apply in_app_or in Hj as [Hj|Hj]; apply in_seq in Hj; lia.
  - rewrite firstn_length. lia.
Qed.

Lemma introduced : forall P id kb ob adnl addr fresh k n,
  member_of P id kb ob -> fst (take_new_peers ob) !! k = Some n ->
  exists key, on_id n = PkEd25519 key
  /\ (node_id P key <> member_id P ob -> acceptable adnl (member_id P ob) (node_id P key) addr ->
      let '(r, ob', _) := add_public_peer P (snd (take_new_peers ob)) adnl addr n fresh in
      r = Ok (Some (node_id P key)) /\ is_active_public_peer ob' (node_id P key) = true
      /\ (ov_node_ok n -> member_of P id kb ob')
      /\ (exists kept, ov_nodes ob' !! node_id P key = Some kept /\ record_of P id (member_id P ob) (node_id P key) kept /\ on_version n <= on_version kept)
      /\ (ps_is_full (ov_neighbours ob) = false ->
          exists picks, sample_of (ps_len (ov_neighbours ob')) 4 picks /\ In (node_id P key) (chosen ob' picks))).
Proof.
  intros P id kb ob adnl addr fresh k n Hm Hk. pose proof (member_inv_of P _ _ _ Hm) as Hi.
  destruct (mi_received _ _ _ _ Hi _ _ Hk) as (Hs & _ & _). pose proof Hs as (_ & key & Hkey & _). exists key. split; [exact Hkey|].
  intros Hne Hacc. rewrite (member_id_of P _ _ _ Hm) in Hne, Hacc.
  destruct Hm as (initial & m & picks & ops & Ho & Hok).
  pose proof (added_is_active P id kb initial m picks (ops ++ [OvTake]) adnl addr n fresh) as Ha. cbv zeta in Ha.
  assert (Hrun : overlay_run P (overlay_new kb id initial m picks) (ops ++ [OvTake]) = snd (take_new_peers ob)).
  { unfold overlay_run in *. rewrite fold_left_app. cbn [fold_left overlay_step]. now rewrite <- Ho. }
  rewrite Hrun in Ha. set (o1 := snd (take_new_peers ob)) in *.
  destruct (add_public_peer P o1 adnl addr n fresh) as [[r ob'] adnl'] eqn:E. destruct Ha as (Hiff & Hr).
  assert (Hr0 : r = Ok (Some (node_id P key))).
  { apply Hiff. split; [|exact Hacc]. split; [exact Hs|]. exists key. auto. }
  subst r. destruct Hr as (Hact & Hfull & kept & Hkept & Hle).
  assert (Hob : overlay_run P (overlay_new kb id initial m picks) (ops ++ [OvTake; OvAdd adnl addr n fresh]) = ob').
  { change [OvTake; OvAdd adnl addr n fresh] with ([OvTake] ++ [OvAdd adnl addr n fresh]). rewrite app_assoc.
    unfold overlay_run in *. rewrite fold_left_app, Hrun. cbn [fold_left overlay_step]. now rewrite E. }
  pose proof (inv_run P id kb initial (ops ++ [OvTake; OvAdd adnl addr n fresh]) [] [] _ (inv_new P id kb initial m picks)) as Hinv.
  rewrite Hob in Hinv. cbn [app] in Hinv.
  split; [reflexivity|]. split; [exact Hact|]. split; [|split].
  - intros Hn. exists initial, m, picks, (ops ++ [OvTake; OvAdd adnl addr n fresh]). split; [now symmetry|].
    rewrite flat_map_app. apply Forall_app. split; [exact Hok|]. cbn [flat_map offered app]. now constructor.
  - exists kept. split; [exact Hkept|]. split; [|exact Hle].
    rewrite (member_id_of P id kb ob) by (exists initial, m, picks, ops; auto).
    exact (proj2 (oi_nodes _ _ _ _ _ _ _ Hinv _ _ Hkept)).
  - intros Hf. specialize (Hfull Hf). apply good_contains in Hfull; [|exact (oi_neigh_good _ _ _ _ _ _ _ Hinv)].
    apply In_nth_error in Hfull as (i & Hi2).
    destruct (sample_with (ps_len (ov_neighbours ob')) i) as (ps & Hps & Hin).
    { unfold ps_len. unfold ps_members in Hi2. apply nth_error_Some. congruence. }
    exists ps. split; [exact Hps|]. unfold chosen. apply in_flat_map. exists i. split; [exact Hin|]. rewrite Hi2. now left.
Qed.

(** ** Only news *)
Lemma known_good : forall P id key o, member_of P id key o -> good (ov_known o).
Proof.
  intros P id key o (initial & m & picks & ops & -> & _).
  pose proof (inv_run P id key initial ops [] [] _ (inv_new P id key initial m picks)) as H.
  exact (oi_known_good _ _ _ _ _ _ _ H).
Qed.

Theorem exchange_news : forall P id key o answer, member_of P id key o ->
  (exchange_result P o (known_filter o) answer = Err tt <->
   exists data, answer = Some data /\ deserialize get_ov_nodes_boxed data = None)
  /\ (exchange_result P o (known_filter o) answer = Ok None <-> answer = None)
  /\ (forall peers p, exchange_result P o (known_filter o) answer = Ok (Some peers) -> 
      (In p peers <->
       ~ In p (ps_members (ov_known o))
       /\ exists data nodes n key, answer = Some data /\ deserialize get_ov_nodes_boxed data = Some nodes /\ In n nodes
          /\ signed_node P id n /\ on_id n = PkEd25519 key /\ p = node_id P key /\ key <> member_key P o)).
Proof.
  intros P id key o answer Hm. pose proof (member_inv_of P _ _ _ Hm) as Hi. pose proof (known_good _ _ _ _ Hm) as Hg.
  assert (Hx : forall p, known_filter o p = false <-> ~ In p (ps_members (ov_known o))).
  { intros p. unfold known_filter. pose proof (good_contains (ov_known o) p Hg) as Hc. rewrite <- not_true_iff_false. now rewrite Hc. }
  destruct answer as [data|]; cbn [exchange_result].
  2: { split; [split; [discriminate|intros (? & ? & _); discriminate]|]. split; [tauto|]. discriminate. }
  destruct (deserialize get_ov_nodes_boxed data) as [nodes|] eqn:Ed.
  2: { split; [split; [eauto|reflexivity]|]. split; [split; discriminate|]. discriminate. }
  split; [split; [discriminate|intros (d & Hd & Hn); congruence]|]. split; [split; discriminate|].
  intros peers p H. injection H as <-. unfold new_random_peers. split.
  - intros Hin. apply in_flat_map in Hin as (n & Hn & Hin). apply filter_nodes_in in Hn as (Hn & Hs & Hne).
    destruct (signed_full_id _ _ _ Hs) as (k & Hk & Hf). rewrite Hf in Hin.
    destruct (known_filter o (short_id P k)) eqn:Ek; [destruct Hin|]. destruct Hin as [<-|[]].
    split; [now apply Hx|]. exists data, nodes, n, k. rewrite (mi_id _ _ _ _ Hi) in Hs. repeat (split; [assumption || reflexivity|]).
    intros ->. apply Hne. rewrite Hk. reflexivity.
  - intros (Hk & data' & nodes' & n & k & Hd & Hn & Hin & Hs & Hid & -> & Hne). injection Hd as <-. rewrite Ed in Hn. injection Hn as <-.
    apply in_flat_map. exists n. assert (Hs' : signed_node P (ov_id o) n) by now rewrite (mi_id _ _ _ _ Hi).
    split.
    + apply filter_nodes_in. split; [exact Hin|]. split; [exact Hs'|]. rewrite Hid. intros H. injection H as ->. now apply Hne.
    + destruct (signed_full_id _ _ _ Hs') as (k' & Hk' & Hf). assert (k' = k) by congruence. subst k'. rewrite Hf.
      apply Hx in Hk. unfold node_id in Hk. change (short_id P k) with (sha256 P (put_public_key (PkEd25519 k))).
      destruct (known_filter o _) eqn:E; [|now left]. congruence.
Qed.
