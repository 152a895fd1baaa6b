(** Facts about the DHT node: histories, answers, penalties, lookups. *)
From stdpp Require Import gmap.
From Coq Require Import NArith Permutation Sorted Lia.
From Coq Require Import ZifyBool ZifyNat ZifyN.
From Verif.Base Require Import Bytes BytesFacts Res.
From Verif.Model Require Import Crypto Tl Scheme ProtoAdnl ProtoDht ProtoOverlay Peer AdnlNode PeersSet
  DhtStorage DhtBuckets DhtNode.
From Verif.Spec Require Import Codec CryptoSpec NodeSpec DhtSpec DistanceSpec DhtNodeSpec.
From Verif.Proof Require Import TlFacts ProtoFacts TlBack DhtStorageFacts DhtBucketsFacts PeersSetFacts PeerFacts.
Open Scope N_scope.

(** ** Penalties (C43) *)

Lemma points_one : forall d peer o x,
  d_penalties (after_query d peer o) !! x =
  if bytes_eqb peer x then
    match d_penalties d !! x with
    | Some p => Some (match o with Failed => p + 2 | _ => p - 1 end)
    | None => match o with Failed => Some 0 | _ => None end
    end
  else d_penalties d !! x.
Proof.
  intros d peer o x. unfold after_query, update_points, good_points. cbn [set_penalties d_penalties].
  destruct (bytes_eqb peer x) eqn:E.
  - apply bytes_eqb_eq in E. subst x. destruct o; cbn [outcome_ok]; destruct (d_penalties d !! peer) eqn:Ep; rewrite ?lookup_insert, ?Ep; reflexivity.
  - assert (Hne : peer <> x) by (intros ->; rewrite bytes_eqb_refl in E; discriminate).
    destruct o; cbn [outcome_ok]; destruct (d_penalties d !! peer) eqn:Ep; rewrite ?lookup_insert_ne by exact Hne; reflexivity.
Qed.

Lemma points_history : forall l d peer, Forall (fun o => o <> TimedOut) (outcomes_of peer l) ->
  d_penalties (after_queries d l) !! peer =
  match d_penalties d !! peer with
  | Some p => Some (expected_points p (outcomes_of peer l))
  | None => expected_points 0 <$> after_first_failure (outcomes_of peer l)
  end.
Proof.
  induction l as [|[x o] l IH]; intros d peer H.
  - cbn. now destruct (d_penalties d !! peer).
  - unfold after_queries in *. cbn [fold_left fst snd]. unfold outcomes_of in *. cbn [List.filter fst] in *.
    destruct (bytes_eqb x peer) eqn:E.
    + cbn [map snd] in *. apply List.Forall_cons_iff in H as [H1 H2]. rewrite IH by exact H2. rewrite points_one, E.
      destruct (d_penalties d !! peer) as [p|]; destruct o; try contradiction; reflexivity.
    + rewrite IH by exact H. now rewrite points_one, E.
Qed.

Theorem penalties_partial : forall d l peer, Forall (fun o => o <> TimedOut) (outcomes_of peer l) ->
  let d' := after_queries d l in
  d_penalties d' !! peer =
    match d_penalties d !! peer with
    | Some p => Some (expected_points p (outcomes_of peer l))
    | None => expected_points 0 <$> after_first_failure (outcomes_of peer l)
    end
  /\ is_bad_peer d' peer =
     match d_penalties d' !! peer with
     | Some p => do_bad_peer_threshold (d_opts d) <? p
     | None => false
     end.
Proof.
  intros d l peer H d'. split; [now apply points_history|]. unfold is_bad_peer.
  assert (Ho : d_opts d' = d_opts d).
  { unfold d', after_queries. clear. revert d. induction l as [|x l IH]; intros d; [reflexivity|]. cbn [fold_left]. now rewrite IH. }
  now rewrite Ho.
Qed.

(** The first failure costs nothing. *)
Theorem first_failure_free : forall d peer, d_penalties d !! peer = None ->
  d_penalties (after_queries d [(peer, Failed)]) !! peer = Some 0.
Proof. intros d peer H. unfold after_queries. cbn [fold_left fst snd]. now rewrite points_one, bytes_eqb_refl, H. Qed.
(** Timeouts are rewarded. *)
Theorem timeouts_never_bad : forall d peer n, d_penalties d !! peer = None ->
  is_bad_peer (after_queries d (repeat (peer, TimedOut) n)) peer = false.
Proof.
  intros d peer n H. assert (Hn : d_penalties (after_queries d (repeat (peer, TimedOut) n)) !! peer = None).
  { revert d H. induction n as [|n IH]; intros d H; [exact H|]. unfold after_queries in *. cbn [repeat fold_left fst snd]. apply IH.
    now rewrite points_one, bytes_eqb_refl, H. }
  unfold is_bad_peer. now rewrite Hn.
Qed.
Lemma expected_timeouts : forall l p, Forall (fun o => o = TimedOut) l -> expected_points p l = p + 2 * N.of_nat (length l).
Proof.
  induction l as [|o l IH]; intros p H; [cbn; lia|]. apply List.Forall_cons_iff in H as [-> H]. unfold expected_points in *. cbn [fold_left length].
  rewrite IH by exact H. lia.
Qed.

(** ** Adding peers *)

Lemma add_dht_peer_cases : forall P d now fresh n r d', add_dht_peer P d now fresh n = (r, d') ->
  d_key d' = d_key d /\ d_opts d' = d_opts d /\ d_storage d' = d_storage d
  /\ (d_known d' = d_known d \/ exists id, d_known d' = snd (ps_insert (d_known d) id))
  /\ (d_buckets d' = d_buckets d
      \/ (announced P n /\ node_id_of P n <> dht_local_id P d
          /\ d_buckets d' = buckets_insert (d_buckets d) (node_id_of P n) n)).
Proof.
  intros P d now fresh n r d'. unfold add_dht_peer. destruct (full_id P (dn_id n)) as [key|e] eqn:Ek; [|intros H; injection H as ? ?; subst; auto 9].
  apply full_id_ok in Ek as [Ek Hv].
  destruct (verify_full P key (put_dht_node_boxed (unsigned_node n)) (dn_signature n)) eqn:Ev; cbn [negb]; [|intros H; injection H as ? ?; subst; auto 9].
  destruct (parse_address_list _ _ _) as [addr|e]; [|intros H; injection H as ? ?; subst; auto 9].
  destruct (add_peer (d_adnl d) CtxDht (dht_local_id P d) (short_id P key) addr key fresh) as [[[|]|e] adnl] eqn:Ea;
    try (intros H; injection H as ? ?; subst; cbn; auto 9; fail).
  assert (Hkn : exists id, snd (ps_insert (d_known d) (short_id P key)) = snd (ps_insert (d_known d) id)) by eauto.
  cbn [set_adnl d_known]. destruct (ps_insert (d_known d) (short_id P key)) as [[|] known]; cbn [snd] in Hkn;
    intros H; injection H as ? ?; subst; cbn; [|auto 9].
  split; [reflexivity|]. split; [reflexivity|]. split; [reflexivity|]. split; [now right|]. right.
  assert (Hid : node_id_of P n = short_id P key) by (unfold node_id_of; rewrite Ek; reflexivity). rewrite Hid.
  split; [exists key; split; [exact Ek|now apply verify_full_iff]|]. split; [|reflexivity].
  intros Heq. unfold add_peer in Ea. rewrite Heq, bytes_eqb_refl in Ea. cbn in Ea. discriminate.
Qed.

(** ** Invariant of histories *)

Definition state_from (P : prims) (d0 : dht) (hs : list storage_op) (ns : list dht_node) (d : dht) : Prop :=
  d_key d = d_key d0 /\ d_opts d = d_opts d0
  /\ (exists ops', incl ops' hs /\ d_storage d = fold_left (storage_step P (do_storage (d_opts d0))) ops' (d_storage d0))
  /\ (exists nodes, incl nodes ns /\ Forall (fun n => announced P n /\ node_id_of P n <> dht_local_id P d0) nodes
        /\ d_buckets d = fold_left (fun b n => buckets_insert b (node_id_of P n) n) nodes (d_buckets d0))
  /\ (exists ids, d_known d = ps_extend (d_known d0) ids).

Lemma state_refl : forall P d hs ns, state_from P d hs ns d.
Proof.
  intros P d hs ns. split; [reflexivity|]. split; [reflexivity|]. split; [|split; [|now exists []]].
  - exists []. split; [intros x []|reflexivity].
  - exists []. split; [intros x []|]. split; [constructor|reflexivity].
Qed.
Lemma state_trans : forall P d0 d1 d2 h1 h2 n1 n2 , state_from P d0 h1 n1 d1 -> state_from P d1 h2 n2 d2 ->
  state_from P d0 (h1 ++ h2) (n1 ++ n2) d2.
Proof.
  intros P d0 d1 d2 h1 h2 n1 n2 (A1 & A2 & (o1 & A3 & A4) & (l1 & A5 & A6 & A7) & (k1 & A8)) (B1 & B2 & (o2 & B3 & B4) & (l2 & B5 & B6 & B7) & (k2 & B8)).
  split; [congruence|]. split; [congruence|]. split; [|split; [|exists (k1 ++ k2); unfold ps_extend in *; now rewrite fold_left_app, <- A8]].
  - exists (o1 ++ o2). split; [now apply incl_app; [apply incl_appl|apply incl_appr]|]. rewrite run_app, <- A4, B4. now rewrite A2.
  - exists (l1 ++ l2). split; [now apply incl_app; [apply incl_appl|apply incl_appr]|]. split.
    + apply List.Forall_app. split; [exact A6|]. unfold dht_local_id in *. now rewrite A1 in B6.
    + rewrite fold_left_app, <- A7. exact B7.
Qed.
Lemma state_weaken : forall P d0 d h1 h2 n1 n2, incl h1 h2 -> incl n1 n2 -> state_from P d0 h1 n1 d -> state_from P d0 h2 n2 d.
Proof.
  intros P d0 d h1 h2 n1 n2 Hh Hn (A1 & A2 & (o1 & A3 & A4) & (l1 & A5 & A6 & A7) & A8). split; [exact A1|]. split; [exact A2|]. split; [|split; [|exact A8]].
  - exists o1. split; [eapply incl_tran; eauto|exact A4].
  - exists l1. split; [eapply incl_tran; eauto|]. now split.
Qed.
Lemma state_store : forall P d op, state_from P d [op] [] (set_storage d (storage_step P (do_storage (d_opts d)) (d_storage d) op)).
Proof.
  intros P d op. split; [reflexivity|]. split; [reflexivity|]. split; [|split; [|now exists []]].
  - exists [op]. split; [apply incl_refl|reflexivity].
  - exists []. split; [intros x []|]. split; [constructor|reflexivity].
Qed.
Lemma state_add : forall P d now fresh n, state_from P d [] [n] (snd (add_dht_peer P d now fresh n)).
Proof.
  intros P d now fresh n. destruct (add_dht_peer P d now fresh n) as [r d'] eqn:E. cbn [snd].
  apply add_dht_peer_cases in E as (E1 & E2 & E3 & E5 & E4). split; [exact E1|]. split; [exact E2|].
  split; [|split; [|destruct E5 as [E5|[i E5]]; [now exists []|now exists [i]]]].
  - exists []. split; [intros x []|]. exact E3.
  - destruct E4 as [E4|(E4 & E7 & E6)].
    + exists []. split; [intros x []|]. split; [constructor|exact E4].
    + exists [n]. split; [apply incl_refl|]. split; [now repeat constructor|exact E6].
Qed.

(** What the decoder of queries gives for each constructor. *)
Lemma query_constructor : forall query q rest, get_dht_query query = Some (q, rest) ->
  exists r, get_u32 query = Some (match q with
    | DqPing _ => id_dht_ping | DqFindNode _ _ => id_dht_find_node | DqFindValue _ _ => id_dht_find_value
    | DqGetSignedAddressList => id_dht_get_signed_address_list | DqStore _ => id_dht_store | DqQuery _ => id_dht_query end, r).
Proof.
  intros query q rest H. unfold get_dht_query, bind in H. destruct (get_u32 query) as [[c r]|]; [|discriminate].
  exists r. f_equal. f_equal.
  repeat match type of H with
  | (if ?c =? ?i then _ else _) _ = _ => destruct (N.eqb_spec c i); [subst; unfold bind in H|]
  end;
  repeat match type of H with
  | match ?x with _ => _ end = _ => destruct x as [[? ?]|]; [|discriminate]
  | bind _ _ _ = _ => unfold bind in H
  end; unfold ret, fail in H; try discriminate; injection H as ? ?; subst; reflexivity.
Qed.

Lemma consume_state : forall P e fuel d constructor query,
  (forall c r, get_u32 query = Some (c, r) -> c = constructor) ->
  state_from P d
    (match snd (unwrap fuel query) with Some (DqStore v) => [OpStore (qe_node_order e) (qe_now e) (qe_now2 e) v] | _ => [] end)
    (fst (unwrap fuel query)) (snd (consume_query fuel P e d constructor query)).
Proof.
  intros P e. induction fuel as [|f IH]; intros d constructor query Hc.
  all: cbn [consume_query unwrap]; unfold deserialize.
  all: destruct (get_dht_query query) as [[q rest]|] eqn:Eq;
    [|repeat match goal with |- context [if ?b then _ else _] => destruct b end; apply state_refl].
  all: destruct (query_constructor _ _ _ Eq) as [r Hr]; specialize (Hc _ _ Hr); subst constructor.
  all: destruct q; try (vm_compute (_ =? _); apply state_refl); vm_compute (_ =? _); cbn [fst snd].
  - destruct (process_find_value _ _ _ _ _); apply state_refl.
  - pose proof (state_store P d (OpStore (qe_node_order e) (qe_now e) (qe_now2 e) v)) as H. cbn [storage_step] in H.
    destruct (storage_insert _ _ _ _ _ _ _) as [[b|err] s]; exact H.
  - destruct (get_u32 rest) as [[inner r']|]; [|apply state_refl]. pose proof (state_add P d (qe_now e) (qe_fresh e) node) as H.
    destruct (add_dht_peer _ _ _ _ _) as [[x|err] d']; exact H.
  - destruct (process_find_value _ _ _ _ _); apply state_refl.
  - pose proof (state_store P d (OpStore (qe_node_order e) (qe_now e) (qe_now2 e) v)) as H. cbn [storage_step] in H.
    destruct (storage_insert _ _ _ _ _ _ _) as [[b|err] s]; exact H.
  - destruct (unwrap f rest) as [ns q] eqn:Eu. cbn [fst snd].
    destruct (get_u32 rest) as [[inner r']|] eqn:Er; [|apply state_refl]. pose proof (state_add P d (qe_now e) (qe_fresh e) node) as H.
    destruct (add_dht_peer _ _ _ _ _) as [[x|err] d']; cbn [snd] in *.
    + specialize (IH d' inner rest). rewrite Eu in IH. cbn [fst snd] in IH.
      assert (IH' := IH ltac:(intros c r0 Hc0; congruence)). clear IH.
      assert (Hs : state_from P d ([] ++ match q with Some (DqStore v) => [OpStore (qe_node_order e) (qe_now e) (qe_now2 e) v] | _ => [] end)
                ([node] ++ ns) (snd (consume_query f P e d' inner rest))) by (eapply state_trans; eassumption).
      cbn [app] in Hs. destruct (consume_query f P e d' inner rest) as [[[a|]|err] d'']; exact Hs.
    + eapply state_weaken; [| |exact H]; [intros y []|]. intros y [->|[]]. now left.
Qed.

Lemma receive_state : forall P e d query,
  state_from P d (stores_of (DReceive e query)) (heard_of (DReceive e query)) (snd (dht_receive P e d query)).
Proof.
  intros P e d query. unfold dht_receive. cbn [stores_of heard_of]. destruct (get_u32 query) as [[c r]|] eqn:E; [|apply state_refl].
  unfold try_consume_query. apply consume_state. intros c' r' H. congruence.
Qed.

Lemma add_peers_state : forall P now fresh nodes d,
  state_from P d [] nodes (fold_left (fun d n => snd (add_dht_peer P d now fresh n)) nodes d).
Proof.
  intros P now fresh nodes. induction nodes as [|n nodes IH]; intros d; [apply state_refl|]. cbn [fold_left].
  exact (state_trans P d _ _ [] [] [n] nodes (state_add P d now fresh n) (IH _)).
Qed.

Lemma step_state : forall P d op, state_from P d (stores_of op) (heard_of op) (dht_step P d op).
Proof.
  intros P d op. destruct op as [e query|now fresh n|peer o|now fresh reply|e v|now]; cbn [dht_step].
  - apply receive_state.
  - apply state_add.
  - apply (state_refl P d).
  - unfold parse_value_result. cbn [stores_of heard_of]. destruct (deserialize get_value_result reply) as [[v|nodes]|]; [| |apply state_refl].
    + destruct (kd_rule _); [| |destruct (verify_signed_dht_value P v)]; try apply state_refl; destruct (deserialize get_raw _); apply state_refl.
    + apply add_peers_state.
  - exact (state_store P d (OpStore (qe_node_order e) (qe_now e) (qe_now2 e) v)).
  - exact (state_store P d (OpGc now)).
Qed.
Lemma run_state : forall P ops d, state_from P d (stores ops) (heard ops) (dht_run P d ops).
Proof.
  intros P ops. induction ops as [|op ops IH]; intros d; [apply state_refl|]. unfold dht_run, stores, heard in *. cbn [fold_left flat_map].
  exact (state_trans _ _ _ _ _ _ _ _ (step_state P d op) (IH _)).
Qed.

(** ** Decoded values are well formed *)

Lemma blob_gives : gives get_bytes (fun b => blob_ok b /\ bytes_ok b = true).
Proof.
  intros l a r Hl H. destruct (bytes_gives l a r Hl H) as [H1 H2]. split; [|exact H2]. split; [exact H1|].
  unfold get_bytes in H. destruct l as [|b l]; [discriminate|]. apply bytes_ok_cons in Hl as [Hb Hl].
  destruct (b =? 254).
  - unfold bind in H. destruct (take 3 l) as [[nb r1]|] eqn:Et; [|discriminate].
    destruct (take_gives 3 _ _ _ Hl Et) as [_ Hr1]. unfold get_body in H. cbv zeta in H.
    destruct (_ <? _); [discriminate|]. injection H as <- <-. now apply bytes_ok_firstn.
  - unfold get_body in H. cbv zeta in H. destruct (_ <? _); [discriminate|]. injection H as <- <-. now apply bytes_ok_firstn.
Qed.
Lemma dht_key_gives : gives get_dht_key dht_key_ok.
Proof.
  unfold get_dht_key. eapply bind_gives; [apply hash_gives|]. intros i Hi. eapply bind_gives; [apply bytes_gives|]. intros n Hn.
  eapply bind_gives; [apply u32_gives|]. intros x Hx. apply ret_gives. unfold dht_key_ok. cbn. tauto.
Qed.
Lemma update_rule_gives : gives get_update_rule (fun _ => True).
Proof.
  unfold get_update_rule. eapply bind_gives; [apply u32_gives|]. intros c _.
  repeat (destruct (c =? _); [now apply ret_gives|]). apply fail_gives.
Qed.
Lemma key_description_gives : gives get_key_description key_description_ok.
Proof.
  unfold get_key_description. eapply bind_gives; [apply dht_key_gives|]. intros k Hk. eapply bind_gives; [apply public_key_gives|]. intros i Hi.
  eapply bind_gives; [apply update_rule_gives|]. intros r _. eapply bind_gives; [apply bytes_gives|]. intros s Hs.
  apply ret_gives. unfold key_description_ok. cbn. tauto.
Qed.
Lemma dht_value_gives : gives get_dht_value (fun v => dht_value_ok v /\ bytes_ok (dv_value v) = true).
Proof.
  unfold get_dht_value. eapply bind_gives; [apply key_description_gives|]. intros k Hk. eapply bind_gives; [apply blob_gives|]. intros v [Hv Hv'].
  eapply bind_gives; [apply u32_gives|]. intros t Ht. eapply bind_gives; [apply bytes_gives|]. intros s Hs.
  apply ret_gives. unfold dht_value_ok. cbn. tauto.
Qed.
Lemma address_gives : gives get_address address_ok.
Proof.
  unfold get_address.
  repeat first [eapply bind_gives; [apply u32_gives|]; intros ? ?
               | match goal with |- gives (if ?b then _ else _) _ => destruct b end
               | apply fail_gives | apply ret_gives; unfold address_ok; cbn; tauto].
Qed.
Lemma address_list_gives : gives get_address_list address_list_ok.
Proof.
  unfold get_address_list. eapply bind_gives; [apply u32_gives|]. intros n Hn.
  eapply bind_gives with (wa := fun l => Forall address_ok l).
  { intros l a r Hl H. destruct (many_gives _ _ _ address_gives _ _ _ _ _ Hl H) as [[H1 _] H2]. now split. }
  intros addrs Ha. do 4 (eapply bind_gives; [apply u32_gives|]; intros ? ?). apply ret_gives. unfold address_list_ok. cbn.
  repeat split; try assumption. destruct addrs as [|x l]; [exact I|]. now apply List.Forall_cons_iff in Ha as [Ha _].
Qed.
Lemma dht_node_gives : gives get_dht_node dht_node_ok.
Proof.
  unfold get_dht_node. eapply bind_gives; [apply public_key_gives|]. intros i Hi. eapply bind_gives; [apply address_list_gives|]. intros a Ha.
  eapply bind_gives; [apply u32_gives|]. intros v Hv. eapply bind_gives; [apply bytes_gives|]. intros s Hs.
  apply ret_gives. unfold dht_node_ok. cbn. tauto.
Qed.
Definition decoded_query_ok (q : dht_query) : Prop :=
  dht_query_ok q /\ match q with DqStore v => bytes_ok (dv_value v) = true | _ => True end.
Lemma dht_query_gives : gives get_dht_query decoded_query_ok.
Proof.
  unfold get_dht_query. eapply bind_gives; [apply u32_gives|]. intros c _. unfold decoded_query_ok.
  destruct (c =? _); [eapply bind_gives; [apply u64_gives|]; intros; apply ret_gives; cbn; tauto|].
  destruct (c =? _); [eapply bind_gives; [apply hash_gives|]; intros; eapply bind_gives; [apply u32_gives|]; intros; apply ret_gives; cbn; tauto|].
  destruct (c =? _); [eapply bind_gives; [apply hash_gives|]; intros; eapply bind_gives; [apply u32_gives|]; intros; apply ret_gives; cbn; tauto|].
  destruct (c =? _); [apply ret_gives; cbn; tauto|].
  destruct (c =? _); [eapply bind_gives; [apply dht_value_gives|]; intros v [? ?]; apply ret_gives; cbn; tauto|].
  destruct (c =? _); [eapply bind_gives; [apply dht_node_gives|]; intros; apply ret_gives; cbn; tauto|]. apply fail_gives.
Qed.
Lemma value_result_gives : gives get_value_result value_result_ok.
Proof.
  unfold get_value_result. eapply bind_gives; [apply u32_gives|]. intros c _.
  destruct (c =? _); [|destruct (c =? _); [|apply fail_gives]].
  - eapply bind_gives; [apply u32_gives|]. intros b _. destruct (b =? _); [|apply fail_gives].
    eapply bind_gives; [apply dht_value_gives|]; intros v [? ?]; apply ret_gives; cbn; tauto.
  - eapply bind_gives; [apply vector_gives, dht_node_gives|]. intros l Hl. apply ret_gives. exact Hl.
Qed.

Lemma unwrap_ok : forall fuel query, bytes_ok query = true ->
  Forall dht_node_ok (fst (unwrap fuel query)) /\ match snd (unwrap fuel query) with Some q => decoded_query_ok q | None => True end.
Proof.
  induction fuel as [|f IH]; intros query Hq; cbn [unwrap]; (destruct (get_dht_query query) as [[q rest]|] eqn:E; [|split; [constructor|exact I]]);
    destruct (dht_query_gives _ _ _ Hq E) as [Hok Hr]; destruct q; cbn [fst snd]; try (split; [constructor|exact Hok]).
  - split; [|exact I]. constructor; [exact (proj1 Hok)|constructor].
  - destruct (unwrap f rest) as [ns q] eqn:Eu. specialize (IH rest Hr). rewrite Eu in IH. cbn [fst snd] in *. destruct IH as [I1 I2].
    split; [|exact I2]. constructor; [exact (proj1 Hok)|exact I1].
Qed.
Lemma stores_ok : forall ops, Forall dht_op_ok ops -> Forall op_ok (stores ops).
Proof.
  intros ops H. unfold stores. apply List.Forall_flat_map. eapply List.Forall_impl; [|exact H]. intros op Hop.
  destruct op as [e query|now fresh n|peer o|now fresh reply|e v|now]; cbn [stores_of]; try constructor.
  - destruct Hop as [[E1 E2] Hb]. destruct (unwrap_ok (length query) query Hb) as [_ Hq]. destruct (snd (unwrap _ _)) as [[]|]; try constructor; [|constructor].
    destruct Hq as [Hq1 Hq2]. cbn in Hq1. cbn [op_ok]. split; [exact Hq2|]. split; [exact (proj1 Hq1)|exact E1].
  - exact (proj2 Hop).
  - constructor.
  - constructor.
  - constructor.
Qed.
Lemma heard_ok : forall ops, Forall dht_op_ok ops -> Forall dht_node_ok (heard ops).
Proof.
  intros ops H. unfold heard. apply List.Forall_flat_map. eapply List.Forall_impl; [|exact H]. intros op Hop.
  destruct op as [e query|now fresh n|peer o|now fresh reply|e v|now]; cbn [heard_of]; try constructor.
  - exact (proj1 (unwrap_ok (length query) query (proj2 Hop))).
  - exact Hop.
  - constructor.
  - cbn in Hop. unfold deserialize. destruct (get_value_result reply) as [[r rest]|] eqn:E; [|constructor].
    destruct (value_result_gives _ _ _ Hop E) as [Hr _]. destruct r; [constructor|exact (proj1 Hr)].
Qed.

(** ** Answers *)

(** A node that was started by [dht_new] and lived through [ops]. *)
Section Life.
  Context (P : prims) (HP : prims_ok P) (adnl : node) (key : bytes) (o : dht_options) (ops : list dht_op).
  Context (Hops : Forall dht_op_ok ops).
  Let d := dht_run P (dht_new P adnl key o) ops.
  Let local := short_id P (pub_of P key).

  Lemma id_key_ok : forall n, key_ok (node_id_of P n).
  Proof. intros n. split; [apply (sha_len P HP)|apply (sha_ok P HP)]. Qed.
  Lemma local_key_ok : key_ok local.
  Proof. split; [apply (sha_len P HP)|apply (sha_ok P HP)]. Qed.

  Lemma life_opts : d_opts d = o.
  Proof. destruct (run_state P ops (dht_new P adnl key o)) as (_ & H & _). exact H. Qed.
  Lemma life_storage : exists ops', incl ops' (stores ops) /\ d_storage d = storage_run P (do_storage o) ops'.
  Proof. destruct (run_state P ops (dht_new P adnl key o)) as (_ & _ & H & _). exact H. Qed.
  Lemma life_table : exists nodes, incl nodes (heard ops)
    /\ Forall (fun n => announced P n /\ node_id_of P n <> local) nodes
    /\ d_buckets d = table (node_id_of P) local nodes.
  Proof. destruct (run_state P ops (dht_new P adnl key o)) as (_ & _ & _ & H & _). exact H. Qed.
  Lemma life_table_ok : table_ok (node_id_of P) local (d_buckets d).
  Proof.
    destruct life_table as (nodes & _ & _ & ->). apply table_is_ok; [apply local_key_ok|]. intros n _. apply id_key_ok.
  Qed.
  Theorem life_known : forall n, In n (known_nodes (d_buckets d)) ->
    announced P n /\ node_id_of P n <> local /\ In n (heard ops).
  Proof.
    intros n Hn. destruct life_table as (nodes & H1 & H2 & H3). rewrite H3 in Hn. apply known_inserted in Hn.
    destruct (proj1 (List.Forall_forall _ _) H2 n Hn) as [A B]. auto.
  Qed.
  Lemma life_ids : forall n, In n (known_nodes (d_buckets d)) -> key_ok (node_id_of P n) /\ node_id_of P n <> local.
  Proof. intros n Hn. split; [apply id_key_ok|]. now apply life_known. Qed.

  Lemma life_set : exists ids, d_known d = snd (ps_inserts (with_peers_and_capacity [] (N.to_nat max_dht_peers)) ids).
  Proof.
    destruct (run_state P ops (dht_new P adnl key o)) as (_ & _ & _ & _ & ids & H). exists ids. fold d in H. rewrite H.
    assert (Hnew : with_peers_and_capacity [] (N.to_nat max_dht_peers) = peers_set_new (N.to_nat max_dht_peers)).
    { unfold with_peers_and_capacity. cbn [fill_new]. unfold peers_set_new. cbn [ps_version ps_cache ps_index ps_capacity ps_upper].
      reflexivity. }
    rewrite Hnew. cbn [dht_new d_known]. generalize (peers_set_new (N.to_nat max_dht_peers)). unfold ps_extend. clear.
    induction ids as [|i ids IH]; intros s; [reflexivity|]. cbn [fold_left ps_inserts]. destruct (ps_insert s i) as [b s']. cbn [snd].
    rewrite IH. now destruct (ps_inserts s' ids).
  Qed.
  Lemma life_insert : forall id, ps_contains (snd (ps_insert (d_known d) id)) id = true.
  Proof. intros id. destruct life_set as [ids ->]. now apply PeersSetFacts.insert_reports. Qed.

  Theorem life_value : forall k now v, no_collision P (stores ops) -> storage_get (d_storage d) k now = Some v ->
    now < dv_ttl v /\ authentic P (do_storage o) k v.
  Proof.
    intros k now v Hc Hg. destruct life_storage as (ops' & Hi & Hs). rewrite Hs in Hg. eapply served_authentic; [| |exact Hg].
    - apply List.Forall_forall. intros x Hx. exact (proj1 (List.Forall_forall _ _) (stores_ok ops Hops) x (Hi x Hx)).
    - assert (Hm : forall x, In x (flat_map hashed_by ops') -> In x (flat_map hashed_by (stores ops))).
      { intros x Hx. apply in_flat_map in Hx as (op & H1 & H2). apply in_flat_map. eauto. }
      intros x y Hx Hy. apply Hc; auto.
  Qed.
End Life.

(** ** Nested queries need no fuel *)

Definition shrinks {A} (p : parser A) : Prop := forall l a r, p l = Some (a, r) -> (length r <= length l)%nat.
Lemma bind_shrinks : forall A B (p : parser A) (f : A -> parser B), shrinks p -> (forall a, shrinks (f a)) -> shrinks (bind p f).
Proof.
  intros A B p f Hp Hf l b r. unfold bind. destruct (p l) as [[a r1]|] eqn:E; [|discriminate]. intros H. apply Hp in E. apply Hf in H. lia.
Qed.
Lemma ret_shrinks : forall A (a : A), shrinks (ret a).
Proof. intros A a l x r [= _ <-]. lia. Qed.
Lemma fail_shrinks : forall A, shrinks (@fail A).
Proof. intros A l x r H. discriminate. Qed.
Lemma take_length : forall n l a r, take n l = Some (a, r) -> (length r + n = length l)%nat.
Proof.
  intros n l a r. unfold take. destruct (Nat.leb_spec n (length l)); [|discriminate]. intros [= _ <-]. rewrite skipn_length. lia.
Qed.
Lemma take_shrinks : forall n, shrinks (take n).
Proof. intros n l a r H. apply take_length in H. lia. Qed.
Lemma u32_shrinks : shrinks get_u32.
Proof. apply bind_shrinks; [apply take_shrinks|intros; apply ret_shrinks]. Qed.
Lemma u32_length : forall l a r, get_u32 l = Some (a, r) -> (length r + 4 = length l)%nat.
Proof.
  intros l a r. unfold get_u32, bind. destruct (take 4 l) as [[b r1]|] eqn:E; [|discriminate]. unfold ret. intros [= _ <-].
  now apply take_length in E.
Qed.
Lemma bytes_shrinks : shrinks get_bytes.
Proof.
  intros l a r. unfold get_bytes. destruct l as [|b l]; [discriminate|].
  assert (Hb : forall p n, shrinks (get_body p n)).
  { intros p n l0 a0 r0. unfold get_body. cbv zeta. destruct (_ <? _); [discriminate|]. intros [= _ <-]. rewrite skipn_length. lia. }
  destruct (b =? 254).
  - intros H. assert (Hs : shrinks (let* nb := take 3 in get_body 4 (of_le nb))) by (apply bind_shrinks; [apply take_shrinks|intros; apply Hb]).
    apply Hs in H. cbn [length]. lia.
  - intros H. apply Hb in H. cbn [length]. lia.
Qed.
Lemma many_shrinks : forall A (p : parser A), shrinks p -> forall fuel n, shrinks (get_many fuel p n).
Proof.
  intros A p Hp fuel. induction fuel as [|f IH]; intros n l a r; cbn [get_many]; destruct (n =? 0);
    try (intros [= _ <-]; lia); try discriminate.
  destruct (p l) as [[x r1]|] eqn:E; [|discriminate]. destruct (get_many f p (n - 1) r1) as [[xs r2]|] eqn:E2; [|discriminate].
  intros [= _ <-]. apply Hp in E. apply IH in E2. lia.
Qed.
Ltac shrink := repeat first
  [ apply ret_shrinks | apply fail_shrinks | apply u32_shrinks | apply take_shrinks | apply bytes_shrinks
  | apply bind_shrinks; [|intros] | match goal with |- shrinks (if ?b then _ else _) => destruct b end ].
Lemma dht_node_shrinks : shrinks get_dht_node.
Proof.
  unfold get_dht_node, get_public_key, get_hash, get_address_list. shrink.
  intros l x r H. eapply many_shrinks; [|exact H]. unfold get_address. shrink.
Qed.
Lemma query_rest_shorter : forall query n rest, get_dht_query query = Some (DqQuery n, rest) -> (length rest < length query)%nat.
Proof.
  intros query n rest H. pose proof (query_constructor _ _ _ H) as [r Hr]. unfold get_dht_query, bind in H. rewrite Hr in H.
  change (match get_dht_node r with Some (a, r0) => Some (DqQuery a, r0) | None => None end = Some (DqQuery n, rest)) in H.
  destruct (get_dht_node r) as [[m r2]|] eqn:E; [|discriminate]. injection H as _ <-.
  apply dht_node_shrinks in E. apply u32_length in Hr. lia.
Qed.

Lemma consume_fuel : forall P e f g d constructor query, (length query <= f)%nat -> (length query <= g)%nat ->
  consume_query f P e d constructor query = consume_query g P e d constructor query.
Proof.
  intros P e. induction f as [|f IH]; intros g d constructor query Hf Hg.
  - destruct g as [|g]; [reflexivity|]. destruct query; [|cbn in Hf; lia]. cbn [consume_query]. unfold deserialize.
    cbn [get_dht_query]. reflexivity.
  - destruct g as [|g].
    + destruct query; [|cbn in Hg; lia]. cbn [consume_query]. reflexivity.
    + cbn [consume_query]. repeat (destruct (constructor =? _); [reflexivity || idtac|]); try reflexivity.
      destruct (get_dht_query query) as [[[] rest]|] eqn:E; try reflexivity. apply query_rest_shorter in E.
      destruct (get_u32 rest) as [[inner r]|]; [|reflexivity]. destruct (add_dht_peer _ _ _ _ _) as [[x|err] d']; [|reflexivity].
      rewrite (IH g d' inner rest) by lia. reflexivity.
Qed.

(** ** The answer to each query *)

Lemma receive_ping : forall P e d x r, u64_ok x ->
  dht_receive P e d (put_dht_query (DqPing x) ++ r) = (Ok (Some (put_dht_pong x)), d).
Proof.
  intros P e d x r Hx. pose proof (dht_query_reads (DqPing x) r Hx) as Hq. destruct (query_constructor _ _ _ Hq) as [r' Hc].
  unfold dht_receive, try_consume_query. rewrite Hc. destruct (length _); cbn [consume_query]; vm_compute (_ =? _); unfold deserialize; rewrite Hq; reflexivity.
Qed.
Lemma receive_find_node : forall P e d key k r, hash_ok key -> u32_ok k ->
  dht_receive P e d (put_dht_query (DqFindNode key k) ++ r) =
  (Ok (Some (put_u32 id_dht_nodes ++ put_dht_nodes (find_nodes (qe_bucket_order e) (d_buckets d) key k))), d).
Proof.
  intros P e d key k r Hx Hk. pose proof (dht_query_reads (DqFindNode key k) r (conj Hx Hk)) as Hq. destruct (query_constructor _ _ _ Hq) as [r' Hc].
  unfold dht_receive, try_consume_query. rewrite Hc. destruct (length _); cbn [consume_query]; vm_compute (_ =? _); unfold deserialize; rewrite Hq; reflexivity.
Qed.
Lemma receive_find_value : forall P e d key k r, hash_ok key -> u32_ok k ->
  dht_receive P e d (put_dht_query (DqFindValue key k) ++ r) =
  match process_find_value (qe_bucket_order e) d (qe_now e) key k with
  | Ok v => (Ok (Some (put_value_result v)), d)
  | Err err => (Err err, d)
  end.
Proof.
  intros P e d key k r Hx Hk. pose proof (dht_query_reads (DqFindValue key k) r (conj Hx Hk)) as Hq. destruct (query_constructor _ _ _ Hq) as [r' Hc].
  unfold dht_receive, try_consume_query. rewrite Hc. destruct (length _); cbn [consume_query]; vm_compute (_ =? _); unfold deserialize; rewrite Hq; reflexivity.
Qed.
Lemma receive_store : forall P e d v r, dht_value_ok v ->
  dht_receive P e d (put_dht_query (DqStore v) ++ r) =
  match storage_insert P (do_storage (d_opts d)) (qe_node_order e) (d_storage d) (qe_now e) (qe_now2 e) v with
  | (Ok _, s) => (Ok (Some put_dht_stored), set_storage d s)
  | (Err err, s) => (Err (StoreError err), set_storage d s)
  end.
Proof.
  intros P e d v r Hv. pose proof (dht_query_reads (DqStore v) r Hv) as Hq. destruct (query_constructor _ _ _ Hq) as [r' Hc].
  unfold dht_receive, try_consume_query. rewrite Hc. destruct (length _); cbn [consume_query]; vm_compute (_ =? _); unfold deserialize; rewrite Hq; reflexivity.
Qed.
Lemma receive_address_list : forall P e d r,
  dht_receive P e d (put_dht_query DqGetSignedAddressList ++ r) = (Ok (Some (put_dht_node_boxed (sign_local_node P d (qe_now e)))), d).
Proof.
  intros P e d r. pose proof (dht_query_reads DqGetSignedAddressList r I) as Hq. destruct (query_constructor _ _ _ Hq) as [r' Hc].
  unfold dht_receive, try_consume_query. rewrite Hc. destruct (length _); cbn [consume_query]; vm_compute (_ =? _); reflexivity.
Qed.
(** A query behind an announcement is answered as if the node had been added before it. *)
Theorem receive_prefixed : forall P e d n query, dht_node_ok n ->
  dht_receive P e d (put_dht_query (DqQuery n) ++ query) =
  match get_u32 query with
  | None => (Err BadQuery, d)
  | Some _ =>
    match add_dht_peer P d (qe_now e) (qe_fresh e) n with
    | (Err err, d') => (Err err, d')
    | (Ok _, d') =>
      match dht_receive P e d' query with
      | (Ok None, d'') => (Err UnexpectedQuery, d'')
      | x => x
      end
    end
  end.
Proof.
  intros P e d n query Hn. pose proof (dht_query_reads (DqQuery n) query Hn) as Hq. destruct (query_constructor _ _ _ Hq) as [r' Hc].
  pose proof (query_rest_shorter _ _ _ Hq) as Hlt. unfold dht_receive at 1, try_consume_query. rewrite Hc.
  destruct (length (put_dht_query (DqQuery n) ++ query)) as [|f] eqn:Ef; [lia|].
  cbn [consume_query]; vm_compute (_ =? _). rewrite Hq.
  destruct (get_u32 query) as [[c r]|] eqn:Er; [|reflexivity].
  destruct (add_dht_peer P d (qe_now e) (qe_fresh e) n) as [[x|err] d']; [|reflexivity].
  unfold dht_receive. rewrite Er. unfold try_consume_query. rewrite (consume_fuel P e f (length query)) by lia.
  destruct (consume_query _ _ _ _ _ _) as [[[a|]|err] d'']; reflexivity.
Qed.
(** Other messages are left to other subscribers. *)
Theorem receive_other : forall P e d query c r, get_u32 query = Some (c, r) ->
  ~ In c [id_dht_ping; id_dht_find_node; id_dht_find_value; id_dht_get_signed_address_list; id_dht_store; id_dht_query] ->
  dht_receive P e d query = (Ok None, d).
Proof.
  intros P e d query c r H Hc. unfold dht_receive, try_consume_query. rewrite H. cbn [In] in Hc.
  assert (Hne : forall i, In i [id_dht_ping; id_dht_find_node; id_dht_find_value; id_dht_get_signed_address_list; id_dht_store; id_dht_query] -> (c =? i) = false)
    by (intros i Hi; apply N.eqb_neq; intros ->; tauto).
  destruct (length query); cbn [consume_query]; rewrite !Hne by (cbn [In]; tauto); reflexivity.
Qed.
(** No answer runs out of fuel. *)
Theorem receive_total : forall P e d query, fst (dht_receive P e d query) <> Err OutOfFuel.
Proof.
  intros P e d query. unfold dht_receive. destruct (get_u32 query) as [[c r]|]; [|discriminate]. unfold try_consume_query.
  assert (H : forall f d c query, (length query <= f)%nat -> fst (consume_query f P e d c query) <> Err OutOfFuel).
  { clear. assert (Hadd : forall d n err d', add_dht_peer P d (qe_now e) (qe_fresh e) n = (Err err, d') -> err <> OutOfFuel).
    { intros d n err d'. unfold add_dht_peer. destruct (full_id P (dn_id n)); [|intros [= <- _]; discriminate].
      destruct (negb _); [discriminate|]. destruct (parse_address_list _ _ _); [|intros [= <- _]; discriminate].
      destruct (add_peer _ _ _ _ _ _ _) as [[[|]|err'] adnl]; try discriminate; [|intros [= <- _]; discriminate].
      destruct (ps_insert _ _) as [[|] known]; discriminate. }
    induction f as [|f IH]; intros d c query Hl.
    - destruct query; [|cbn in Hl; lia]. cbn [consume_query]. cbn. repeat (destruct (_ =? _); [discriminate|]). discriminate.
    - cbn [consume_query]. unfold deserialize.
      destruct (c =? _); [destruct (get_dht_query query) as [[[] rest]|]; discriminate|].
      destruct (c =? _); [destruct (get_dht_query query) as [[[] rest]|]; discriminate|].
      destruct (c =? _); [destruct (get_dht_query query) as [[[] rest]|]; try discriminate|].
      { unfold process_find_value. destruct (_ || _); [discriminate|]. destruct (storage_get _ _ _); discriminate. }
      destruct (c =? _); [discriminate|].
      destruct (c =? _); [destruct (get_dht_query query) as [[[] rest]|]; try discriminate; destruct (storage_insert _ _ _ _ _ _ _) as [[|] ?]; discriminate|].
      destruct (c =? _); [|discriminate]. destruct (get_dht_query query) as [[[] rest]|] eqn:E; try discriminate.
      apply query_rest_shorter in E. destruct (get_u32 rest) as [[inner r]|]; [|discriminate].
      destruct (add_dht_peer _ _ _ _ _) as [[x|err] d'] eqn:Ea.
      + specialize (IH d' inner rest ltac:(lia)). destruct (consume_query f P e d' inner rest) as [[[a|]|err] d'']; cbn in *; congruence.
      + apply Hadd in Ea. cbn. congruence. }
  now apply H.
Qed.

(** ** Answers of a node that lived through a history (C41, C42) *)
Section Life2.
  Context (P : prims) (HP : prims_ok P) (adnl : node) (key : bytes) (o : dht_options) (ops : list dht_op).
  Context (Hops : Forall dht_op_ok ops).
  Let d := dht_run P (dht_new P adnl key o) ops.
  Let local := short_id P (pub_of P key).

  Lemma known_ok : forall l, incl l (known_nodes (d_buckets d)) -> Forall dht_node_ok l.
  Proof.
    intros l Hl. apply List.Forall_forall. intros n Hn. apply Hl in Hn.
    destruct (life_known P adnl key o ops n Hn) as (_ & _ & Hh).
    exact (proj1 (List.Forall_forall _ _) (heard_ok ops Hops) n Hh).
  Qed.

  Theorem find_value_answer : forall e k x r, env_ok e -> hash_ok x -> u32_ok k -> no_collision P (stores ops) ->
    let answer := dht_receive P e d (put_dht_query (DqFindValue x k) ++ r) in
    snd answer = d
    /\ (k = 0 \/ do_max_allowed_k o < k -> fst answer = Err InvalidNodeCountLimit)
    /\ (0 < k <= do_max_allowed_k o ->
        exists result, fst answer = Ok (Some (put_value_result result))
        /\ match result with
           | VrFound v => d_storage d !! x = Some v /\ qe_now e < dv_ttl v /\ authentic P (do_storage o) x v
           | VrNotFound nodes =>
               (forall v, d_storage d !! x = Some v -> dv_ttl v <= qe_now e)
               /\ N.of_nat (length nodes) = N.min k (N.of_nat (length (known_nodes (d_buckets d))))
               /\ List.NoDup (map (node_id_of P) nodes)
               /\ Forall dht_node_ok nodes
               /\ Forall (fun n => In n (known_nodes (d_buckets d)) /\ announced P n) nodes
           end).
  Proof.
    intros e k x r [E1 E2] Hx Hk Hc answer. unfold answer. rewrite receive_find_value by assumption. unfold process_find_value.
    assert (Ho : d_opts d = o) by apply life_opts. rewrite Ho.
    destruct ((k =? 0) || (do_max_allowed_k o <? k)) eqn:Eb.
    - split; [reflexivity|]. split; [reflexivity|]. intros Hk'. apply orb_true_iff in Eb. lia.
    - split; [destruct (storage_get _ _ _); reflexivity|]. split; [intros Hk'; apply orb_false_iff in Eb; lia|]. intros Hk'.
      destruct (storage_get (d_storage d) x (qe_now e)) as [v|] eqn:Eg.
      + exists (VrFound v). split; [reflexivity|]. split; [|now apply (life_value P adnl key o ops Hops) with (now := qe_now e)].
        unfold storage_get in Eg. destruct (d_storage d !! x) as [w|] eqn:Ew; [|discriminate]. destruct (qe_now e <? dv_ttl w); [|discriminate]. now injection Eg as ->.
      + exists (VrNotFound (first_nodes (qe_bucket_order e) (d_buckets d) k)). split; [reflexivity|].
        assert (Hin : incl (first_nodes (qe_bucket_order e) (d_buckets d) k) (known_nodes (d_buckets d)))
          by (intros n Hn; eapply first_known; eassumption).
        split; [|split; [|split; [|split]]].
        * intros v Hv. unfold storage_get in Eg. rewrite Hv in Eg. destruct (N.ltb_spec (qe_now e) (dv_ttl v)); [discriminate|assumption].
        * apply first_count; [exact E2|lia].
        * eapply first_once with (local := local); [exact E2|exact [] | now apply life_table_ok|now apply life_ids].
        * now apply known_ok.
        * apply List.Forall_forall. intros n Hn. split; [now apply Hin|]. now apply (life_known P adnl key o ops n), Hin.
  Qed.

  Theorem find_node_answer : forall e k x r, env_ok e -> key_ok x -> u32_ok k ->
    exists nodes, dht_receive P e d (put_dht_query (DqFindNode x k) ++ r) = (Ok (Some (put_u32 id_dht_nodes ++ put_dht_nodes nodes)), d)
    /\ N.of_nat (length nodes) <= N.max 1 k /\ List.NoDup (map (node_id_of P) nodes) /\ Forall dht_node_ok nodes
    /\ Forall (fun n => In n (known_nodes (d_buckets d)) /\ announced P n
                 /\ xor_distance (node_id_of P n) x < xor_distance local x) nodes
    /\ (forall n m, In n (known_nodes (d_buckets d)) -> ~ In n nodes -> In m nodes ->
          xor_distance (node_id_of P n) x < xor_distance (node_id_of P m) x ->
          get_affinity local (node_id_of P n) = get_affinity local (node_id_of P m))
    /\ (N.of_nat (length nodes) < k -> forall n, In n (known_nodes (d_buckets d)) ->
          xor_distance (node_id_of P n) x < xor_distance local x -> In n nodes).
  Proof.
    intros e k x r [E1 E2] Hx Hk. exists (find_nodes (qe_bucket_order e) (d_buckets d) x k).
    assert (Hh : hash_ok x) by apply Hx. assert (Hl : key_ok local) by now apply local_key_ok.
    assert (Ht : table_ok (node_id_of P) local (d_buckets d)) by now apply life_table_ok.
    assert (Hi := life_ids P HP adnl key o ops). fold d local in Hi.
    split; [now apply receive_find_node|]. split; [apply find_size|]. split; [now apply find_once with (local := local)|].
    assert (Hkn : forall n, In n (find_nodes (qe_bucket_order e) (d_buckets d) x k) -> In n (known_nodes (d_buckets d)) /\ xor_distance (node_id_of P n) x < xor_distance local x)
      by (intros n Hn; now apply (find_known (node_id_of P) (qe_bucket_order e) E2 local x (d_buckets d) Hl Hx Ht Hi k n)).
    split; [apply known_ok; intros n Hn; now apply Hkn|]. split; [|split].
    - apply List.Forall_forall. intros n Hn. destruct (Hkn n Hn) as [A B]. split; [exact A|]. split; [|exact B]. now apply (life_known P adnl key o ops n).
    - intros n m Hn Hnn Hm Hd. now apply (find_closest (node_id_of P) (qe_bucket_order e) E2 local x (d_buckets d) Hl Hx Ht Hi k n m).
    - intros Hlen n Hn Hd. now apply (find_all (node_id_of P) (qe_bucket_order e) E2 local x (d_buckets d) Hl Hx Ht Hi k n).
  Qed.
End Life2.

(** ** Lookups (C44) *)

Lemma find_value_reply : forall v r, dht_value_ok v -> deserialize get_value_result (put_value_result (VrFound v) ++ r) = Some (VrFound v).
Proof. intros v r H. unfold deserialize. rewrite (value_result_reads (VrFound v) r H). reflexivity. Qed.

Lemma verify_signed_iff : forall P v, kd_rule (dv_key v) = UrSignature ->
  verify_signed_dht_value P v = Ok tt <-> (dk_id (kd_key (dv_key v)) = sha256 P (put_public_key (kd_id (dv_key v))) /\ signed_value P v).
Proof.
  intros P v Hr. unfold verify_signed_dht_value. rewrite <- (check_signatures_iff P v Hr).
  destruct (bytes_eqb (dk_id _) _) eqn:E; cbn [negb].
  - apply bytes_eqb_eq in E. destruct (check_signatures P v) as [[]|e]; intuition congruence.
  - split; [discriminate|]. intros [H _]. rewrite H, bytes_eqb_refl in E. discriminate.
Qed.

Lemma lookup_in : forall T P (get : parser T) d now fresh key replies desc x,
  In (desc, x) (lookup_values P get d now fresh key replies) ->
  exists reply v, In reply replies /\ deserialize get_value_result reply = Some (VrFound v)
    /\ dv_key v = desc /\ deserialize get (dv_value v) = Some x
    /\ (kd_rule desc = UrSignature -> dk_id (kd_key desc) = sha256 P (put_public_key (kd_id desc)) /\ signed_value P v).
Proof.
  intros T P get d now fresh key replies desc x H. unfold lookup_values in H. apply in_flat_map in H as (reply & Hr & H).
  unfold parse_value_result in H. destruct (deserialize get_value_result reply) as [[v|nodes]|] eqn:E; [|destruct H|destruct H].
  exists reply, v. split; [exact Hr|]. split; [exact E|].
  assert (Hgo : forall u, match u with Ok tt => True | Err _ => False end -> 
    In (desc, x) (match fst (match u with Err e => (Err e, d) | Ok _ => match deserialize get (dv_value v) with Some x => (Ok (Some (dv_key v, x)), d) | None => (Err BadValue, d) end end) with Ok (Some x) => [x] | _ => [] end)
    -> dv_key v = desc /\ deserialize get (dv_value v) = Some x).
  { intros [[]|e] Hu Hin; [|destruct Hu]. destruct (deserialize get (dv_value v)) as [y|]; [|destruct Hin]. cbn in Hin. destruct Hin as [Hin|[]].
    injection Hin as <- <-. now split. }
  destruct (kd_rule (dv_key v)) eqn:Erule.
  - destruct (Hgo (Ok tt) I H) as [H1 H2]. split; [exact H1|]. split; [exact H2|]. intros Hs. congruence.
  - destruct (Hgo (Ok tt) I H) as [H1 H2]. split; [exact H1|]. split; [exact H2|]. intros Hs. congruence.
  - destruct (verify_signed_dht_value P v) as [[]|e] eqn:Ev; [|destruct H].
    destruct (Hgo (Ok tt) I H) as [H1 H2]. split; [exact H1|]. split; [exact H2|]. intros _. subst desc. now apply verify_signed_iff.
Qed.

(** Any description with another rule is accepted, whatever was asked. *)
Lemma unsigned_accepted : forall T P (get : parser T) d now fresh key desc data x ttl r,
  dht_value_ok (mk_dht_value desc data ttl []) -> kd_rule desc <> UrSignature -> deserialize get data = Some x ->
  lookup_values P get d now fresh key [put_value_result (VrFound (mk_dht_value desc data ttl [])) ++ r] = [(desc, x)].
Proof.
  intros T P get d now fresh key desc data x ttl r Hok Hr Hx. unfold lookup_values. cbn [flat_map]. unfold parse_value_result.
  rewrite find_value_reply by exact Hok. cbn [dv_key dv_value]. rewrite Hx. destruct (kd_rule desc); [reflexivity|reflexivity|contradiction].
Qed.
Lemma blob_small : forall b, (length b <= 1000)%nat -> blob_ok b.
Proof. intros b H. unfold blob_ok. lia. Qed.
Lemma address_list_boxed_reads : reads put_address_list_boxed get_address_list_boxed address_list_ok.
Proof.
  intros l r Hl. unfold put_address_list_boxed, get_address_list_boxed. rewrite <- app_assoc. unfold bind.
  rewrite u32_reads by reflexivity. vm_compute (_ =? _). now apply address_list_reads.
Qed.
Lemma put_u32_length : forall v, length (put_u32 v) = 4%nat.
Proof. intros v. apply le_bytes_length. Qed.
Lemma address_list_length : forall l, (length (put_address_list_boxed l) <= 100)%nat.
Proof.
  intros l. unfold put_address_list_boxed, put_address_list. rewrite !app_length, !put_u32_length.
  destruct (al_address l) as [a|]; cbn; [|lia]. unfold put_address. rewrite ?app_length, ?put_u32_length. lia.
Qed.
Lemma address_list_of : forall a v s, addr_ok a -> u32_ok v -> u32_ok s ->
  address_list_ok (mk_address_list (Some (address_of a)) v s 0).
Proof.
  intros a v s [H1 H2] Hv Hs. unfold address_list_ok, address_ok, u32_ok in *. cbn. repeat split; try assumption. eapply N.lt_trans; [exact H2|reflexivity].
Qed.
Lemma parse_own_list : forall a v s now tol, addr_ok a -> s <= now + tol ->
  parse_address_list (mk_address_list (Some (address_of a)) v s 0) now tol = Ok a.
Proof.
  intros a v s now tol Ha Hs. unfold parse_address_list. cbn [al_address al_reinit_date al_expire_at].
  destruct (N.ltb_spec (now + tol) s); [lia|]. change (negb (0 =? 0) && (0 <? now)) with false. cbv iota. now rewrite wire_address.
Qed.

(** A liar gives any address and any key for any peer. *)
Theorem address_forged : forall P d now fresh peer_id addr key, hash_ok peer_id -> addr_ok addr -> hash_ok key -> valid_pub P key = true ->
  exists v, dv_signature v = [] /\ kd_signature (dv_key v) = [] /\ kd_id (dv_key v) = PkEd25519 key
    /\ kd_key (dv_key v) = mk_dht_key peer_id key_address 0
    /\ find_address P d now fresh peer_id [put_value_result (VrFound v)] = Some (addr, key).
Proof.
  intros P d now fresh peer_id addr key Hp Ha Hk Hv.
  set (l := mk_address_list (Some (address_of addr)) 0 0 0). assert (Hl : address_list_ok l) by (now apply address_list_of).
  exists (mk_dht_value (mk_key_description (mk_dht_key peer_id key_address 0) (PkEd25519 key) UrAnybody []) (put_address_list_boxed l) 0 []).
  repeat (split; [reflexivity|]). unfold find_address. rewrite <- (app_nil_r (put_value_result _)).
  rewrite unsigned_accepted with (x := l).
  - cbn [flat_map]. unfold l. rewrite parse_own_list; [|exact Ha|lia]. cbn [kd_id full_id]. rewrite Hv. reflexivity.
  - unfold dht_value_ok, key_description_ok, dht_key_ok, u32_ok. cbn. repeat split; try assumption; try reflexivity.
  - discriminate.
  - unfold deserialize. rewrite <- (app_nil_r (put_address_list_boxed l)). now rewrite address_list_boxed_reads.
Qed.

(** ** Publishing (C61) *)

Section Publish.
  Context (P : prims) (HP : prims_ok P).

  Lemma sign_entry_signed : forall secret id name idx data ttl, signed_value P (sign_entry P secret id name idx data ttl).
  Proof.
    intros secret id name idx data ttl. split; [reflexivity|]. exists (pub_of P secret). split; [reflexivity|].
    split; (split; [apply (pub_valid P HP)|]; split; [apply (sign_len P HP)|apply (sign_verifies P HP)]).
  Qed.
  Lemma sign_entry_ok : forall secret id name idx data ttl, hash_ok id -> entry_ok name idx data ttl ->
    dht_value_ok (sign_entry P secret id name idx data ttl).
  Proof.
    intros secret id name idx data ttl Hi (H1 & H2 & H3 & H4). unfold dht_value_ok, key_description_ok, dht_key_ok, u32_ok, blob_ok. cbn.
    rewrite !(sign_len P HP). repeat split; try assumption. apply (pub_len P HP).
  Qed.

  Lemma sign_entry_inserted : forall o order s now now' secret name idx data ttl,
    let v := sign_entry P secret (short_id P (pub_of P secret)) name idx data ttl in
    let key := storage_key P (mk_dht_key (short_id P (pub_of P secret)) name idx) in
    now < ttl -> N.of_nat (length name) <= so_name_len o -> idx <= so_index o ->
    (forall old, s !! key = Some old -> dv_ttl old < ttl) ->
    storage_insert P o order s now now' v = (Ok true, <[key := v]> s).
  Proof.
    intros o order s now now' secret name idx data ttl v key Ht Hn Hi Hold. unfold storage_insert.
    change (dv_ttl v) with ttl. change (dk_name (kd_key (dv_key v))) with name. change (dk_idx (kd_key (dv_key v))) with idx.
    change (dk_id (kd_key (dv_key v))) with (sha256 P (put_public_key (kd_id (dv_key v)))).
    change (kd_rule (dv_key v)) with UrSignature. rewrite bytes_eqb_refl. cbv zeta.
    destruct (N.leb_spec ttl now); [lia|]. destruct (N.leb_spec (N.of_nat (length name)) (so_name_len o)); [|lia].
    destruct (N.ltb_spec (so_index o) idx); [lia|]. cbn [negb orb]. unfold insert_signed_value.
    assert (Hc : check_signatures P v = Ok tt) by (apply check_signatures_iff; [reflexivity|apply sign_entry_signed]). rewrite Hc. cbv zeta.
    change (storage_key P (kd_key (dv_key v))) with key.
    destruct (s !! key) as [old|] eqn:Eo; [|reflexivity]. specialize (Hold old eq_refl). change (dv_ttl v) with ttl.
    destruct (N.ltb_spec (dv_ttl old) ttl); [reflexivity|lia].
  Qed.

  Theorem published_found : forall T (get : parser T) (x : T) server e r secret name idx data ttl,
    let id := short_id P (pub_of P secret) in
    let v := sign_entry P secret id name idx data ttl in
    let key := storage_key P (mk_dht_key id name idx) in
    let opts := d_opts server in
    entry_ok name idx data ttl -> qe_now e < ttl ->
    N.of_nat (length name) <= so_name_len (do_storage opts) -> idx <= so_index (do_storage opts) ->
    (forall old, d_storage server !! key = Some old -> dv_ttl old < ttl) ->
    exists server',
      dht_receive P e server (put_dht_query (DqStore v) ++ r) = (Ok (Some put_dht_stored), server')
      /\ forall e' k r', qe_now e' < ttl -> 0 < k <= do_max_allowed_k opts -> u32_ok k ->
         exists reply, dht_receive P e' server' (put_dht_query (DqFindValue key k) ++ r') = (Ok (Some reply), server')
         /\ forall client now fresh, deserialize get data = Some x ->
            parse_value_result P get client now fresh reply = (Ok (Some (dv_key v, x)), client).
  Proof.
    intros T get x server e r secret name idx data ttl id v key opts Hok Ht Hn Hi Hold.
    exists (set_storage server (<[key := v]> (d_storage server))). 
    assert (Hv : dht_value_ok v) by (apply sign_entry_ok; [apply (sha_len P HP)|exact Hok]).
    split.
    - rewrite receive_store by exact Hv.
      pose proof (sign_entry_inserted (do_storage opts) (qe_node_order e) (d_storage server) (qe_now e) (qe_now2 e) secret name idx data ttl Ht Hn Hi Hold) as Hins.
      cbv zeta in Hins. fold id v key in Hins. fold opts. now rewrite Hins.
    - intros e' k r' Ht' Hk Hk'. exists (put_value_result (VrFound v)). split.
      + rewrite receive_find_value; [|apply (sha_len P HP)|exact Hk']. unfold process_find_value. cbn [set_storage d_opts d_storage].
        fold opts. destruct (N.eqb_spec k 0); [lia|]. destruct (N.ltb_spec (do_max_allowed_k opts) k); [lia|]. cbn [orb].
        unfold storage_get. rewrite lookup_insert. change (dv_ttl v) with ttl. destruct (N.ltb_spec (qe_now e') ttl); [reflexivity|lia].
      + intros client now fresh Hx. unfold parse_value_result. rewrite <- (app_nil_r (put_value_result _)), find_value_reply by exact Hv.
        change (kd_rule (dv_key v)) with UrSignature. cbv iota.
        assert (Hs : verify_signed_dht_value P v = Ok tt) by (apply verify_signed_iff; [reflexivity|]; split; [reflexivity|apply sign_entry_signed]).
        rewrite Hs. change (dv_value v) with data. now rewrite Hx.
  Qed.

  (** The address published by [store_address] is the one found. *)
  Theorem address_found : forall publisher secret addr now ttl client now' fresh others r,
    addr_ok addr -> u32_ok now -> u32_ok ttl -> u32_ok (n_start (d_adnl publisher)) ->
    n_start (d_adnl publisher) <= now' + o_clock_tolerance (n_opts (d_adnl client)) ->
    let v := address_entry P publisher secret addr now ttl in
    let id := short_id P (pub_of P secret) in
    find_address P client now' fresh id ((put_value_result (VrFound v) ++ r) :: others) = Some (addr, pub_of P secret).
  Proof.
    intros publisher secret addr now ttl client now' fresh others r Ha Hn Ht Hs Hstart v id. unfold find_address, lookup_values. cbn [flat_map].
    set (l := mk_address_list (Some (address_of addr)) now (n_start (d_adnl publisher)) 0).
    assert (Hl : address_list_ok l) by (now apply address_list_of).
    assert (Hv : dht_value_ok v).
    { apply sign_entry_ok; [apply (sha_len P HP)|]. split; [now apply blob_small; vm_compute; repeat constructor|]. split; [reflexivity|].
      split; [|exact Ht]. apply blob_small. pose proof (address_list_length l). fold l. lia. }
    unfold parse_value_result at 1. rewrite find_value_reply by exact Hv.
    change (kd_rule (dv_key v)) with UrSignature. cbv iota.
    assert (Hsig : verify_signed_dht_value P v = Ok tt) by (apply verify_signed_iff; [reflexivity|]; split; [reflexivity|apply sign_entry_signed]).
    rewrite Hsig. change (dv_value v) with (put_address_list_boxed l).
    assert (Hd : deserialize get_address_list_boxed (put_address_list_boxed l) = Some l)
      by (unfold deserialize; rewrite <- (app_nil_r (put_address_list_boxed l)); now rewrite address_list_boxed_reads).
    rewrite Hd. cbn [fst app flat_map]. unfold l at 1. rewrite parse_own_list by assumption.
    change (kd_id (dv_key v)) with (PkEd25519 (pub_of P secret)). cbn [full_id]. rewrite (pub_valid P HP). reflexivity.
  Qed.

  (** A verified overlay node can be published. *)
  Theorem overlay_entry_stored : forall o order s now now' name n ttl,
    (forall l, Permutation (order l) l) ->
    let v := overlay_entry P name n ttl in
    let overlay := sha256 P (put_public_key (PkOverlay name)) in
    let key := storage_key P (mk_dht_key overlay key_nodes 0) in
    ov_node_ok n -> signed_node P overlay n -> now < ttl -> 5 <= so_name_len o -> s !! key = None ->
    exists w, storage_insert P o order s now now' v = (Ok true, <[key := w]> s)
      /\ dv_ttl w = ttl /\ overlay_list P w [n].
  Proof.
    intros o order s now now' name n ttl Hord v overlay key Hn Hsig Ht Hlen Hnone.
    assert (Hdes : deserialize get_ov_nodes_boxed (dv_value v) = Some [n]).
    { unfold deserialize. change (dv_value v) with (put_ov_nodes_boxed [n]). rewrite <- (app_nil_r (put_ov_nodes_boxed [n])).
      rewrite ov_nodes_boxed_reads; [reflexivity|]. split; [constructor; [exact Hn|constructor]|reflexivity]. }
    assert (Hver : verify_overlay_node P overlay n = true) by now apply verify_overlay_node_iff.
    exists (make_overlay_nodes_value order v [n] []). split; [|split; [reflexivity|]].
    - unfold storage_insert. change (dv_ttl v) with ttl. change (dk_name (kd_key (dv_key v))) with key_nodes. change (dk_idx (kd_key (dv_key v))) with 0.
      change (dk_id (kd_key (dv_key v))) with (sha256 P (put_public_key (kd_id (dv_key v)))). rewrite bytes_eqb_refl. cbv zeta.
      destruct (N.leb_spec ttl now); [lia|]. change (N.of_nat (length key_nodes)) with 5. destruct (N.leb_spec 5 (so_name_len o)); [|lia].
      destruct (N.ltb_spec (so_index o) 0); [lia|]. cbn [negb orb]. change (kd_rule (dv_key v)) with UrOverlayNodes. cbv iota.
      unfold insert_overlay_nodes. change (dv_signature v) with (@nil N). change (kd_signature (dv_key v)) with (@nil N).
      change (kd_id (dv_key v)) with (PkOverlay name). cbv iota zeta. rewrite Hdes.
      change (dk_name (kd_key (dv_key v))) with key_nodes. change (dk_idx (kd_key (dv_key v))) with 0.
      change (dk_id (kd_key (dv_key v))) with overlay. fold overlay. rewrite !bytes_eqb_refl. change (0 =? 0) with true. cbn [negb andb List.filter].
      rewrite Hver. change (storage_key P (kd_key (dv_key v))) with key. now rewrite Hnone.
    - assert (Hone : order [n] = [n]) by exact (Permutation_length_1_inv (Permutation_sym (Hord [n]))).
      split; [reflexivity|]. split; [reflexivity|]. split; [eauto|]. split; [|split; [constructor; [exact Hsig|constructor]|repeat constructor; intros []]].
      unfold make_overlay_nodes_value, merge_nodes. cbn [fold_left put_newer dv_value]. rewrite Hone.
      unfold deserialize. rewrite <- (app_nil_r (_ ++ _)). pose proof (ov_nodes_boxed_reads [n] []) as H. unfold put_ov_nodes_boxed, put_ov_nodes, put_vector in H.
      rewrite H; [reflexivity|]. split; [constructor; [exact Hn|constructor]|reflexivity].
  Qed.

  (** ** Announcing (C62) *)
  Lemma local_node_announced : forall d now, announced P (sign_local_node P d now).
  Proof.
    intros d now. exists (pub_of P (d_key d)). split; [reflexivity|]. split; [apply (pub_valid P HP)|]. split; [apply (sign_len P HP)|apply (sign_verifies P HP)].
  Qed.
  Lemma local_node_ok : forall d now, addr_ok (n_addr (d_adnl d)) -> u32_ok now -> u32_ok (n_start (d_adnl d)) ->
    dht_node_ok (sign_local_node P d now).
  Proof.
    intros d now Ha Hn Hs. unfold dht_node_ok. cbn [sign_local_node dn_id dn_addr_list dn_version dn_signature]. 
    split; [apply (pub_len P HP)|]. split; [now apply address_list_of|]. split; [exact Hn|]. unfold blob_ok. now rewrite (sign_len P HP).
  Qed.
  Theorem local_node_added : forall d now adnl key o ops now' fresh,
    let n := sign_local_node P d now in
    let id := dht_local_id P d in
    let d' := dht_run P (dht_new P adnl key o) ops in
    let local := short_id P (pub_of P key) in
    addr_ok (n_addr (d_adnl d)) ->
    n_start (d_adnl d) <= now' + o_clock_tolerance (n_opts (d_adnl d')) ->
    id <> local -> sockaddr_eqb (n_addr (d_adnl d)) (n_addr (d_adnl d')) = false ->
    n_filter (d_adnl d') = None -> n_peers (d_adnl d') !! local <> None ->
    exists d'', add_dht_peer P d' now' fresh n = (Ok (Some id), d'')
      /\ ps_contains (d_known d'') id = true
      /\ get_peer_address (d_adnl d'') local id = Some (n_addr (d_adnl d)).
  Proof.
    intros d now adnl key o ops now' fresh n id d' local Ha Hs Hid Haddr Hf Hp.
    assert (Hl : dht_local_id P d' = local) by (destruct (run_state P ops (dht_new P adnl key o)) as (Hk0 & _); unfold dht_local_id, local, d'; now rewrite Hk0).
    pose proof (life_insert P adnl key o ops id) as Hins. fold d' in Hins. unfold add_dht_peer.
    change (dn_id n) with (PkEd25519 (pub_of P (d_key d))). cbn [full_id]. rewrite (pub_valid P HP).
    destruct (local_node_announced d now) as (key' & Hk & Hsig). fold n in Hk, Hsig. injection Hk as <-.
    assert (Hver : verify_full P (pub_of P (d_key d)) (put_dht_node_boxed (unsigned_node n)) (dn_signature n) = true)
      by (apply verify_full_iff; [apply (pub_valid P HP)|exact Hsig]).
    rewrite Hver. cbn [negb]. cbv zeta. change (dn_addr_list n) with (mk_address_list (Some (address_of (n_addr (d_adnl d)))) now (n_start (d_adnl d)) 0).
    rewrite parse_own_list by assumption. rewrite Hl. fold (dht_local_id P d). fold id. unfold add_peer.
    assert (Hne : bytes_eqb id local = false) by (destruct (bytes_eqb id local) eqn:E; [apply bytes_eqb_eq in E; contradiction|reflexivity]).
    rewrite Hne, Haddr, Hf. cbn [orb]. destruct (n_peers (d_adnl d') !! local) as [ps|] eqn:Eps; [|contradiction].
    assert (Hga : forall q, peer_addr q = n_addr (d_adnl d) -> get_peer_address (put_peer (d_adnl d') local id q) local id = Some (n_addr (d_adnl d))).
    { intros q Hq. unfold get_peer_address, get_peer, put_peer. rewrite Eps. cbn. rewrite lookup_insert. cbn. rewrite lookup_insert. cbn. now rewrite Hq. }
    destruct (ps !! id) as [p|]; cbn [set_adnl d_known]; destruct (ps_insert (d_known d') id) as [[|] known]; cbn [snd] in Hins;
      eexists; (split; [reflexivity|]); (split; [exact Hins|apply Hga; unfold peer_addr; cbn [set_addr peer_new p_addr]; now apply unpack_pack]).
  Qed.
End Publish.

(** ** Stale records (C63) *)
Theorem record_never_updated : forall P d now fresh n, ps_contains (d_known d) (node_id_of P n) = true ->
  d_buckets (snd (add_dht_peer P d now fresh n)) = d_buckets d.
Proof.
  intros P d now fresh n H. unfold add_dht_peer. destruct (full_id P (dn_id n)) as [key|e] eqn:Ek; [|reflexivity].
  apply full_id_ok in Ek as [Ek _]. assert (Hid : node_id_of P n = short_id P key) by (unfold node_id_of; rewrite Ek; reflexivity). rewrite Hid in H.
  destruct (negb _); [reflexivity|]. destruct (parse_address_list _ _ _); [|reflexivity].
  destruct (add_peer _ _ _ _ _ _ _) as [[[|]|e] adnl]; [|reflexivity|reflexivity]. cbn [set_adnl d_known]. unfold ps_insert, ps_contains in *.
  destruct (ps_cache (d_known d) !! short_id P key); [reflexivity|discriminate].
Qed.
