(** Facts about lookups in a network of DHT nodes. *)
From stdpp Require Import gmap.
From Coq Require Import NArith Lia Permutation.
From Verif.Base Require Import Bytes BytesFacts Res.
From Verif.Model Require Import Crypto Tl ProtoAdnl ProtoDht ProtoOverlay Peer AdnlNode PeersSet DhtStorage DhtBuckets
  DhtNode DhtStream DhtTasks.
From Verif.Spec Require Import Codec CryptoSpec NodeSpec DhtSpec DhtNodeSpec DhtStreamSpec DhtTaskSpec DhtNetSpec.
From Verif.Proof Require Import DhtStorageFacts DhtNodeFacts DhtStreamFacts DhtIterFacts DhtTaskFacts.
Open Scope N_scope.

Section Net.
  Context (P : prims) (HP : prims_ok P) {T : Type} (get : parser T).

  (** ** The reader's view *)
  Lemma reads_run : forall nodes n ev evs, 
    lookup_run P get (lookup_step P get (net_reader n, net_lookup n) ev) evs
    = lookup_run P get (net_reader (net_reads P get nodes n ev), net_lookup (net_reads P get nodes n ev)) evs.
  Proof. intros nodes n ev evs. unfold net_reads. now destruct (lookup_step P get (net_reader n, net_lookup n) ev) as [d l]. Qed.
  Lemma net_view : forall key t evs n, Forall (net_event_ok t) evs -> exists levs, Forall lookup_event_ok levs
    /\ (net_reader (net_run P get key n evs), net_lookup (net_run P get key n evs))
       = lookup_run P get (net_reader n, net_lookup n) levs.
  Proof.
    intros key t. unfold net_run. induction evs as [|ev evs IH]; intros n H; [exists []; split; [constructor|reflexivity]|].
    apply List.Forall_cons_iff in H as [H1 H2]. cbn [fold_left]. destruct (IH (net_step P get key n ev) H2) as (levs & L1 & L2). rewrite L2.
    destruct ev as [x op|op|i e sort now fresh|i b sort now fresh]; cbn [net_step].
    - exists levs. split; [exact L1|reflexivity].
    - exists (LkOther op :: levs). split; [constructor; [exact I|exact L1]|]. rewrite <- reads_run. reflexivity.
    - destruct H1 as [H1 _]. destruct (being_asked (net_lookup n) i) as [p|].
      2: { exists (LkEnds i Silent sort now fresh :: levs). split; [constructor; [exact H1|exact L1]|]. rewrite <- reads_run. reflexivity. }
      destruct (net_nodes n !! p) as [d|].
      2: { exists (LkEnds i Silent sort now fresh :: levs). split; [constructor; [exact H1|exact L1]|]. rewrite <- reads_run. reflexivity. }
      destruct (dht_receive P e d (lookup_query key)) as [answer d'].
      eexists (LkEnds i _ sort now fresh :: levs). split; [constructor; [exact H1|exact L1]|]. rewrite <- reads_run. reflexivity.
    - eexists (LkEnds i _ sort now fresh :: levs). split; [constructor; [exact H1|exact L1]|]. rewrite <- reads_run. reflexivity.
  Qed.

  (** ** A node that has the value *)
  Section Holder.
    Context (secret name data : bytes) (idx ttl : N) (x : T).
    Local Notation id := (short_id P (pub_of P secret)).
    Local Notation v := (sign_entry P secret id name idx data ttl).
    Local Notation key := (sha256 P (put_dht_key_boxed (mk_dht_key id name idx))).
    Context (Hentry : entry_ok name idx data ttl) (Hdata : deserialize get data = Some x).

    Definition holds (d : dht) : Prop := d_storage d !! key = Some v /\ 6 <= do_max_allowed_k (d_opts d).

    Lemma kept_step : forall o s op t, s !! key = Some v -> t < ttl -> nothing_else P v t op -> storage_step P o s op !! key = Some v.
    Proof.
      intros o s op t Hs Ht Hop. destruct op as [order now now' w|now]; cbn [storage_step nothing_else] in *.
      - destruct Hop as (_ & _ & Hw). destruct (storage_insert_cases P o order s now now' w) as [[H1 _]|(u & H1 & _ & _ & _ & _ & Hst)]; rewrite H1; [exact Hs|].
        cbn [snd]. destruct (decide (storage_key P (kd_key (dv_key w)) = key)) as [Hk|Hk].
        + destruct Hst as [Hr Hc Hold|received old Hr _ _ _ _ _ _].
          * assert (w = v) as -> by (apply Hw; [exact Hk|left; now apply check_signatures_iff]). rewrite <- Hk. apply lookup_insert.
          * assert (Hw' : w = v) by (apply Hw; [exact Hk|now right]). rewrite Hw' in Hr. discriminate.
        + now rewrite lookup_insert_ne by exact Hk.
      - unfold storage_gc. apply map_filter_lookup_Some. cbn [snd]. split; [exact Hs|]. change (dv_ttl v) with ttl. lia.
    Qed.
    Lemma kept_run : forall o t ops s, s !! key = Some v -> t < ttl -> Forall (nothing_else P v t) ops ->
      fold_left (storage_step P o) ops s !! key = Some v.
    Proof.
      intros o t. induction ops as [|op ops IH]; intros s Hs Ht Hops; [exact Hs|]. apply List.Forall_cons_iff in Hops as [H1 H2].
      cbn [fold_left]. apply IH; [|exact Ht|exact H2]. now apply (kept_step o s op t).
    Qed.
    Lemma holds_from : forall d hs ns d' t, holds d -> t < ttl -> Forall (nothing_else P v t) hs -> state_from P d hs ns d' -> holds d'.
    Proof.
      intros d hs ns d' t [H1 H2] Ht Hhs (_ & Ho & (ops' & Hin & Hst) & _). split; [|now rewrite Ho]. rewrite Hst.
      apply (kept_run _ t); [exact H1|exact Ht|]. apply List.Forall_forall. intros op Hop. apply Hin in Hop. revert op Hop. now apply List.Forall_forall.
    Qed.
    Lemma holds_answers : forall d e, holds d -> qe_now e < ttl ->
      dht_receive P e d (lookup_query key) = (Ok (Some (put_value_result (VrFound v))), d).
    Proof.
      intros d e [H1 H2] Ht. unfold lookup_query. rewrite <- (app_nil_r (put_dht_query _)).
      rewrite receive_find_value; [|apply (sha_len P HP)|reflexivity]. unfold process_find_value.
      destruct (N.ltb_spec (do_max_allowed_k (d_opts d)) 6); [lia|]. cbn [N.eqb orb].
      unfold storage_get. rewrite H1. change (dv_ttl v) with ttl. destruct (N.ltb_spec (qe_now e) ttl); [reflexivity|lia].
    Qed.
    Lemma value_parsed : forall d now fresh, parse_value_result P get d now fresh (put_value_result (VrFound v)) = (Ok (Some (dv_key v, x)), d).
    Proof.
      intros d now fresh. assert (Hv : dht_value_ok v) by (apply sign_entry_ok; [exact HP|apply (sha_len P HP)|exact Hentry]).
      unfold parse_value_result. rewrite <- (app_nil_r (put_value_result _)), find_value_reply by exact Hv.
      change (kd_rule (dv_key v)) with UrSignature. cbv iota.
      assert (Hs : verify_signed_dht_value P v = Ok tt) by (apply verify_signed_iff; [reflexivity|]; split; [reflexivity|apply sign_entry_signed; exact HP]).
      rewrite Hs. change (dv_value v) with data. now rewrite Hdata.
    Qed.

    (** ** The answers of the holder *)
    Definition answered_well (p : bytes) (l : lookup T) : Prop :=
      forall r, In (p, r) (vs_done (lk_stream l)) -> r = Some (dv_key v, x).
    Definition net_inv (p : bytes) (n : dht_net T) : Prop :=
      (exists d, net_nodes n !! p = Some d /\ holds d) /\ answered_well p (net_lookup n).

    Lemma refill_done : forall s : values_stream (key_description * T), vs_done (stream_refill s) = vs_done s.
    Proof. intros s. unfold stream_refill. destruct (_ <? _)%nat; [|reflexivity]. now destruct (refill _ _ _ _) as [[[? ?] ?] ?]. Qed.
    Lemma ends_well : forall p sort now fresh d l i e, answered_well p l ->
      (being_asked l i = Some p -> e = Replied (put_value_result (VrFound v))) ->
      answered_well p (snd (lookup_ends P get sort now fresh d l i e)).
    Proof.
      intros p sort now fresh d l i e Hw He. unfold being_asked in He.
      destruct (vs_flying (stream_refill (lk_stream l))) as [|p0 fl] eqn:Ef.
      - unfold lookup_ends. cbv zeta. rewrite Ef. cbn [snd]. unfold answered_well in *. cbn [lk_stream]. unfold stream_step.
        destruct (vs_ended (lk_stream l)); [exact Hw|]. cbv zeta. rewrite Ef. cbn [vs_done]. now rewrite refill_done.
      - destruct (ends_cases P get sort now fresh d l i e p0 fl Ef) as (d1 & value & it & ver & fill & Hend & _ & Hv & _). rewrite Hend. cbn [snd].
        unfold answered_well in *. cbn [lk_stream]. unfold stream_step. destruct (vs_ended (lk_stream l)); [exact Hw|]. cbv zeta. rewrite Ef. cbn [vs_done].
        rewrite refill_done. intros r Hin. apply in_app_or in Hin as [Hin|[Hin|[]]]; [now apply Hw|].
        pose proof (f_equal fst Hin) as Hp. pose proof (f_equal snd Hin) as Hr. cbn [fst snd] in Hp, Hr. subst r.
        specialize (He (f_equal Some Hp)). destruct (Hv _ He) as (d0 & _ & Hv'). apply Hv'. now rewrite value_parsed.
    Qed.
    Lemma reads_well : forall p nodes n ev, (exists d, nodes !! p = Some d /\ holds d) -> answered_well p (net_lookup n) ->
      (forall i e sort now fresh, ev = LkEnds i e sort now fresh -> being_asked (net_lookup n) i = Some p -> e = Replied (put_value_result (VrFound v))) ->
      net_inv p (net_reads P get nodes n ev).
    Proof.
      intros p nodes n ev Hn Hw He. unfold net_reads. destruct (lookup_step P get (net_reader n, net_lookup n) ev) as [d l] eqn:El. split; [exact Hn|]. cbn [net_lookup].
      replace l with (snd (lookup_step P get (net_reader n, net_lookup n) ev)) by now rewrite El.
      destruct ev as [op|i e sort now fresh]; cbn [lookup_step fst snd]; [exact Hw|]. apply ends_well; [exact Hw|]. now apply (He i e sort now fresh).
    Qed.
    Lemma net_inv_run : forall p t evs n, net_inv p n -> t < ttl -> Forall (net_event_ok t) evs ->
      Forall (nothing_else P v t) (stores (ops_at p evs)) -> never_lost P get key n evs p -> net_inv p (net_run P get key n evs).
    Proof.
      intros p t. unfold net_run. induction evs as [|ev evs IH]; intros n Hi Ht Hok Hel Hl; [exact Hi|].
      apply List.Forall_cons_iff in Hok as [H1 H2]. cbn [fold_left]. destruct Hl as [L1 L2].
      unfold ops_at, stores in Hel. cbn [flat_map] in Hel. rewrite flat_map_app in Hel. apply Forall_app in Hel as [E1 E2].
      apply IH; [|exact Ht|exact H2|exact E2|exact L2]. destruct Hi as [(d & Hd & Hh) Hw].
      destruct ev as [y op|op|i e sort now fresh|i b sort now fresh]; cbn [net_step].
      - split; [|exact Hw]. cbn [net_nodes]. destruct (bytes_eqb y p) eqn:Ey.
        + apply bytes_eqb_eq in Ey. subst y. exists (dht_step P d op). split; [now rewrite lookup_alter, Hd|].
          eapply holds_from; [exact Hh|exact Ht|exact E1|]. exact (run_state P [op] d).
        + apply bytes_eqb_neq in Ey. exists d. split; [now rewrite lookup_alter_ne by congruence|exact Hh].
      - apply reads_well; [eauto|exact Hw|discriminate].
      - destruct H1 as [_ H1]. destruct (being_asked (net_lookup n) i) as [q|] eqn:Eq.
        2: { apply reads_well; [eauto|exact Hw|]. intros i' e' s' n' f' Hev Ha. injection Hev as <- <- <- <- <-. congruence. }
        destruct (decide (q = p)) as [-> |Hq].
        + rewrite Hd. rewrite holds_answers by (exact Hh || lia). apply reads_well; [|exact Hw|].
          * exists d. split; [now rewrite lookup_insert|exact Hh].
          * intros i' e' s' n' f' Hev _. now injection Hev as <- <- <- <- <-.
        + destruct (net_nodes n !! q) as [dq|].
          2: { apply reads_well; [eauto|exact Hw|]. intros i' e' s' n' f' Hev Ha. injection Hev as <- <- <- <- <-. congruence. }
          destruct (dht_receive P e dq (lookup_query key)) as [answer d'].
          apply reads_well; [|exact Hw|].
          * exists d. split; [now rewrite lookup_insert_ne by congruence|exact Hh].
          * intros i' e' s' n' f' Hev Ha. injection Hev as <- <- <- <- <-. congruence.
      - apply reads_well; [eauto|exact Hw|]. intros i' e' s' n' f' Hev Ha. injection Hev as <- <- <- <- <-. congruence.
    Qed.

    Lemma values_of_in : forall (l : list (bytes * option (key_description * T))) p y, In (p, Some y) l -> In y (values_of l).
    Proof. intros l p y H. unfold values_of. apply in_flat_map. exists (p, Some y). split; [exact H|]. now left. Qed.

    Theorem published_reaches : forall nodes p server e ops t,
      qe_now e < ttl -> t < ttl ->
      N.of_nat (length name) <= so_name_len (do_storage (d_opts server)) -> idx <= so_index (do_storage (d_opts server)) ->
      6 <= do_max_allowed_k (d_opts server) ->
      (forall old, d_storage server !! key = Some old -> dv_ttl old < ttl) ->
      nodes !! p = Some (dht_run P (snd (dht_receive P e server (put_dht_query (DqStore v)))) ops) ->
      forall adnl me o ops' sort batch new_peers evs, sorts sort -> Forall (net_event_ok t) evs ->
      let reader := dht_run P (dht_new P adnl me o) ops' in
      let start := mk_dht_net nodes reader (lookup_new sort reader key batch new_peers) in
      let final := net_run P get key start evs in
      Forall (nothing_else P v t) (stores (ops ++ ops_at p evs)) ->
      never_lost P get key start evs p ->
      ps_is_full (d_known (net_reader final)) = false ->
      vs_ended (lk_stream (net_lookup final)) = true -> In p (vs_asked (lk_stream (net_lookup final))) ->
      In (dv_key v, x) (vs_yielded (lk_stream (net_lookup final))).
    Proof.
      intros nodes p server e ops t He Ht Hn Hi Hk Hold Hp adnl me o ops' sort batch new_peers evs Hs Hok reader start final Hel Hl Hf Hend Ha.
      destruct (published_found P HP T get x server e [] secret name idx data ttl Hentry He Hn Hi Hold) as (server' & S1 & _).
      rewrite app_nil_r in S1. rewrite S1 in Hp. cbn [snd] in Hp.
      assert (Hserver : holds server').
      { assert (Hv : dht_value_ok v) by (apply sign_entry_ok; [exact HP|apply (sha_len P HP)|exact Hentry]).
        pose proof (receive_store P e server v [] Hv) as R. rewrite app_nil_r, S1 in R.
        pose proof (sign_entry_inserted P HP (do_storage (d_opts server)) (qe_node_order e) (d_storage server) (qe_now e) (qe_now2 e) secret name idx data ttl He Hn Hi Hold) as Hins.
        cbv zeta in Hins. rewrite Hins in R. apply (f_equal snd) in R. cbn [snd] in R. subst server'. split; [|exact Hk].
        cbn [set_storage d_storage]. apply lookup_insert. }
      unfold stores in Hel. rewrite flat_map_app in Hel. apply Forall_app in Hel as [E1 E2].
      assert (Hstart : net_inv p start).
      { split; [|intros r []]. cbn [net_nodes start]. exists (dht_run P server' ops). split; [exact Hp|].
        eapply holds_from; [exact Hserver|exact Ht|exact E1|]. apply run_state. }
      destruct (net_inv_run p t evs start Hstart Ht Hok E2 Hl) as [_ Hw]. fold final in Hw.
      destruct (net_view key t evs start Hok) as (levs & L1 & L2). fold final in L2. cbn [start net_reader net_lookup] in L2.
      pose proof (lookup_each_once T P get adnl me o ops' sort key batch new_peers levs Hs L1) as H. cbv zeta in H. fold reader in H.
      rewrite <- L2 in H. cbn [fst snd] in H. destruct (H Hf) as (_ & _ & Hy & Hd). specialize (Hd Hend).
      assert (Hin : In p (map fst (vs_done (lk_stream (net_lookup final))))) by (eapply Permutation_in; [symmetry; exact Hd|exact Ha]).
      apply in_map_iff in Hin as ([q r] & Hq & Hin). cbn in Hq. subst q. rewrite Hy. rewrite (Hw r Hin) in Hin. eapply values_of_in; exact Hin.
    Qed.
  End Holder.

  (** ** Who is asked *)
  Lemma fill_all : forall (sort : list (N * bytes) -> list (N * bytes)) d it p, sorts sort -> In p (iter_peers it) -> In p (iter_peers (iter_fill sort d None it)).
  Proof.
    intros sort d it p Hs Hin. unfold iter_fill, iter_peers in *. cbn [pi_peers]. set (good := List.filter _ _). clearbody good.
    assert (H : forall l acc, In p (map snd acc) -> In p (map snd (fold_left (fill_peer (pi_key it) None) l acc))).
    { induction l as [|q l IH]; intros acc Hacc; [exact Hacc|]. cbn [fold_left]. apply IH. unfold fill_peer.
      assert (H : forall a : list (N * bytes), In p (map snd (acc ++ a))) by (intros a; rewrite map_app; apply in_or_app; now left).
      repeat match goal with |- context [match ?y with _ => _ end] => destruct y end; first [apply H|exact Hacc]. }
    specialize (H good (pi_peers it) Hin). destruct (Hs (fold_left (fill_peer (pi_key it) None) good (pi_peers it))) as [Hp _].
    eapply Permutation_in; [apply Permutation_map; symmetry; exact Hp|exact H].
  Qed.

  Definition due (p : bytes) (l : lookup T) : Prop := lk_batch l = None /\ (In p (vs_asked (lk_stream l)) \/ In p (vs_peers (lk_stream l))).
  Lemma ends_due : forall p sort now fresh d l i e, sorts sort -> lookup_ok (Nat.max 1 (N.to_nat max_dht_peers)) d l -> due p l ->
    due p (snd (lookup_ends P get sort now fresh d l i e)).
  Proof.
    intros p sort now fresh d l i e Hs Hok [Hb Hp].
    destruct (vs_flying (stream_refill (lk_stream l))) as [|p0 fl] eqn:Ef.
    - destruct (idle_empty _ d l Hok Ef) as [Hpe _]. destruct (idle_ended _ d l Hok Ef) as (_ & _ & _ & S4).
      unfold lookup_ends. cbv zeta. rewrite Ef. cbn [snd]. split; [exact Hb|]. cbn [lk_stream]. left. rewrite S4. rewrite Hpe in Hp. now destruct Hp as [Hp|[]].
    - pose proof (busy_running _ d l p0 fl Hok Ef) as Ee. destruct Hok as [H1 H2 H3 H4 H5 H6].
      destruct (ends_cases P get sort now fresh d l i e p0 fl Ef) as (d1 & value & it & ver & fill & Hend & Hit & _). cbv zeta in Hit. rewrite Hend. cbn [snd].
      split; [exact Hb|]. cbn [lk_stream]. unfold stream_step. rewrite Ee. cbv zeta. rewrite Ef. cbn [vs_asked vs_peers].
      destruct (refill_moves _ H2) as (taken & M1 & M2 & M3). pose proof (left_peers l H2 H3) as Hleft.
      assert (Hc : In p (vs_asked (stream_refill (lk_stream l))) \/ In p (vs_peers (stream_refill (lk_stream l)))).
      { rewrite M2. destruct Hp as [Hp|Hp]; [left; apply in_or_app; now left|]. rewrite M1 in Hp. apply in_app_or in Hp as [Hp|Hp]; [now right|].
        left. apply in_or_app. right. now apply in_rev. }
      destruct Hc as [Hc|Hc]; [now left|]. right. destruct Hit as [[_ ->]|(-> & -> & _)]; [exact Hc|]. rewrite Hb. apply fill_all; [exact Hs|]. now rewrite Hleft.
  Qed.
  Lemma run_due : forall p evs d l, Forall lookup_event_ok evs -> lookup_ok (Nat.max 1 (N.to_nat max_dht_peers)) d l -> due p l ->
    ps_is_full (d_known (fst (lookup_run P get (d, l) evs))) = false ->
    due p (snd (lookup_run P get (d, l) evs)) /\ lookup_ok (Nat.max 1 (N.to_nat max_dht_peers)) (fst (lookup_run P get (d, l) evs)) (snd (lookup_run P get (d, l) evs)).
  Proof.
    intros p. induction evs as [|ev evs IH]; intros d l He Hok Hd Hf; [split; [exact Hd|exact Hok]|]. apply List.Forall_cons_iff in He as [He1 He2].
    unfold lookup_run in *. cbn [fold_left] in *.
    assert (Hf' : ps_is_full (d_known (fst (lookup_step P get (d, l) ev))) = false).
    { eapply not_full_before; [|exact Hf]. apply (run_grown P get evs). }
    rewrite (surjective_pairing (lookup_step P get (d, l) ev)) in *.
    destruct ev as [op|i e sort now fresh]; cbn [lookup_step fst snd] in *.
    - apply IH; [exact He2| |exact Hd|exact Hf]. eapply grown_ok; [apply grown_op|exact Hf'|exact Hok].
    - apply IH; [exact He2|now apply ends_ok|now apply ends_due|exact Hf].
  Qed.

  Theorem known_asked : forall nodes adnl me o ops key sort new_peers t evs p, sorts sort -> Forall (net_event_ok t) evs ->
    let reader := dht_run P (dht_new P adnl me o) ops in
    let final := net_run P get key (mk_dht_net nodes reader (lookup_new sort reader key None new_peers)) evs in
    ps_is_full (d_known (net_reader final)) = false -> vs_ended (lk_stream (net_lookup final)) = true ->
    In p (ps_members (d_known reader)) -> is_bad_peer reader p = false -> In p (vs_asked (lk_stream (net_lookup final))).
  Proof.
    intros nodes adnl me o ops key sort new_peers t evs p Hs Hok reader final Hf Hend Hp Hb.
    set (start := mk_dht_net nodes reader (lookup_new sort reader key None new_peers)) in *.
    destruct (net_view key t evs start Hok) as (levs & L1 & L2). fold final in L2. unfold start in L2. cbn [net_reader net_lookup] in L2.
    pose proof (known_reps P adnl me o ops) as Hr. fold reader in Hr.
    assert (Hnd : List.NoDup (ps_members (d_known reader))) by (destruct Hr as [q Hq]; now apply reps_nodup in Hq).
    destruct (run_due p levs reader (lookup_new sort reader key None new_peers) L1 (new_ok _ sort reader key None new_peers Hs Hr)) as [[_ Hd] Hlk].
    - split; [reflexivity|]. right. cbn [lookup_new lk_stream stream_new vs_peers].
      destruct (selected_peers sort Hs reader None key Hnd) as (_ & _ & Hsel & _). unfold iter_peers.
      eapply Permutation_in; [symmetry; apply Hsel; reflexivity|]. apply List.filter_In. split; [exact Hp|]. now rewrite Hb.
    - rewrite <- L2. exact Hf.
    - rewrite <- L2 in Hd, Hlk. cbn [fst snd] in Hd, Hlk. destruct Hlk as [_ _ _ _ _ H6]. destruct (H6 Hend) as [He _]. rewrite He in Hd. now destruct Hd as [Hd|[]].
  Qed.
End Net.
