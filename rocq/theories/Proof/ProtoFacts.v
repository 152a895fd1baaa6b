(** Every message codec reads back what it writes. *)
From Coq Require Import List NArith ZArith Lia Bool Arith.
From Coq Require Import ZifyBool ZifyNat ZifyN.
From Verif.Base Require Import Bytes BytesFacts.
From Verif.Model Require Import Tl Scheme ProtoAdnl ProtoRldp ProtoDht ProtoOverlay.
From Verif.Spec Require Import Codec.
From Verif.Proof Require Import TlFacts.
Import ListNotations.
Open Scope N_scope.

Ltac split_ands :=
  repeat match goal with H : _ /\ _ |- _ => destruct H end.
Ltac tl_id := unfold u32_ok; reflexivity.

(** Runs a reader over a concatenation of encodings: reads the next field, decides comparisons
    of constructor ids. *)
Ltac tl_if :=
  match goal with
  | |- context [if ?a =? ?b then _ else _] =>
      (change (a =? b) with true || change (a =? b) with false); cbv iota
  end.
Ltac tl_go :=
  repeat first
    [ rewrite <- app_assoc
    | tl_if
    | erewrite bind_reads; [ | solve [eauto with tl] | solve [assumption | tl_id | eauto with tl] ]
    | progress cbv beta ].

Lemma public_key_reads : reads put_public_key get_public_key public_key_ok.
Proof.
  intros k r H. unfold get_public_key.
  destruct k; cbn [put_public_key public_key_ok] in *; tl_go; reflexivity.
Qed.
#[export] Hint Resolve public_key_reads : tl.

Lemma put_public_key_ne : forall k, put_public_key k <> [].
Proof. intros []; apply put_u32_cons. Qed.

Lemma address_reads : reads put_address get_address address_ok.
Proof.
  intros [ip port] r [H1 H2]. cbn in H1, H2. unfold get_address, put_address. cbn [ad_ip ad_port].
  tl_go. reflexivity.
Qed.

Lemma address_list_reads : reads put_address_list get_address_list address_list_ok.
Proof.
  intros [a v d e] r (Ha & Hv & Hd & He). cbn in Ha, Hv, Hd, He.
  unfold get_address_list, put_address_list. cbn [al_address al_version al_reinit_date al_expire_at].
  destruct a as [a|]; cbn [put_opt opt_ok] in *; tl_go.
  - set (rest := put_u32 v ++ put_u32 d ++ put_u32 0 ++ put_u32 e ++ r).
    pose proof (many_reads _ put_address get_address address_ok address_reads [a]
      (S (length (put_address a ++ rest))) rest (Forall_cons _ Ha (Forall_nil _))) as Hm.
    cbn [flat_map] in Hm. rewrite app_nil_r in Hm.
    erewrite bind_ok by (apply Hm; rewrite app_length; cbn [length]; unfold put_address, put_u32;
      rewrite !app_length, !le_bytes_length; lia).
    subst rest. tl_go. reflexivity.
  - rewrite app_nil_l. erewrite (bind_ok _ _ _ _ _ []) by (cbn [get_many N.eqb]; reflexivity).
    tl_go. reflexivity.
Qed.
#[export] Hint Resolve address_list_reads address_reads : tl.

Lemma reinit_dates_reads : reads put_reinit_dates get_reinit_dates reinit_dates_ok.
Proof.
  intros [a b] r [H1 H2]. cbn in H1, H2. unfold put_reinit_dates, get_reinit_dates.
  cbn [rd_local rd_target]. tl_go. reflexivity.
Qed.
#[export] Hint Resolve reinit_dates_reads : tl.

Lemma message_reads : reads put_message get_message message_ok.
Proof.
  intros m r H. unfold get_message.
  destruct m; cbn [put_message message_ok] in *; split_ands; tl_go; reflexivity.
Qed.
#[export] Hint Resolve message_reads : tl.
Lemma put_message_ne : forall m, put_message m <> [].
Proof. intros []; apply put_u32_cons. Qed.

Lemma adnl_ping_reads : reads put_adnl_ping get_adnl_ping u64_ok.
Proof. intros v r H. unfold get_adnl_ping, put_adnl_ping. tl_go. now apply u64_reads. Qed.
Lemma adnl_pong_reads : reads put_adnl_pong get_adnl_pong u64_ok.
Proof. intros v r H. unfold get_adnl_pong, put_adnl_pong. tl_go. now apply u64_reads. Qed.

(** RLDP *)
Lemma fec_type_reads : reads put_fec_type get_fec_type fec_type_ok.
Proof.
  intros [a b c] r (H1 & H2 & H3). cbn in H1, H2, H3. unfold get_fec_type, put_fec_type.
  cbn [ft_total_len ft_packet_len ft_packet_count]. tl_go. reflexivity.
Qed.
#[export] Hint Resolve fec_type_reads : tl.

Lemma rldp_message_reads : reads put_rldp_message get_rldp_message rldp_message_ok.
Proof.
  intros m r H. unfold get_rldp_message.
  destruct m; cbn [put_rldp_message rldp_message_ok] in *; split_ands; tl_go; reflexivity.
Qed.

Lemma message_part_reads : reads put_message_part get_message_part message_part_ok.
Proof.
  intros m r H. unfold get_message_part.
  destruct m; cbn [put_message_part message_part_ok] in *; split_ands; tl_go; reflexivity.
Qed.

(** DHT *)
Lemma dht_node_reads : reads put_dht_node get_dht_node dht_node_ok.
Proof.
  intros [a b c d] r (H1 & H2 & H3 & H4). cbn [dn_id dn_addr_list dn_version dn_signature] in *.
  unfold get_dht_node, put_dht_node. cbn [dn_id dn_addr_list dn_version dn_signature].
  tl_go. reflexivity.
Qed.
#[export] Hint Resolve dht_node_reads : tl.
Lemma put_dht_node_ne : forall n, put_dht_node n <> [].
Proof.
  intros n H. unfold put_dht_node in H. apply app_eq_nil in H as [H _].
  now apply put_public_key_ne in H.
Qed.

Lemma dht_nodes_reads : reads put_dht_nodes get_dht_nodes (vec_ok dht_node_ok).
Proof. apply vector_reads; [exact dht_node_reads | exact put_dht_node_ne]. Qed.
#[export] Hint Resolve dht_nodes_reads : tl.

Lemma dht_key_reads : reads put_dht_key get_dht_key dht_key_ok.
Proof.
  intros [a b c] r (H1 & H2 & H3). cbn [dk_id dk_name dk_idx] in *.
  unfold get_dht_key, put_dht_key. cbn [dk_id dk_name dk_idx]. tl_go. reflexivity.
Qed.
#[export] Hint Resolve dht_key_reads : tl.

Lemma update_rule_reads : reads put_update_rule get_update_rule (fun _ => True).
Proof. intros [] r _; unfold get_update_rule, put_update_rule; tl_go; reflexivity. Qed.
#[export] Hint Resolve update_rule_reads : tl.

Lemma key_description_reads : reads put_key_description get_key_description key_description_ok.
Proof.
  intros [a b c d] r (H1 & H2 & H3). cbn [kd_key kd_id kd_rule kd_signature] in *.
  unfold get_key_description, put_key_description. cbn [kd_key kd_id kd_rule kd_signature].
  tl_go. reflexivity.
Qed.
#[export] Hint Resolve key_description_reads : tl.

Lemma dht_value_reads : reads put_dht_value get_dht_value dht_value_ok.
Proof.
  intros [a b c d] r (H1 & H2 & H3 & H4). cbn [dv_key dv_value dv_ttl dv_signature] in *.
  unfold get_dht_value, put_dht_value. cbn [dv_key dv_value dv_ttl dv_signature]. tl_go. reflexivity.
Qed.
#[export] Hint Resolve dht_value_reads : tl.

Lemma value_result_reads : reads put_value_result get_value_result value_result_ok.
Proof.
  intros m r H. unfold get_value_result.
  destruct m; cbn [put_value_result value_result_ok] in *; unfold put_dht_value_boxed; tl_go; reflexivity.
Qed.

Lemma dht_query_reads : reads put_dht_query get_dht_query dht_query_ok.
Proof.
  intros m r H. unfold get_dht_query.
  destruct m; cbn [put_dht_query dht_query_ok] in *; split_ands; tl_go; reflexivity.
Qed.

Lemma dht_pong_reads : reads put_dht_pong get_dht_pong u64_ok.
Proof. intros v r H. unfold get_dht_pong, put_dht_pong. tl_go. now apply u64_reads. Qed.
Lemma dht_stored_reads : reads (fun _ : unit => put_dht_stored) get_dht_stored (fun _ => True).
Proof. intros [] r _. unfold get_dht_stored, put_dht_stored. tl_go. reflexivity. Qed.

(** Overlay *)
Lemma ov_node_reads : reads put_ov_node get_ov_node ov_node_ok.
Proof.
  intros [a b c d] r (H1 & H2 & H3 & H4). cbn [on_id on_overlay on_version on_signature] in *.
  unfold get_ov_node, put_ov_node. cbn [on_id on_overlay on_version on_signature]. tl_go. reflexivity.
Qed.
#[export] Hint Resolve ov_node_reads : tl.
Lemma put_ov_node_ne : forall n, put_ov_node n <> [].
Proof.
  intros n H. unfold put_ov_node in H. apply app_eq_nil in H as [H _].
  now apply put_public_key_ne in H.
Qed.
Lemma ov_nodes_reads : reads put_ov_nodes get_ov_nodes (vec_ok ov_node_ok).
Proof. apply vector_reads; [exact ov_node_reads | exact put_ov_node_ne]. Qed.
#[export] Hint Resolve ov_nodes_reads : tl.
Lemma ov_nodes_boxed_reads : reads put_ov_nodes_boxed get_ov_nodes_boxed (vec_ok ov_node_ok).
Proof. intros l r H. unfold get_ov_nodes_boxed, put_ov_nodes_boxed. tl_go. now apply ov_nodes_reads. Qed.

Lemma certificate_reads : reads put_certificate get_certificate certificate_ok.
Proof.
  intros m r H. unfold get_certificate.
  destruct m; cbn [put_certificate certificate_ok] in *; split_ands; tl_go; reflexivity.
Qed.
#[export] Hint Resolve certificate_reads : tl.

Lemma ov_broadcast_reads : reads put_ov_broadcast get_ov_broadcast ov_broadcast_ok.
Proof.
  intros [a b c d e f] r (H1 & H2 & H3 & H4 & H5 & H6).
  cbn [ob_src ob_certificate ob_flags ob_data ob_date ob_signature] in *.
  unfold get_ov_broadcast, put_ov_broadcast.
  cbn [ob_src ob_certificate ob_flags ob_data ob_date ob_signature]. tl_go. reflexivity.
Qed.
#[export] Hint Resolve ov_broadcast_reads : tl.

Lemma ov_broadcast_fec_reads : reads put_ov_broadcast_fec get_ov_broadcast_fec ov_broadcast_fec_ok.
Proof.
  intros [a b c d e f g h i j] r (H1 & H2 & H3 & H4 & H5 & H6 & H7 & H8 & H9 & H10).
  cbn [bf_src bf_certificate bf_data_hash bf_data_size bf_flags bf_data bf_seqno bf_fec bf_date
       bf_signature] in *.
  unfold get_ov_broadcast_fec, put_ov_broadcast_fec.
  cbn [bf_src bf_certificate bf_data_hash bf_data_size bf_flags bf_data bf_seqno bf_fec bf_date
       bf_signature]. tl_go. reflexivity.
Qed.
#[export] Hint Resolve ov_broadcast_fec_reads : tl.

Lemma broadcast_reads : reads put_broadcast get_broadcast broadcast_ok.
Proof.
  intros m r H. unfold get_broadcast.
  destruct m; cbn [put_broadcast broadcast_ok] in *; split_ands; tl_go; reflexivity.
Qed.

Lemma overlay_message_reads : reads put_overlay_message get_overlay_message hash_ok.
Proof. intros v r H. unfold get_overlay_message, put_overlay_message. tl_go. now apply hash_reads. Qed.
Lemma overlay_query_reads : reads put_overlay_query get_overlay_query hash_ok.
Proof. intros v r H. unfold get_overlay_query, put_overlay_query. tl_go. now apply hash_reads. Qed.
Lemma get_random_peers_reads : reads put_get_random_peers get_get_random_peers (vec_ok ov_node_ok).
Proof. intros v r H. unfold get_get_random_peers, put_get_random_peers. tl_go. now apply ov_nodes_reads. Qed.

Lemma codec_ok_of_reads : forall A (put : A -> bytes) get (wf : A -> Prop),
  reads put get wf -> reads put get wf /\ unambiguous put wf.
Proof. intros * H. split; [exact H | eapply reads_unambiguous; exact H]. Qed.

(** Different constructors never share an id. *)
Fixpoint nodupb (l : list N) : bool :=
  match l with [] => true | x :: r => negb (existsb (N.eqb x) r) && nodupb r end.
Lemma nodupb_NoDup : forall l, nodupb l = true -> NoDup l.
Proof.
  induction l as [|x l IH]; cbn; intros H; constructor.
  - apply andb_true_iff in H as [H _]. intros Hin. apply negb_true_iff in H.
    assert (existsb (N.eqb x) l = true) by (apply existsb_exists; exists x; split; [exact Hin | apply N.eqb_refl]).
    congruence.
  - apply IH. now apply andb_true_iff in H as [_ H].
Qed.
Lemma scheme_ids_distinct : NoDup (id_pub_unenc :: map fst scheme_lines).
Proof. apply nodupb_NoDup. vm_compute. reflexivity. Qed.
