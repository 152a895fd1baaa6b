From stdpp Require Import gmap.
From Coq Require Import NArith Lia.
From Verif.Base Require Import Bytes BytesFacts Res.
From Verif.Model Require Import Crypto Tl Scheme ProtoAdnl ProtoRldp ProtoDht ProtoOverlay Channel Peer AdnlNode
  DhtStorage DhtNode OverlayPeers Compression Fec Broadcast OverlayNode.
From Verif.Spec Require Import Codec CryptoSpec CompressionSpec FecSpec DhtSpec OverlaySpec BroadcastSpec
  InPlaceSpec SignedSpec.
From Verif.Proof Require Import TlFacts ProtoFacts LocalFacts.
From Verif.Proof Require OverlayNodeFacts.
Open Scope N_scope.

Lemma u32_split : forall a b r s, u32_ok a -> u32_ok b -> put_u32 a ++ r = put_u32 b ++ s -> a = b /\ r = s.
Proof. exact (reads_unambiguous _ _ _ _ u32_reads). Qed.
Lemma u64_split : forall a b r s, u64_ok a -> u64_ok b -> put_u64 a ++ r = put_u64 b ++ s -> a = b /\ r = s.
Proof. exact (reads_unambiguous _ _ _ _ u64_reads). Qed.
Lemma hash_split : forall a b r s, hash_ok a -> hash_ok b -> a ++ r = b ++ s -> a = b /\ r = s.
Proof. exact (reads_unambiguous _ _ _ _ hash_reads). Qed.
Lemma u32_whole : forall a b, u32_ok a -> u32_ok b -> put_u32 a = put_u32 b -> a = b.
Proof. intros a b Ha Hb H. apply (u32_split a b [] []); [assumption|assumption|now rewrite H]. Qed.
Lemma whole : forall A (put : A -> bytes) get wf a b, reads put get wf -> wf a -> wf b -> put a = put b -> a = b.
Proof.
  intros A put get wf a b H Ha Hb E. apply (reads_unambiguous _ _ _ _ H a b [] []); [assumption|assumption|now rewrite E].
Qed.
Lemma tag_differs : forall a b r s, u32_ok a -> u32_ok b -> a <> b -> put_u32 a ++ r <> put_u32 b ++ s.
Proof. intros a b r s Ha Hb H E. apply H. now apply (u32_split a b r s). Qed.
Ltac tags := exfalso; eapply tag_differs; [| | |eassumption]; [reflexivity|reflexivity|discriminate].
Ltac strip H := apply u32_split in H as [_ H]; [|reflexivity|reflexivity].

(** A way to check that hashes are different. *)
Fixpoint distinct (l : list bytes) : bool :=
  match l with [] => true | x :: r => negb (existsb (bytes_eqb x) r) && distinct r end.
Lemma distinct_separate : forall P l, distinct (map (sha256 P) l) = true -> separate P l.
Proof.
  intros P. induction l as [|a l IH]; intros H x y Hx Hy E; [destruct Hx|]. cbn [map distinct] in H. apply andb_true_iff in H as [H1 H2].
  assert (Hno : forall b, In b l -> sha256 P a = sha256 P b -> False).
  { intros b Hb Eb. apply negb_true_iff in H1. assert (existsb (bytes_eqb (sha256 P a)) (map (sha256 P) l) = true); [|congruence].
    apply existsb_exists. exists (sha256 P b). split; [now apply in_map|]. apply bytes_eqb_eq. exact Eb. }
  destruct Hx as [<-|Hx], Hy as [<-|Hy]; [reflexivity|destruct (Hno y Hy E)|destruct (Hno x Hx (eq_sym E))|now apply IH].
Qed.

Section Facts.
Context (P : prims) (HP : prims_ok P).
Lemma sha_hash : forall m, hash_ok (sha256 P m).
Proof. exact (sha_len P HP). Qed.

Lemma broadcast_name_inj : forall l s1 d1 s2 d2, separate P l -> In d1 l -> In d2 l -> hash_ok s1 -> hash_ok s2 ->
  broadcast_name P s1 d1 = broadcast_name P s2 d2 -> s1 = s2 /\ d1 = d2.
Proof.
  intros l s1 d1 s2 d2 Hs I1 I2 H1 H2 E. unfold broadcast_name in E. strip E.
  apply hash_split in E as [-> E]; [|assumption|assumption].
  apply hash_split in E as [E _]; [|apply sha_hash|apply sha_hash]. split; [reflexivity|]. now apply Hs.
Qed.
Lemma fec_name_inj : forall l s1 h1 z1 f1 p1 s2 h2 z2 f2 p2, separate P l ->
  In (put_fec_type p1) l -> In (put_fec_type p2) l -> hash_ok s1 -> hash_ok s2 -> hash_ok h1 -> hash_ok h2 ->
  u32_ok z1 -> u32_ok z2 -> u32_ok f1 -> u32_ok f2 -> fec_type_ok p1 -> fec_type_ok p2 ->
  fec_name P s1 h1 z1 f1 p1 = fec_name P s2 h2 z2 f2 p2 -> s1 = s2 /\ h1 = h2 /\ z1 = z2 /\ f1 = f2 /\ p1 = p2.
Proof.
  intros l s1 h1 z1 f1 p1 s2 h2 z2 f2 p2 Hs I1 I2 Hs1 Hs2 Hh1 Hh2 Hz1 Hz2 Hf1 Hf2 Hp1 Hp2 E. unfold fec_name in E.
  strip E. apply hash_split in E as [-> E]; [|assumption|assumption].
  apply hash_split in E as [Ep E]; [|apply sha_hash|apply sha_hash].
  apply hash_split in E as [-> E]; [|assumption|assumption].
  apply u32_split in E as [-> E]; [|assumption|assumption]. apply u32_whole in E as ->; [|assumption|assumption].
  apply Hs in Ep; [|assumption|assumption]. apply (whole _ _ _ _ _ _ fec_type_reads Hp1 Hp2) in Ep. auto.
Qed.

Lemma text_inj : forall s1 s2, statement_ok s1 -> statement_ok s2 -> separate P (hashed P s1 ++ hashed P s2) ->
  text P s1 = text P s2 -> s1 = s2.
Proof.
  intros s1 s2 H1 H2 Hs E.
  destruct s1, s2; cbn [statement_ok text hashed] in *; try (now tags).
  - now strip E; subst.
  - strip E. destruct H1 as (A1 & A2 & A3), H2 as (B1 & B2 & B3).
    apply hash_split in E as [-> E]; [|assumption|assumption]. apply hash_split in E as [-> E]; [|assumption|assumption].
    now apply u32_whole in E as ->.
  - strip E. apply (whole _ _ _ _ _ _ dht_node_reads) in E; [congruence| |].
    + destruct H1 as (?&?&?). repeat split; try assumption; try apply H0.
    + destruct H2 as (?&?&?). repeat split; try assumption; try apply H0.
  - strip E. apply (whole _ _ _ _ _ _ key_description_reads) in E; [congruence| |].
    + destruct H1. split; [assumption|]. split; [assumption|reflexivity].
    + destruct H2. split; [assumption|]. split; [assumption|reflexivity].
  - strip E. apply (whole _ _ _ _ _ _ dht_value_reads) in E; [congruence| |].
    + destruct H1 as (?&?&?). split; [assumption|]. split; [assumption|]. split; [assumption|reflexivity].
    + destruct H2 as (?&?&?). split; [assumption|]. split; [assumption|]. split; [assumption|reflexivity].
  - strip E. apply hash_split in E as [E Ed]; [|apply sha_hash|apply sha_hash].
    apply u32_whole in Ed as ->; [|apply H1|apply H2].
    apply Hs in E; [|cbn; auto|cbn; auto].
    apply (broadcast_name_inj _ _ _ _ _ Hs) in E as [-> ->]; [reflexivity|cbn; auto|cbn; auto|apply H1|apply H2].
  - exfalso. strip E. apply hash_split in E as [E _]; [|apply sha_hash|apply sha_hash].
    apply Hs in E; [|cbn; auto|cbn; auto 10]. unfold broadcast_name, part_name in E. tags.
  - exfalso. strip E. apply hash_split in E as [E _]; [|apply sha_hash|apply sha_hash].
    apply Hs in E; [|cbn; auto 10|cbn; auto 10]. unfold broadcast_name, part_name in E. tags.
  - strip E. destruct H1 as (A1 & A2 & A3 & A4 & A5 & A6 & A7), H2 as (B1 & B2 & B3 & B4 & B5 & B6 & B7).
    apply hash_split in E as [E Ed]; [|apply sha_hash|apply sha_hash]. apply u32_whole in Ed as ->; [|assumption|assumption].
    apply Hs in E; [|cbn; auto 10|cbn; auto 10]. unfold part_name in E. strip E.
    apply hash_split in E as [Ef E]; [|apply sha_hash|apply sha_hash].
    apply hash_split in E as [Ep E]; [|apply sha_hash|apply sha_hash].
    apply u32_whole in E as ->; [|assumption|assumption].
    apply Hs in Ep; [|cbn; auto 10|cbn; auto 10]. subst.
    apply Hs in Ef; [|cbn; auto 10|cbn; auto 10].
    apply (fec_name_inj _ _ _ _ _ _ _ _ _ _ _ Hs) in Ef as (-> & -> & -> & -> & ->); try assumption; [reflexivity|cbn; auto|cbn; auto 10].
Qed.

Lemma only_what_was_said : forall key said st sg,
  only_says P key said -> List.Forall statement_ok said -> statement_ok st ->
  separate P (hashed P st ++ flat_map (hashed P) said) -> stated_by P key st sg -> In st said.
Proof.
  intros key said st sg Hk Hsaid Hst Hs Hv. apply Hk in Hv. apply in_map_iff in Hv as (s & E & Hin).
  assert (s = st) as <-; [|exact Hin]. rewrite List.Forall_forall in Hsaid.
  apply text_inj; [now apply Hsaid|assumption| |assumption].
  intros x y Hx Hy. apply Hs; apply in_app_iff.
  - apply in_app_iff in Hx as [Hx|Hx]; [right; apply in_flat_map; eauto|now left].
  - apply in_app_iff in Hy as [Hy|Hy]; [right; apply in_flat_map; eauto|now left].
Qed.

(** ** Identifiers *)
Lemma hashes_inj : forall l1 l2, vec_ok hash_ok l1 -> vec_ok hash_ok l2 -> put_vector put_hash l1 = put_vector put_hash l2 -> l1 = l2.
Proof.
  intros l1 l2 [H1 B1] [H2 B2] E. unfold put_vector in E. apply u32_split in E as [El E]; [|exact B1|exact B2].
  apply Nnat.Nat2N.inj in El. clear B1 B2. revert l2 H2 El E.
  induction l1 as [|a l1 IH]; intros [|b l2] H2 El E; try discriminate El; [reflexivity|].
  apply List.Forall_cons_iff in H1 as [Ha H1]. apply List.Forall_cons_iff in H2 as [Hb H2]. cbn [flat_map] in E.
  unfold put_hash at 1 3 in E. apply hash_split in E as [-> E]; [|assumption|assumption]. f_equal. apply IH; auto.
Qed.
Lemma subject_text_inj : forall a b, subject_ok a -> subject_ok b -> subject_text a = subject_text b -> a = b.
Proof.
  intros a b Ha Hb E. destruct a, b; cbn [subject_ok subject_text put_public_key] in *; try (now tags).
  - strip E. unfold put_hash in E. congruence.
  - strip E. unfold put_hash in E. congruence.
  - strip E. now apply (whole _ _ _ _ _ _ bytes_reads Ha Hb) in E as ->.
  - strip E. destruct Ha, Hb. apply u32_split in E as [-> E]; [|assumption|assumption].
    apply u64_split in E as [_ E]; [|reflexivity|reflexivity]. congruence.
  - strip E. destruct Ha, Hb. apply hash_split in E as [-> E]; [|assumption|assumption].
    apply hashes_inj in E; [congruence|assumption|assumption].
  - strip E. now apply (whole _ _ _ _ _ _ dht_key_reads Ha Hb) in E as ->.
Qed.

Lemma same_subject : forall a b, subject_ok a -> subject_ok b -> separate P [subject_text a; subject_text b] ->
  identifier P a = identifier P b -> a = b.
Proof.
  intros a b Ha Hb Hs E. apply subject_text_inj; [assumption|assumption|]. apply Hs; [cbn; auto|cbn; auto|exact E].
Qed.
Lemma identifiers : forall key secret name workchain zero_state unique_hash nodes k,
  short_id P key = identifier P (SbNode key)
  /\ compute_channel_id P secret = identifier P (SbChannel secret)
  /\ overlay_short_id P name = identifier P (SbOverlay name)
  /\ workchain_overlay P workchain zero_state = identifier P (SbWorkchain workchain zero_state)
  /\ catchain_overlay P unique_hash nodes = identifier P (SbCatchain unique_hash nodes)
  /\ storage_key P k = identifier P (SbKey k).
Proof. intros. repeat split. Qed.

Lemma overlays_differ : forall a b,
  (match a with SbWorkchain _ _ | SbCatchain _ _ => True | _ => False end) ->
  subject_ok a -> subject_ok b ->
  separate P [subject_text a; subject_text b; subject_text (SbOverlay (identifier P a)); subject_text (SbOverlay (identifier P b))] ->
  overlay_short_id P (identifier P a) = overlay_short_id P (identifier P b) -> a = b.
Proof.
  intros a b _ Ha Hb Hs E.
  assert (Hlen : forall s, blob_ok (identifier P s)) by (intros s; unfold blob_ok; unfold identifier; rewrite (sha_len P HP); reflexivity).
  apply Hs in E; [|cbn; auto 10|cbn; auto 10].
  assert (E' : SbOverlay (identifier P a) = SbOverlay (identifier P b)) by (apply subject_text_inj; [apply Hlen|apply Hlen|exact E]).
  injection E' as E'. apply same_subject; [assumption|assumption| |assumption].
  intros x y Hx Hy. apply Hs; cbn in *; tauto.
Qed.

(** ** Where signatures are made and checked *)
Lemma verify_full_stated : forall key m sg, verify_full P key m sg = true -> verify P key m sg = true.
Proof. intros key m sg H. unfold verify_full in H. now apply andb_true_iff in H as [_ H]. Qed.
Lemma full_id_key : forall id key, full_id P id = Ok key -> id = PkEd25519 key.
Proof. intros id key H. destruct id; cbn in H; try discriminate. destruct (valid_pub P _); congruence. Qed.

Lemma member_checked : forall overlay n, verify_overlay_node P overlay n = true ->
  exists key, on_id n = PkEd25519 key
  /\ stated_by P key (StMember (identifier P (SbNode key)) overlay (on_version n)) (on_signature n).
Proof.
  intros overlay n H. unfold verify_overlay_node in H.
  destruct (bytes_eqb (on_overlay n) overlay) eqn:E; cbn [negb] in H; [|discriminate]. apply bytes_eqb_eq in E.
  destruct (full_id P (on_id n)) as [key|] eqn:Ek; [|discriminate]. exists key. split; [now apply full_id_key|].
  apply verify_full_stated in H. rewrite E in H. exact H.
Qed.
Lemma value_checked : forall v, check_signatures P v = Ok tt ->
  exists key, kd_id (dv_key v) = PkEd25519 key
  /\ stated_by P key (StKey (kd_key (dv_key v)) (kd_id (dv_key v)) (kd_rule (dv_key v))) (kd_signature (dv_key v))
  /\ stated_by P key (StValue (dv_key v) (dv_value v) (dv_ttl v)) (dv_signature v).
Proof.
  intros v H. unfold check_signatures in H. destruct (full_id P (kd_id (dv_key v))) as [key|] eqn:Ek; [|discriminate].
  destruct (verify_full P key (put_key_description_boxed _) _) eqn:E1; cbn [negb] in H; [|discriminate].
  destruct (verify_full P key (put_dht_value_boxed _) _) eqn:E2; cbn [negb] in H; [|discriminate].
  exists key. split; [now apply full_id_key|]. split; now apply verify_full_stated.
Qed.
Lemma address_checked : forall d now fresh n id d', add_dht_peer P d now fresh n = (Ok (Some id), d') ->
  exists key, dn_id n = PkEd25519 key /\ id = identifier P (SbNode key)
  /\ stated_by P key (StAddress (dn_id n) (dn_addr_list n) (dn_version n)) (dn_signature n).
Proof.
  intros d now fresh n id d' H. unfold add_dht_peer in H. destruct (full_id P (dn_id n)) as [key|] eqn:Ek; [|discriminate].
  destruct (verify_full P key _ _) eqn:E1; cbn [negb] in H; [|discriminate]. cbv zeta in H.
  exists key. split; [now apply full_id_key|]. split; [|now apply verify_full_stated].
  destruct (parse_address_list _ _ _); [|discriminate].
  destruct (add_peer _ _ _ _ _ _ _) as [[[|]|] adnl]; try discriminate.
  repeat match type of H with context [match ?x with _ => _ end] => destruct x end; inversion H; reflexivity.
Qed.
Lemma broadcast_checked : forall z b data from, genuine_broadcast P z b data from ->
  exists key, ob_src b = PkEd25519 key /\ from = identifier P (SbNode key)
  /\ stated_by P key (StBroadcast (source_field (ob_flags b) from) data (ob_date b)) (ob_signature b).
Proof. intros z b data from (key & Hk & Hf & _ & _ & _ & Hv). exists key. auto. Qed.
Lemma part_checked : forall b id from, genuine_packet P b id from ->
  exists key, bf_src b = PkEd25519 key /\ from = identifier P (SbNode key)
  /\ stated_by P key (StPart (source_field (bf_flags b) from) id (bf_data_size b) (bf_flags b) (bf_fec b) (bf_data b)
                        (bf_seqno b) (bf_date b)) (bf_signature b).
Proof. intros b id from (<- & key & Hk & Hf & _ & _ & Hv). exists key. auto. Qed.

Lemma set_nth_ok : forall i v l, bytes_ok l = true -> v < 256 -> bytes_ok (set_nth i v l) = true.
Proof.
  induction i as [|i IH]; intros v [|b l] H Hv; cbn [set_nth]; try assumption; apply bytes_ok_cons in H as [H1 H2]; apply bytes_ok_cons; auto.
Qed.
Lemma extract_ok : forall sg raw m s, bytes_ok raw = true -> extract sg raw = Some (m, s) -> bytes_ok m = true.
Proof.
  intros sg raw m s H E. unfold extract in E. destruct (_ && _)%bool; [|discriminate]. inversion E as [[E1 E2]]. clear E E1.
  assert (H1 : bytes_ok (set_nth (N.to_nat (ps_flags_offset sg + 1)) (N.land (nth (N.to_nat (ps_flags_offset sg + 1)) raw 0) 247) raw) = true).
  { apply set_nth_ok; [assumption|]. change 247 with (N.land 247 (N.ones 8)). rewrite N.land_assoc, N.land_ones. now apply N.mod_lt. }
  apply bytes_ok_firstn. apply bytes_ok_app. split; [now apply bytes_ok_firstn|]. apply bytes_ok_app.
  split; [now apply bytes_ok_firstn, bytes_ok_skipn|now apply bytes_ok_skipn].
Qed.
Lemma parsed_tag : forall m q, bytes_ok m = true -> parse_packet m = Some q -> exists contents, m = put_u32 id_packet_contents ++ contents.
Proof.
  intros m q Hm H. unfold parse_packet, deserialize in H. destruct (get_in_packet_at m m) as [[q0 rest]|] eqn:E; [|discriminate].
  rewrite get_in_packet_eq in E. unfold bind at 1 in E. destruct (get_u32 m) as [[c l0]|] eqn:E0; [|discriminate].
  destruct (c =? id_packet_contents) eqn:Ec; cbn [negb] in E; [|discriminate]. apply N.eqb_eq in Ec. subst c. exists l0.
  unfold get_u32, bind, take, ret in E0. destruct (Nat.leb 4 (length m)) eqn:E4; [|discriminate]. inversion E0 as [[E1 E2]].
  unfold put_u32. apply Nat.leb_le in E4.
  assert (Hl : le_bytes 4 (of_le (firstn 4 m)) = firstn 4 m).
  { rewrite <- (le_bytes_of_le (firstn 4 m)) at 2 by now apply bytes_ok_firstn. f_equal. rewrite firstn_length. lia. }
  rewrite Hl. symmetry. apply firstn_skipn.
Qed.
Lemma packet_checked : forall raw q sg key mandatory, bytes_ok raw = true -> N.of_nat (length raw) < 2 ^ 16 ->
  parse_packet raw = Some q -> ip_signature q = Some sg -> verify_packet P raw (ip_signature q) key mandatory = None ->
  exists contents, stated_by P key (StPacket contents) (ps_signature sg)
  /\ parse_packet (text P (StPacket contents)) = Some (without_signature q).
Proof.
  intros raw q sg key mandatory Hok Hl Hq Hsg H. destruct (signed_part raw q sg Hok Hl Hq Hsg) as (m & Hm & Hp).
  pose proof (extract_ok _ _ _ _ Hok Hm) as Hmok. destruct (parsed_tag m _ Hmok Hp) as [contents ->]. exists contents.
  rewrite Hsg in H. cbn [verify_packet] in H. rewrite Hm in H. destruct (verify P key _ _) eqn:E; [|discriminate]. split; [exact E|exact Hp].
Qed.

(** ** Signatures that are made *)
Lemma all_signed : forall secret,
  (forall p, exists contents, put_out_packet p = text P (StPacket contents))
  /\ (forall o now, on_signature (sign_overlay_node P o now) = sign P (ov_key o) (text P (StMember (ov_local_id P o) (ov_id o) now)))
  /\ (forall d now, let n := sign_local_node P d now in
       dn_signature n = sign P (d_key d) (text P (StAddress (dn_id n) (dn_addr_list n) (dn_version n))))
  /\ (forall id name idx data ttl, let v := sign_entry P secret id name idx data ttl in
       kd_signature (dv_key v) = sign P secret (text P (StKey (kd_key (dv_key v)) (kd_id (dv_key v)) (kd_rule (dv_key v))))
       /\ dv_signature v = sign P secret (text P (StValue (dv_key v) (dv_value v) (dv_ttl v))))
  /\ (forall z o data date, let b := own_broadcast P z o secret data date in
       ob_signature b = sign P secret (text P (StBroadcast (repeat 0 32) data date)))
  /\ (forall F id payload date esi, let b := own_fec_packet P F secret id payload date esi in
       bf_signature b = sign P secret (text P (StPart (repeat 0 32) (bf_data_hash b) (bf_data_size b) (bf_flags b) (bf_fec b)
                                                 (bf_data b) (bf_seqno b) date))).
Proof.
  intros secret. split; [|repeat split].
  intros p. eexists. reflexivity.
Qed.
End Facts.

(** ** What a broadcast does not say *)
Lemma replayed_elsewhere : forall P z checks F react ga gb id1 id2 ia ib secret data targets,
  prims_ok P -> zstd_ok z -> hash_ok id2 -> bytes_ok data = true -> N.of_nat (length data) < 2 ^ 32 ->
  gr_overlays ga !! id1 = Some ia -> gr_overlays gb !! id2 = Some ib ->
  let date := now_sec (in_broadcasts ia) in
  let packed := bo_compress (in_options ia) in
  let cb := setup_of P z checks F id2 ib in
  let bid := sha256 P (broadcast_claim P 1 [] data date) in
  N.of_nat (length (wire cb packed data)) < 2 ^ 24 ->
  (forall u, decompress z (wire cb packed data) = Some u -> u <> data ->
     ~ signed_by P (pub_of P secret) (broadcast_claim P 1 [] u date) (sign P secret (broadcast_claim P 1 [] data date))) ->
  br_owned (in_broadcasts ia) !! bid = None -> br_owned (in_broadcasts ib) !! bid = None ->
  timely cb (in_broadcasts ib) date ->
  exists ia' rest,
    gr_overlays (group_step P z checks F react ga (GoBroadcasts id1 (EvSend secret data targets))) !! id1 = Some ia'
    /\ br_sent (in_broadcasts ia') = br_sent (in_broadcasts ia) ++ [(targets, put_overlay_message id1 ++ rest)]
    /\ forall peer picks,
       let '(r, gb') := on_message P z checks gb peer id_overlay_message (put_overlay_message id2 ++ rest) picks in
       r = Ok true
       /\ exists ib', gr_overlays gb' !! id2 = Some ib'
          /\ br_delivered (in_broadcasts ib') = br_delivered (in_broadcasts ib) ++ [mk_delivery bid 1 data (node_id P (pub_of P secret))].
Proof.
  intros P z checks F react ga gb id1 id2 ia ib secret data targets HP Hz Hid Hd Hl Ha Hb date packed cb bid Hw Hu Hna Hnb Ht.
  destruct (OverlayNodeFacts.message_arrives P z checks F react (set_instance ga id2 ia) gb id2 ia ib secret data targets
    HP Hz Hid Hd Hl (lookup_insert _ _ _) Hb Hw Hu Hna Hnb Ht) as (i2 & m & H1 & H2 & _ & H3).
  assert (Hclaim : broadcast_to_sign P data date None = broadcast_claim P 1 [] data date) by reflexivity.
  assert (Hsent : forall id, br_sent (bc_step (setup_of P z checks F id ia) (in_broadcasts ia) (EvSend secret data targets))
    = br_sent (in_broadcasts ia) ++ [(targets, put_overlay_message id ++ put_broadcast (BBroadcast (own_broadcast P z (in_options ia) secret data date)))]).
  { intros id. cbn [in_broadcasts bc_step setup_of bs_prims bs_zstd bs_options bs_overlay]. unfold send_broadcast. cbv zeta. fold date.
    unfold create_broadcast, broadcast_id. rewrite Hclaim. fold bid. rewrite Hna. reflexivity. }
  assert (Hm : m = put_overlay_message id2 ++ put_broadcast (BBroadcast (own_broadcast P z (in_options ia) secret data date))).
  { cbn [group_step is_reception] in H1. unfold on_instance in H1.
    assert (Hg : gr_overlays (set_instance ga id2 ia) !! id2 = Some ia) by exact (lookup_insert _ _ _). rewrite Hg in H1.
    cbn in H1. rewrite lookup_insert in H1. inversion H1 as [E]. subst i2. cbn [in_broadcasts] in H2.
    pose proof (eq_trans (eq_sym (Hsent id2)) H2) as H4. apply app_inv_head in H4. congruence. }
  exists (mk_instance (in_peers ia) (in_options ia) (bc_step (setup_of P z checks F id1 ia) (in_broadcasts ia) (EvSend secret data targets))),
    (put_broadcast (BBroadcast (own_broadcast P z (in_options ia) secret data date))).
  split; [|split].
  - cbn [group_step is_reception]. unfold on_instance. rewrite Ha. cbn. now rewrite lookup_insert.
  - cbn [in_broadcasts]. apply Hsent.
  - intros peer picks. rewrite Hm in H3. specialize (H3 peer picks).
    destruct (on_message _ _ _ _ _ _ _ _) as [r gb']. destruct H3 as (H3 & H4 & _). auto.
Qed.
