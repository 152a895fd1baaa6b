From stdpp Require Import gmap.
From Coq Require Import NArith Lia.
From Coq Require Import ZifyBool ZifyNat ZifyN.
From Verif.Base Require Import Bytes BytesFacts Res.
From Verif.Model Require Import Crypto Tl ProtoAdnl Channel Peer Transfer AdnlNode.
From Verif.Spec Require Import Codec CryptoSpec TransferSpec NodeSpec.
From Verif.Proof Require Import TlFacts ProtoFacts TransferFacts SplitFacts.
Open Scope N_scope.

Lemma create_channel_transfers : forall P n l p k d c,
  n_transfers (snd (create_channel P n l p k d c)) = n_transfers n.
Proof.
  intros. unfold create_channel. destruct (n_peers n !! l) as [ps|]; [|reflexivity].
  destruct (ps !! p); [|reflexivity]. cbv zeta.
  destruct (match n_by_peer n !! p with Some _ => _ | None => None end) as [[oh ch]|]; [|reflexivity].
  destruct (is_still_valid ch k d); [destruct c|]; reflexivity.
Qed.

Lemma process_whole_transfers : forall P n l p m,
  n_transfers (snd (process_whole P n l p m)) = n_transfers n.
Proof.
  intros. destruct m; cbn [process_whole]; try reflexivity; destruct (valid_pub P _); try reflexivity.
  - pose proof (create_channel_transfers P n l p key date CtxConfirm) as H.
    destruct (create_channel _ _ _ _ _ _ _) as [[|] ?]; exact H.
  - pose proof (create_channel_transfers P n l p key date CtxCreate) as H.
    destruct (create_channel _ _ _ _ _ _ _) as [[|] ?]; exact H.
Qed.

Lemma process_message_transfers : forall P fuel n l p m,
  n_transfers (snd (process_message P fuel n l p m)) =
  match m with
  | MPart h t o d => snd (process_part P fuel (n_transfers n) h t o d)
  | _ => n_transfers n
  end.
Proof.
  intros. destruct m; cbn [process_message]; try apply process_whole_transfers.
  destruct (process_part P fuel (n_transfers n) hash total_size offset data) as [o ts].
  cbn [snd]. destruct o; try reflexivity.
  destruct (deserialize get_message message); [|reflexivity].
  rewrite process_whole_transfers. reflexivity.
Qed.

Lemma hear_transfers : forall P fuel l n,
  n_transfers (snd (hear P fuel n l)) = snd (arrive P fuel (n_transfers n) (parts_among l)).
Proof.
  induction l as [|x l IH]; intros n; [reflexivity|]. cbn [hear].
  pose proof (process_message_transfers P fuel n (hd_local x) (hd_peer x) (hd_message x)) as H.
  destruct (process_message _ _ _ _ _ _) as [o n']. cbn [snd] in H. specialize (IH n').
  destruct (hear P fuel n' l) as [os n'']. cbn [snd] in *. rewrite IH, H. clear.
  unfold parts_among. cbn [flat_map]. destruct (hd_message x); cbn [app]; try reflexivity.
  cbn [arrive pt_hash pt_total pt_offset pt_data].
  destruct (process_part _ _ _ _ _ _ _) as [o' ts']. cbn [snd].
  destruct (arrive P fuel ts' _). reflexivity.
Qed.

Lemma hear_app : forall P fuel a b n,
  hear P fuel n (a ++ b) = let '(oa, n1) := hear P fuel n a in let '(ob, n2) := hear P fuel n1 b in (oa ++ ob, n2).
Proof.
  induction a as [|x a IH]; intros b n; cbn [hear app].
  - destruct (hear P fuel n b). reflexivity.
  - destruct (process_message _ _ _ _ _ _) as [o n1]. rewrite IH.
    destruct (hear P fuel n1 a) as [oa n2]. destruct (hear P fuel n2 b). reflexivity.
Qed.

Lemma payload_processed : forall P n l p m d, delivered_as l p m = Some d ->
  process_whole P n l p m = (Ok [d], n).
Proof. intros P n l p m d H. destruct m; try discriminate; injection H as <-; reflexivity. Qed.

Lemma parts_delivered : forall P fuel n m d pieces before last local peer,
  message_ok m -> delivered_as local peer m = Some d ->
  message_of pieces = put_message m -> Forall (fun x => x <> []) pieces -> (length pieces <= fuel)%nat ->
  n_transfers n !! sha256 P (put_message m) = None ->
  completes P pieces (parts_among before) last ->
  exists results, fst (hear P fuel n (before ++ [mk_heard local peer (part_message last)]))
    = results ++ [Ok [d]].
Proof.
  intros P fuel n m d pieces before last local peer Hok Hd Hmsg Hne Hfuel Hnone Hc.
  rewrite <- Hmsg in Hnone.
  destruct (reassembled P fuel (n_transfers n) pieces (parts_among before) last Hne Hfuel Hnone Hc)
    as (os & H1 & _ & _).
  unfold outcomes in H1. rewrite arrive_app in H1.
  rewrite hear_app. pose proof (hear_transfers P fuel before n) as Ht.
  destruct (hear P fuel n before) as [oa n1]. cbn [snd] in Ht.
  destruct (arrive P fuel (n_transfers n) (parts_among before)) as [oa' ts1]. cbn [snd] in Ht. subst ts1.
  cbn [arrive] in H1. cbn [hear hd_local hd_peer hd_message part_message process_message].
  destruct (process_part P fuel (n_transfers n1) _ _ _ _) as [o ts2]. cbn [fst] in H1.
  apply app_inj_tail in H1 as [_ H1]. injection H1 as ->.
  rewrite Hmsg. unfold deserialize. rewrite <- (app_nil_r (put_message m)). rewrite message_reads by assumption.
  rewrite (payload_processed P _ local peer m d Hd). exists oa. reflexivity.
Qed.

Lemma split_reassembled : forall P, prims_ok P -> forall x m size, message_ok m -> message_size m = Some size ->
  Forall message_ok (extra_messages x) -> len (put_message m) <= longest x ->
  exists packets contents, plan P (extra_arg x) m size = Some packets /\ Forall2 carries packets contents
  /\ (concat contents = extra_messages x ++ [m]
      \/ exists pieces, message_of pieces = put_message m /\ Forall (fun d => d <> []) pieces
         /\ concat contents = extra_messages x ++ map part_message (parts_of P pieces)).
Proof.
  intros P HP x m size Hok Hsz Hx Hle.
  destruct (N.le_gt_cases (match extra_arg x with Some (s, _) => s | None => 0 end + size) 1024) as [H|H].
  - destruct (plan_single P x m size Hok Hx H) as (packet & E1 & E2).
    exists [packet], [extra_messages x ++ [m]]. split; [assumption|]. split; [constructor; [assumption|constructor]|].
    left. cbn [concat]. apply app_nil_r.
  - destruct (split_carries P HP x m size Hok Hsz Hx ltac:(lia)) as (packets & contents & parts & E1 & E2 & E3 & _ & _ & E6 & _).
    exists packets, contents. split; [assumption|]. split; [assumption|]. right.
    destruct (E6 Hle) as (pieces & F1 & F2 & F3). exists pieces. rewrite <- F3. auto.
Qed.

Lemma long_never_arrives : forall P, prims_ok P -> forall x m size, message_ok m -> message_size m = Some size ->
  Forall message_ok (extra_messages x) -> longest x < len (put_message m) ->
  exists packets contents parts, plan P (extra_arg x) m size = Some packets /\ Forall2 carries packets contents
  /\ concat contents = extra_messages x ++ map part_message parts
  /\ forall fuel ts arrived,
     ts !! sha256 P (put_message m) = None ->
     (forall p, In p arrived -> pt_hash p = sha256 P (put_message m) -> In p parts) ->
     forall p o, In (p, o) (outcomes P fuel ts arrived) -> pt_hash p = sha256 P (put_message m) -> o = Pending.
Proof.
  intros P HP x m size Hok Hsz Hx Hgt. pose proof (estimate m size Hok Hsz) as [He _].
  assert (H : match extra_arg x with Some (s, _) => s | None => 0 end + size > 1024).
  { destruct x; cbn [extra_arg longest] in *; lia. }
  destruct (split_carries P HP x m size Hok Hsz Hx H) as (packets & contents & parts & E1 & E2 & E3 & E4 & E5 & _ & E7).
  exists packets, contents, parts. split; [assumption|]. split; [assumption|]. split; [assumption|].
  intros fuel ts arrived Hts Harr. eapply never_enough with (l := parts) (total := len (put_message m)); eauto.
  unfold own. rewrite Hts. apply short_new.
Qed.

Lemma split_always_ends : forall P, prims_ok P -> forall x m size, message_ok m -> message_size m = Some size ->
  Forall message_ok (extra_messages x) -> exists packets, plan P (extra_arg x) m size = Some packets.
Proof.
  intros P HP x m size Hok Hsz Hx. destruct (N.le_gt_cases (len (put_message m)) (longest x)) as [H|H].
  - destruct (split_reassembled P HP x m size Hok Hsz Hx H) as (packets & _ & E & _). eauto.
  - destruct (long_never_arrives P HP x m size Hok Hsz Hx H) as (packets & _ & _ & E & _). eauto.
Qed.

(** A part at an offset that is already there. *)
Lemma repeated_part : forall P fuel t o d i d0, t_parts t !! o = Some d0 ->
  fst (add_part P fuel t o d i) = Pending
  /\ t_received (snd (add_part P fuel t o d i)) = t_received t
  /\ t_total (snd (add_part P fuel t o d i)) = t_total t
  /\ (forall o', o' <> o -> t_parts (snd (add_part P fuel t o d i)) !! o' = t_parts t !! o')
  /\ (d = d0 -> snd (add_part P fuel t o d i) = t).
Proof.
  intros P fuel t o d i d0 H. unfold add_part. rewrite H. cbn [fst snd t_received t_total t_parts].
  repeat split.
  - intros o' Ho. apply lookup_insert_ne. congruence.
  - intros ->. destruct t as [ps r tot]. cbn [t_parts t_received t_total] in *. f_equal. now apply insert_id.
Qed.

(** The endless loop: an empty part at offset 0. *)
Lemma combine_spins : forall fuel (parts : gmap N bytes) total buffer, parts !! 0 = Some ([] : bytes) -> 0 < total ->
  combine fuel parts total 0 buffer = CSpinning.
Proof.
  induction fuel as [|fuel IH]; intros parts total buffer H Ht; cbn [combine];
    (replace (0 <? total) with true by (symmetry; now apply N.ltb_lt)); [reflexivity|].
  rewrite H. apply IH; assumption.
Qed.

Lemma endless : forall P fuel,
  In (mk_part [9] 5 1 [1; 2; 3; 4; 5], Spinning)
     (outcomes P fuel ∅ [mk_part [9] 5 0 []; mk_part [9] 5 1 [1; 2; 3; 4; 5]]).
Proof.
  intros P fuel. unfold outcomes. cbn [arrive]. unfold process_part at 1.
  cbn [pt_hash pt_total pt_offset pt_data]. rewrite lookup_empty. unfold add_part at 1.
  cbn [transfer_new t_parts t_received t_total]. rewrite lookup_empty. cbv zeta.
  change (0 + len [] =? 5) with false. change (0 + len [] ?= 5) with Lt. cbv iota.
  unfold process_part at 1. rewrite lookup_insert. unfold add_part at 1. cbn [t_parts t_received t_total].
  rewrite lookup_insert_ne by discriminate. rewrite lookup_empty. cbv zeta.
  change (0 + len [] + len [1; 2; 3; 4; 5] ?= 5) with Eq. cbv iota.
  rewrite combine_spins; [|rewrite lookup_insert_ne by discriminate; apply lookup_insert|reflexivity].
  cbn [fst]. right. left. reflexivity.
Qed.

Lemma overwrite_loses :
  In (mk_part (sha256 toy [1; 2; 3]) 3 2 [3], Whole [1; 2; 3])
     (outcomes toy 10 ∅ ([mk_part (sha256 toy [1; 2; 3]) 3 0 [1; 2]] ++ [mk_part (sha256 toy [1; 2; 3]) 3 2 [3]]))
  /\ In (mk_part (sha256 toy [1; 2; 3]) 3 2 [3], Failed InvalidHash)
     (outcomes toy 10 ∅ ([mk_part (sha256 toy [1; 2; 3]) 3 0 [1; 2]; mk_part (sha256 toy [1; 2; 3]) 3 0 [8; 8]]
        ++ [mk_part (sha256 toy [1; 2; 3]) 3 2 [3]])).
Proof. vm_compute. auto. Qed.
