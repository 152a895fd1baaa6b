From stdpp Require Import gmap.
From Coq Require Import NArith Lia Permutation ZifyBool ZifyNat ZifyN.
From Verif.Base Require Import Bytes BytesFacts Res.
From Verif.Model Require Import Crypto Tl Scheme ProtoAdnl ProtoRldp ProtoOverlay AdnlNode History PeersSet
  Compression Fec DhtStorage Broadcast.
From Verif.Spec Require Import CryptoSpec DhtSpec OverlaySpec BroadcastSpec.
Open Scope N_scope.

(** ** Lists *)
Lemma nth_error_split' : forall {A} (l : list A) i x, nth_error l i = Some x ->
  l = firstn i l ++ x :: skipn (S i) l.
Proof.
  induction l as [|a l IH]; intros [|i] x H; try discriminate; cbn in H.
  - injection H as ->. reflexivity.
  - cbn [firstn skipn app]. f_equal. now apply IH.
Qed.

Lemma remove_nth_perm : forall {A} (l : list A) i x, nth_error l i = Some x -> Permutation l (x :: remove_nth l i).
Proof.
  intros A l i x H. unfold remove_nth. rewrite (nth_error_split' l i x H) at 1.
  symmetry. apply Permutation_middle.
Qed.

Lemma update_task_nth : forall l i f t j, nth_error l i = Some t ->
  nth_error (update_task l i f) j = if Nat.eqb j i then Some (f t) else nth_error l j.
Proof.
  intros l i f t j H. unfold update_task. rewrite H. revert i j H.
  induction l as [|a l IH]; intros [|i] [|j] H; try discriminate; cbn in H.
  - injection H as ->. reflexivity.
  - cbn. destruct l; reflexivity.
  - reflexivity.
  - cbn [firstn skipn app nth_error Nat.eqb]. now apply IH.
Qed.

Lemma update_task_in : forall l i f t x, nth_error l i = Some t -> In x (update_task l i f) ->
  x = f t \/ In x l.
Proof.
  intros l i f t x H Hin. unfold update_task in Hin. rewrite H in Hin.
  apply in_app_or in Hin as [Hin|[Hin|Hin]].
  - right. rewrite <- (firstn_skipn i l). apply in_or_app. now left.
  - now left.
  - right. rewrite <- (firstn_skipn (S i) l). apply in_or_app. now right.
Qed.

Lemma update_task_length : forall l i f, length (update_task l i f) = length l.
Proof.
  intros l i f. unfold update_task. destruct (nth_error l i) as [t|] eqn:E; [|reflexivity].
  rewrite (nth_error_split' l i t E) at 3. now rewrite !app_length.
Qed.

(** ** The bytes signed *)
Lemma any_sender_odd : forall flags, is_any_sender flags = anonymous flags.
Proof.
  intros flags. unfold is_any_sender, anonymous, any_sender. rewrite <- N.bit0_odd.
  destruct flags as [|[p|p|]]; reflexivity.
Qed.

Lemma claim_broadcast : forall P flags from data date,
  broadcast_to_sign P data date (if is_any_sender flags then None else Some from)
  = broadcast_claim P flags from data date.
Proof.
  intros. unfold broadcast_to_sign, broadcast_claim, put_to_sign, put_hash, source_field. rewrite any_sender_odd.
  now destruct (anonymous flags).
Qed.

Lemma verify_signed : forall P k key m sg, full_id P k = Ok key -> verify_full P key m sg = true ->
  k = PkEd25519 key /\ signed_by P key m sg.
Proof.
  intros P k key m sg Hf Hv. unfold full_id in Hf. destruct k; try discriminate.
  destruct (valid_pub P key0) eqn:E; [|discriminate]. injection Hf as ->. split; [reflexivity|].
  unfold verify_full in Hv. apply andb_true_iff in Hv as [Hl Hv]. apply Nat.eqb_eq in Hl. now split.
Qed.

Lemma full_id_key : forall P k key, full_id P k = Ok key -> k = PkEd25519 key /\ valid_pub P key = true.
Proof.
  intros P k key Hf. unfold full_id in Hf. destruct k; try discriminate.
  destruct (valid_pub P key0) eqn:E; [|discriminate]. now injection Hf as ->.
Qed.

Lemma not_outdated : forall checks date timeout now, outdated checks date timeout now = Some false ->
  now <= date + timeout.
Proof.
  intros checks date timeout now H. unfold outdated in H.
  assert (Hm : timeout mod 2 ^ 32 <= timeout) by (apply N.mod_le; discriminate).
  destruct (_ <? 2 ^ 32).
  - injection H as H. apply N.ltb_ge in H. lia.
  - destruct checks; [discriminate|]. injection H as H. apply N.ltb_ge in H.
    assert ((date + timeout mod 2 ^ 32) mod 2 ^ 32 <= date + timeout mod 2 ^ 32) by (apply N.mod_le; discriminate). lia.
Qed.

(** ** What a step does *)
Definition accepted_state (o : bc_options) (e : bc_env) (s : bstate) (peer raw id data from : bytes) : bstate :=
  mk_bstate (br_clock s) (<[id := Other]> (br_owned s)) (br_tasks s)
    (br_timers s ++ [Removal id (br_clock s + bo_timeout o * 1000)]) (br_pending s) (br_finished s) (br_count s)
    (br_collector s) (br_delivered s ++ [mk_delivery id 1 data from])
    (br_sent s ++ [(get_random_peers (be_neighbours e) (bo_secondary o) (Some peer) (be_picks e), raw)]).

Lemma accept_cases : forall o e s peer raw id data from,
  accept_broadcast o e s peer raw id data from = s
  \/ (br_owned s !! id = None /\ accept_broadcast o e s peer raw id data from = accepted_state o e s peer raw id data from).
Proof.
  intros. unfold accept_broadcast, create_broadcast. destruct (br_owned s !! id); [now left|right]. now split.
Qed.

Lemma receive_broadcast_cases : forall P z checks o e s peer raw b,
  let s' := snd (receive_broadcast P z checks o e s peer raw b) in
  s' = s
  \/ exists data from,
       let id := sha256 P (broadcast_claim P (ob_flags b) from data (ob_date b)) in
       genuine_broadcast P z b data from /\ now_sec s <= ob_date b + bo_timeout o
       /\ outdated checks (ob_date b) (bo_timeout o) (now_sec s) = Some false
       /\ In id (broadcast_ids P z b)
       /\ br_owned s !! id = None /\ s' = accepted_state o e s peer raw id data from.
Proof.
  intros P z checks o e s peer raw b. cbv zeta. unfold receive_broadcast.
  destruct (outdated checks (ob_date b) (bo_timeout o) (now_sec s)) as [[]|] eqn:Eo; [now left| |now left].
  pose proof (not_outdated _ _ _ _ Eo) as Ht.
  destruct (full_id P (ob_src b)) as [key|er] eqn:Ef; [|now left].
  set (from := short_id P key). set (source := if is_any_sender (ob_flags b) then None else Some from).
  assert (Hraw : forall x, snd (if verify_full P key (broadcast_to_sign P (ob_data b) (ob_date b) source) (ob_signature b)
              then (Done, accept_broadcast o e s peer raw (broadcast_id P (broadcast_to_sign P (ob_data b) (ob_date b) source)) (ob_data b) from)
              else (x, s)) = s \/ exists data from0,
       let id := sha256 P (broadcast_claim P (ob_flags b) from0 data (ob_date b)) in
       genuine_broadcast P z b data from0 /\ now_sec s <= ob_date b + bo_timeout o
       /\ Some false = Some false
       /\ In id (broadcast_ids P z b)
       /\ br_owned s !! id = None /\
       snd (if verify_full P key (broadcast_to_sign P (ob_data b) (ob_date b) source) (ob_signature b)
              then (Done, accept_broadcast o e s peer raw (broadcast_id P (broadcast_to_sign P (ob_data b) (ob_date b) source)) (ob_data b) from)
              else (x, s)) = accepted_state o e s peer raw id data from0).
  { intros x. destruct (verify_full P key _ (ob_signature b)) eqn:Ev; [|now left].
    unfold source in *. rewrite claim_broadcast in *. cbn [snd].
    destruct (verify_signed P _ _ _ _ Ef Ev) as [Hk Hs].
    destruct (accept_cases o e s peer raw (broadcast_id P (broadcast_claim P (ob_flags b) from (ob_data b) (ob_date b))) (ob_data b) from) as [->|[Hn ->]]; [now left|right].
    exists (ob_data b), from. cbv zeta. split; [|split; [exact Ht|split; [reflexivity|split; [|split; [exact Hn|reflexivity]]]]].
    - exists key. split; [exact Hk|]. split; [reflexivity|]. split; [now left|exact Hs].
    - unfold broadcast_ids. rewrite Hk. now left. }
  destruct (decompress z (ob_data b)) as [d|] eqn:Ed; [|apply Hraw].
  destruct (verify_full P key (broadcast_to_sign P d (ob_date b) source) (ob_signature b)) eqn:Ev; [|apply Hraw].
  unfold source in *. rewrite claim_broadcast in *. cbn [snd]. destruct (verify_signed P _ _ _ _ Ef Ev) as [Hk Hs].
  destruct (accept_cases o e s peer raw (broadcast_id P (broadcast_claim P (ob_flags b) from d (ob_date b))) d from) as [->|[Hn ->]]; [now left|right].
  exists d, from. cbv zeta. split; [|split; [exact Ht|split; [reflexivity|split; [|split; [exact Hn|reflexivity]]]]].
  - exists key. split; [exact Hk|]. split; [reflexivity|]. split; [now right|exact Hs].
  - unfold broadcast_ids. rewrite Hk, Ed. right. now left.
Qed.

(** The state after the entry was found or created. *)
Definition with_entry (o : bc_options) (s : bstate) (params : fec_type) (id source : bytes) : bstate :=
  match br_owned s !! id with None => spawn_fec_receiver o s params id source | Some _ => s end.

Definition same_transfer (t t' : incoming) : Prop :=
  ic_task t' = ic_task t /\ ic_completed t' = ic_completed t /\ ic_source t' = ic_source t /\ ic_started t' = ic_started t.

Definition packet_of (key : bytes) (b : ov_broadcast_fec) : fec_packet :=
  mk_fec_packet key (bf_data_hash b) (bf_data_size b) (bf_flags b) (bf_data b) (bf_seqno b) (bf_fec b)
    (bf_date b) (bf_signature b).

Lemma receive_fec_cases : forall P checks o e s peer raw b,
  let s' := snd (receive_fec P checks o e s peer raw b) in
  s' = s
  \/ exists key,
       bf_src b = PkEd25519 key /\ valid_pub P key = true /\ length (bf_signature b) = 64%nat
       /\ now_sec s <= bf_date b + bo_timeout o
       /\ outdated checks (bf_date b) (bo_timeout o) (now_sec s) = Some false
       /\ let id := bf_data_hash b in
          let s1 := with_entry o s (bf_fec b) id (node_id P key) in
          (s' = s1 /\ br_owned s1 !! id = Some Other)
          \/ exists t t', br_owned s1 !! id = Some (Incoming t) /\ same_transfer t t'
             /\ ((s' = set_owned s1 (<[id := Incoming t']> (br_owned s1))
                  /\ (ic_history t' = ic_history t \/ exists h, deliver checks (ic_history t) (bf_seqno b) = (Accepted, h) /\ ic_history t' = h
                        /\ ic_completed t = false
                        /\ forall task, nth_error (br_tasks s1) (ic_task t) = Some task -> tk_phase task = Finished)
                  /\ (ic_source t = node_id P key -> ic_history t' = ic_history t ->
                      fst (deliver checks (ic_history t) (bf_seqno b)) <> Accepted \/ ic_completed t = false /\ forall task, nth_error (br_tasks s1) (ic_task t) = Some task -> tk_phase task = Finished))
                 \/ (ic_source t = node_id P key
                     /\ deliver checks (ic_history t) (bf_seqno b) = (Accepted, ic_history t')
                     /\ exists targets, targets = get_random_peers (be_neighbours e) (bo_secondary_fec o) (Some peer) (be_picks e)
                        /\ ((ic_completed t = true
                             /\ s' = distribute (set_owned s1 (<[id := Incoming t']> (br_owned s1))) targets raw)
                            \/ (ic_completed t = false /\ exists task, nth_error (br_tasks s1) (ic_task t) = Some task /\ tk_phase task <> Finished
                                /\ s' = distribute (set_tasks (set_owned s1 (<[id := Incoming t']> (br_owned s1)))
                                                      (update_task (br_tasks s1) (ic_task t) (push_packet (packet_of key b)))) targets raw)))).
Proof.
  intros P checks o e s peer raw b. cbv zeta. unfold receive_fec.
  destruct (outdated checks (bf_date b) (bo_timeout o) (now_sec s)) as [[]|] eqn:Eo; [now left| |now left].
  pose proof (not_outdated _ _ _ _ Eo) as Ht.
  destruct (full_id P (bf_src b)) as [key|er] eqn:Ef; [|now left].
  destruct (full_id_key _ _ _ Ef) as [Hk Hvalid].
  destruct (Nat.eqb_spec (length (bf_signature b)) 64) as [Hlen|Hlen]; cbn [negb]; [|now left].
  right. exists key. split; [exact Hk|]. split; [exact Hvalid|]. split; [exact Hlen|]. split; [exact Ht|]. split; [reflexivity|].
  change (short_id P key) with (node_id P key).
  set (s1 := with_entry o s (bf_fec b) (bf_data_hash b) (node_id P key)).
  change (match br_owned s !! bf_data_hash b with
          | Some _ => s
          | None => spawn_fec_receiver o s (bf_fec b) (bf_data_hash b) (node_id P key)
          end) with s1.
  destruct (br_owned s1 !! bf_data_hash b) as [[|t]|] eqn:E1.
  - left. auto.
  - right.
    set (t0 := mk_incoming (ic_task t) (ic_completed t) (ic_history t) (ic_source t) (ic_started t)
                 ((br_clock s1 - ic_started t) / 1000)).
    set (t1 := fun h => mk_incoming (ic_task t) (ic_completed t) h (ic_source t) (ic_started t)
                 ((br_clock s1 - ic_started t) / 1000)).
    destruct (bytes_eqb (ic_source t) (node_id P key)) eqn:Es; cbn [negb].
    + apply bytes_eqb_eq in Es. destruct (deliver checks (ic_history t) (bf_seqno b)) as [out h] eqn:Ed.
      destruct out; cbn [snd].
      * destruct (ic_completed t) eqn:Ec.
        { exists t, (t1 h). split; [reflexivity|]. split; [|right; split; [exact Es|split; [exact Ed|]]].
          2:{ eexists. split; [reflexivity|]. left. split; [exact Ec|].
              unfold set_owned. cbn [br_owned]. rewrite insert_insert. cbn [snd]. reflexivity. }
          repeat split; cbn; congruence. }
        cbn [set_owned br_tasks]. destruct (nth_error (br_tasks s1) (ic_task t)) as [task|] eqn:Et.
        { destruct (tk_phase task) eqn:Ep.
          - exists t, (t1 h). split; [reflexivity|]. split; [|right; split; [exact Es|split; [exact Ed|]]].
            2:{ eexists. split; [reflexivity|]. right. split; [exact Ec|]. exists task. split; [exact Et|]. split; [congruence|].
                unfold set_owned, set_tasks. cbn [br_owned br_tasks br_clock br_timers br_pending br_finished br_count br_collector br_delivered br_sent].
                rewrite insert_insert. reflexivity. }
            repeat split; cbn; congruence.
          - exists t, (t1 h). split; [reflexivity|]. split; [|right; split; [exact Es|split; [exact Ed|]]].
            2:{ eexists. split; [reflexivity|]. right. split; [exact Ec|]. exists task. split; [exact Et|]. split; [congruence|].
                unfold set_owned, set_tasks. cbn [br_owned br_tasks br_clock br_timers br_pending br_finished br_count br_collector br_delivered br_sent].
                rewrite insert_insert. reflexivity. }
            repeat split; cbn; congruence.
          - exists t, (t1 h). split; [reflexivity|]. split; [|left].
            2:{ unfold set_owned. cbn [br_owned snd]. rewrite insert_insert. split; [reflexivity|]. cbn [ic_history]. split.
                - right. exists h. split; [exact Ed|]. split; [reflexivity|]. split; [exact Ec|]. intros task' Ht'. congruence.
                - intros _ _. right. split; [exact Ec|]. intros task' Ht'. congruence. }
            repeat split; cbn; congruence. }
        { exists t, (t1 h). split; [reflexivity|]. split; [|left].
            2:{ unfold set_owned. cbn [br_owned snd]. rewrite insert_insert. split; [reflexivity|]. cbn [ic_history]. split.
                - right. exists h. split; [exact Ed|]. split; [reflexivity|]. split; [exact Ec|]. intros task' Ht'. congruence.
                - intros _ _. right. split; [exact Ec|]. intros task' Ht'. congruence. }
            repeat split; cbn; congruence. }
      * exists t, t0. split; [reflexivity|]. split; [|left; split; [reflexivity|]].
        2:{ cbn [ic_history]. split; [now left|]. intros _ _. left. rewrite Ed. cbn [fst]. congruence. }
        repeat split; cbn; congruence.
      * exists t, t0. split; [reflexivity|]. split; [|left; split; [reflexivity|]].
        2:{ cbn [ic_history]. split; [now left|]. intros _ _. left. rewrite Ed. cbn [fst]. congruence. }
        repeat split; cbn; congruence.
    + exists t, t0. split; [reflexivity|]. split; [|left; split; [reflexivity|]].
      2:{ cbn [ic_history]. split; [now left|]. intros Hx. rewrite Hx, bytes_eqb_refl in Es. discriminate. }
      repeat split; cbn; congruence.
  - exfalso. unfold s1, with_entry in E1. destruct (br_owned s !! bf_data_hash b) eqn:E2; [congruence|].
    unfold spawn_fec_receiver in E1. cbn [set_timers set_tasks set_owned br_owned] in E1. rewrite lookup_insert in E1. discriminate.
Qed.

Lemma send_broadcast_cases : forall P z o overlay secret s data targets,
  let s' := snd (send_broadcast P z o overlay secret s data targets) in
  let id := sha256 P (broadcast_claim P 1 [] data (now_sec s)) in
  s' = s \/ (br_owned s !! id = None
             /\ exists m, s' = mk_bstate (br_clock s) (<[id := Other]> (br_owned s)) (br_tasks s)
                 (br_timers s ++ [Removal id (br_clock s + bo_timeout o * 1000)]) (br_pending s) (br_finished s)
                 (br_count s) (br_collector s) (br_delivered s) (br_sent s ++ [(targets, m)])).
Proof.
  intros P z o overlay secret s data targets. cbv zeta. unfold send_broadcast, create_broadcast. cbv zeta.
  assert (He : broadcast_to_sign P data (now_sec s) None = broadcast_claim P 1 [] data (now_sec s)) by reflexivity.
  rewrite He. unfold broadcast_id. destruct (br_owned s !! _) eqn:E; [now left|right].
  split; [reflexivity|]. eexists. reflexivity.
Qed.

Lemma send_fec_cases : forall P z o overlay secret s data targets,
  let s' := snd (send_fec_broadcast P z o overlay secret s data targets) in
  let id := sha256 P data in
  s' = s \/ (br_owned s !! id = None
             /\ s' = mk_bstate (br_clock s) (<[id := Other]> (br_owned s)) (br_tasks s)
                 (br_timers s ++ [Removal id (br_clock s + bo_timeout o * 1000)]) (br_pending s) (br_finished s)
                 (br_count s) (br_collector s) (br_delivered s) (br_sent s)).
Proof.
  intros P z o overlay secret s data targets. cbv zeta. unfold send_fec_broadcast, create_broadcast. cbv zeta. destruct (br_owned s !! _) eqn:E; [now left|right].
  split; reflexivity.
Qed.

(** What a task step changes: one task, one delivery at most, the completed flag of one entry. *)
Lemma task_step_cases : forall P z F s i,
  let s' := task_step P z F s i in
  s' = s
  \/ exists t, nth_error (br_tasks s) i = Some t
     /\ ((tk_phase t = Running /\ exists p rest r d,
            tk_queue t = p :: rest /\ process_fec P z F (tk_decoder t) p = (r, d)
            /\ ((r = Ok None /\ s' = set_tasks s (update_task (br_tasks s) i (fun t => mk_fec_task (tk_id t) (tk_source t) rest d (tk_packets t + 1) Running)))
                \/ (exists data, r = Ok (Some data)
                    /\ s' = deliver_data (set_tasks s (update_task (br_tasks s) i (fun t => mk_fec_task (tk_id t) (tk_source t) rest d (tk_packets t + 1) Marking)))
                              (mk_delivery (tk_id t) (tk_packets t + 1) data (tk_source t)))
                \/ (r = Err tt /\ s' = set_tasks s (update_task (br_tasks s) i (fun t => mk_fec_task (tk_id t) (tk_source t) rest d (tk_packets t + 1) Marking)))))
         \/ (tk_phase t = Running /\ tk_queue t = []
             /\ s' = set_tasks s (update_task (br_tasks s) i (fun t => mk_fec_task (tk_id t) (tk_source t) [] (tk_decoder t) (tk_packets t) Marking))
             /\ (forall id x, br_owned s !! id = Some (Incoming x) -> ic_task x <> i))
         \/ (tk_phase t = Marking
             /\ exists m, s' = set_tasks (set_owned s m) (update_task (br_tasks s) i (fun t => mk_fec_task (tk_id t) (tk_source t) (tk_queue t) (tk_decoder t) (tk_packets t) Finished))
                /\ (m = br_owned s
                    \/ exists c, br_owned s !! tk_id t = Some (Incoming c)
                       /\ m = <[tk_id t := Incoming (mk_incoming (ic_task c) true (ic_history c) (ic_source c) (ic_started c) (ic_updated c))]> (br_owned s)))).
Proof.
  intros P z F s i. cbv zeta. unfold task_step. destruct (nth_error (br_tasks s) i) as [t|] eqn:Et; [|now left].
  destruct (tk_phase t) eqn:Ep; [| |now left].
  - destruct (tk_queue t) as [|p rest] eqn:Eq.
    + destruct (existsb _ _) eqn:Ex; [now left|right]. exists t. split; [reflexivity|]. right. left.
      split; [exact Ep|]. split; [exact Eq|]. split; [reflexivity|]. intros id x Hx He.
      assert (existsb (fun kv : bytes * owned => holds_sender i (snd kv)) (map_to_list (br_owned s)) = true); [|congruence].
      apply existsb_exists. exists (id, Incoming x). split; [apply elem_of_list_In, elem_of_map_to_list, Hx|].
      cbn. now apply Nat.eqb_eq.
    + right. exists t. split; [reflexivity|]. left. split; [exact Ep|].
      destruct (process_fec P z F (tk_decoder t) p) as [r d] eqn:Epf. exists p, rest, r, d. split; [exact Eq|]. split; [exact Epf|].
      assert (Hup : forall f g, f t = g t -> update_task (br_tasks s) i f = update_task (br_tasks s) i g).
      { intros f g Hfg. unfold update_task. now rewrite Et, Hfg. }
      destruct r as [[data|]|[]].
      * right. left. exists data. split; [reflexivity|]. f_equal. unfold set_tasks. f_equal. now apply Hup.
      * left. split; [reflexivity|]. unfold set_tasks. f_equal. now apply Hup.
      * right. right. split; [reflexivity|]. unfold set_tasks. f_equal. now apply Hup.
  - right. exists t. split; [reflexivity|]. right. right. split; [exact Ep|].
    destruct (br_owned s !! tk_id t) as [[|c]|] eqn:Eo.
    + exists (br_owned s). split; [|now left]. now destruct s.
    + eexists. split; [reflexivity|]. right. exists c. split; reflexivity.
    + exists (br_owned s). split; [|now left]. now destruct s.
Qed.
