(** C13-C17, C24: peer sets, keystore, pending queries, subscribers. *)
From stdpp Require Import gmap.
From Coq Require Import NArith Permutation.
From Verif.Base Require Import Bytes Res.
From Verif.Model Require Import Crypto Tl Scheme ProtoAdnl PeersSet Keystore Queries Subscribers.
From Verif.Spec Require Import Codec CryptoSpec PeersSetSpec KeystoreSpec QueriesSpec SubscribersSpec.
From Verif.Proof Require PeersSetFacts KeystoreFacts QueryFacts SubscriberFacts.

(** C13: a peer set is the queue of the last [capacity] new peers: same answers, same members. *)
Theorem c13_fifo : forall c init l,
  let cap := Nat.max 1 c in
  let '(answers, s) := ps_inserts (with_peers_and_capacity init c) l in
  let '(answers', q) := fifo_adds cap (firstn cap (distinct [] init)) l in
  answers = answers' /\ Permutation (ps_members s) q /\ List.NoDup (ps_members s)
  /\ (forall p : bytes, ps_contains s p = member p q)
  /\ ps_len s = length q /\ (length q <= cap)%nat /\ ps_is_full s = (cap <=? length q)%nat
  /\ ps_version s = N.of_nat (length (accepted l answers))
  /\ q = last_n cap (firstn cap (distinct [] init) ++ accepted l answers).
Proof. exact PeersSetFacts.set_is_queue. Qed.
Print Assumptions c13_fifo.

Example c13_fifo_example :
  let '(answers, s) := ps_inserts (with_peers_and_capacity [[1]; [1]; [2]] 3) [[2]; [3]; [4]; [5]; [4]; [1]] in
  answers = [false; true; true; true; false; true] /\ ps_members s = [[4]; [5]; [1]] /\ ps_version s = 4%N.
Proof. vm_compute. repeat split. Qed.

(** C13: insertion reports whether the peer was absent, and afterwards it is present. *)
Theorem c13_insert : forall c init l (p : bytes),
  let s := snd (ps_inserts (with_peers_and_capacity init c) l) in
  fst (ps_insert s p) = negb (ps_contains s p) /\ ps_contains (snd (ps_insert s p)) p = true.
Proof. exact PeersSetFacts.insert_reports. Qed.
Print Assumptions c13_insert.

Example c13_insert_example :
  let s := snd (ps_inserts (with_peers_and_capacity [[1]; [2]] 2) [[3]]) in
  fst (ps_insert s [1]) = true /\ fst (ps_insert s [3]) = false.
Proof. vm_compute. split; reflexivity. Qed.

(** C14: a random selection, for every random choice of positions.  (With [amount] = u32::MAX and an
    exception the code overflows.) *)
Theorem c14_selection : forall c init l amount (except : option bytes) picks,
  let s := snd (ps_inserts (with_peers_and_capacity init c) l) in
  (amount + 1 < 2 ^ 32)%N ->
  sample_of (ps_len s) (N.to_nat (picks_wanted amount except)) picks ->
  let r := get_random_peers s amount except picks in
  let without := match except with Some e => [e] | None => [] end in
  List.NoDup r /\ (forall p : bytes, In p r -> In p (ps_members s) /\ ~ In p without)
  /\ length r = Nat.min (N.to_nat amount) (length (eligible without (ps_members s))).
Proof. exact PeersSetFacts.random_selection. Qed.
Print Assumptions c14_selection.

Example c14_selection_example :
  let s := snd (ps_inserts (with_peers_and_capacity [[1]; [2]; [3]; [4]] 4) [[5]]) in
  sample_of (ps_len s) (N.to_nat (picks_wanted 2 (Some [3]))) [3; 2; 0]%nat
  /\ get_random_peers s 2 (Some [3]) [3; 2; 0]%nat = [[4]; [5]].
Proof.
  vm_compute. split; [|reflexivity]. repeat split.
  - repeat constructor; cbn; intuition discriminate.
  - intros i [<-|[<-|[<-|[]]]]; repeat constructor.
Qed.

(** C14: filling one set from another inserts distinct, allowed members of the other set, as many as
    wanted and possible. *)
Theorem c14_fill : forall s c init l amount (except : option (list bytes)) picks,
  let other := snd (ps_inserts (with_peers_and_capacity init c) l) in
  sample_of (ps_len other) (N.to_nat (fill_wanted amount except)) picks ->
  let without := match except with Some e => e | None => [] end in
  exists r,
    randomly_fill_from s other amount except picks = snd (ps_inserts s r)
    /\ List.NoDup r /\ (forall p : bytes, In p r -> In p (ps_members other) /\ ~ In p without)
    /\ length r = Nat.min (N.to_nat amount) (length (eligible without (ps_members other))).
Proof. exact PeersSetFacts.random_fill. Qed.
Print Assumptions c14_fill.

Example c14_fill_example :
  let other := with_peers_and_capacity [[1]; [2]; [3]; [4]] 4 in
  sample_of (ps_len other) (N.to_nat (fill_wanted 1 (Some [[2]; [4]]))) [1; 3; 0]%nat
  /\ ps_members (randomly_fill_from (peers_set_new 2) other 1 (Some [[2]; [4]]) [1; 3; 0]%nat) = [[1]].
Proof.
  vm_compute. split; [|reflexivity]. repeat split.
  - repeat constructor; cbn; intuition discriminate.
  - intros i [<-|[<-|[<-|[]]]]; repeat constructor.
Qed.

(** C15: after any calls of [add_key], failing ones included. *)
Theorem c15_lookups : forall P l,
  let s := after_adds P l in
  (forall i k, key_by_id s i = Ok k -> id_of_secret P k = i)
  /\ (forall t, In t (map snd l) -> exists k, key_by_tag s t = Ok k /\ key_by_id s (id_of_secret P k) = Ok k)
  /\ (forall t, ~ In t (map snd l) -> key_by_tag s t = Err (NoKeyTag t)).
Proof. exact KeystoreFacts.lookups_consistent. Qed.
Print Assumptions c15_lookups.

Theorem c15_ids_kept : forall P s k t i k0,
  key_by_id s i = Ok k0 -> key_by_id (snd (add_key P s k t)) i = Ok k0.
Proof. exact KeystoreFacts.add_key_keeps_ids. Qed.
Print Assumptions c15_ids_kept.

Theorem c15_tags_kept : forall P s k t t' k0,
  key_by_tag s t' = Ok k0 -> key_by_tag (snd (add_key P s k t)) t' = Ok k0.
Proof. exact KeystoreFacts.add_key_keeps_tags. Qed.
Print Assumptions c15_tags_kept.

Theorem c15_added : forall P l k t i,
  let s := after_adds P l in
  fst (add_key P s k t) = Ok i ->
  let s' := snd (add_key P s k t) in
  i = id_of_secret P k
  /\ exists k', key_by_id s' i = Ok k' /\ key_by_tag s' t = Ok k' /\ id_of_secret P k' = i.
Proof. exact KeystoreFacts.add_key_success. Qed.
Print Assumptions c15_added.

Example c15_example :
  let s := after_adds light [([1], 10%N); ([2], 20%N); ([3], 20%N); ([1], 30%N)] in
  key_by_tag s 10 = Ok [1] /\ key_by_tag s 20 = Ok [2] /\ key_by_tag s 30 = Ok [1]
  /\ fst (add_key light s [3] 40) = Ok (id_of_secret light [3]).
Proof. vm_compute. repeat split. Qed.

(** C16 is false: after a duplicated key the tag stays, resolves to the old key, and the same call
    repeated succeeds. *)
Theorem c16_failed_add_refuted : forall P s k t, fst (add_key P s k t) = Err (DuplicatedKey t) ->
  let s' := snd (add_key P s k t) in
  key_by_tag s t = Err (NoKeyTag t)
  /\ key_by_tag s' t = key_by_id s (id_of_secret P k)
  /\ fst (add_key P s' k t) = Ok (id_of_secret P k).
Proof. exact KeystoreFacts.failed_add_leaves_tag. Qed.
Print Assumptions c16_failed_add_refuted.

Example c16_failed_add_example :
  let s := after_adds light [([1], 10%N)] in
  fst (add_key light s [1] 20) = Err (DuplicatedKey 20)
  /\ key_by_tag (snd (add_key light s [1] 20)) 20 = Ok [1].
Proof. vm_compute. split; reflexivity. Qed.

(** C16, what holds: a failed call changes nothing but possibly its own tag, and nothing at all when
    the tag was the duplicate.  Missing: the duplicated key. *)
Theorem c16_failed_add_partial : forall P s k t e, fst (add_key P s k t) = Err e ->
  let s' := snd (add_key P s k t) in
  (forall i, key_by_id s' i = key_by_id s i)
  /\ (forall t', t' <> t -> key_by_tag s' t' = key_by_tag s t')
  /\ (e = DuplicatedKeyTag t -> s' = s).
Proof. exact KeystoreFacts.failed_add. Qed.
Print Assumptions c16_failed_add_partial.

Example c16_partial_example :
  let s := after_adds light [([1], 10%N); ([2], 20%N)] in
  fst (add_key light s [3] 20) = Err (DuplicatedKeyTag 20).
Proof. vm_compute. reflexivity. Qed.

(** C17: over every interleaving, the answer a query returns is the first that arrived for its id
    after it was asked. *)
Theorem c17_answers_matched : forall evs q d, List.NoDup (asked_ids evs) ->
  query_result (query_run queries_new evs) q = Some (Some d) ->
  exists id, nth_error (first_answers evs) q = Some (id, Some d).
Proof. exact QueryFacts.answers_matched. Qed.
Print Assumptions c17_answers_matched.

(** C17: and that answer does reach a query that was not given up. *)
Theorem c17_answers_arrive : forall evs q id d, List.NoDup (asked_ids evs) ->
  nth_error (first_answers evs) q = Some (id, Some d) ->
  ~ In (EGiveUp q) evs -> q_sent (query_run queries_new evs) = [] ->
  query_result (query_run queries_new (evs ++ [ERead q])) q = Some (Some d).
Proof. exact QueryFacts.answers_arrive. Qed.
Print Assumptions c17_answers_arrive.

(** C17: a query ends once. *)
Theorem c17_final : forall s e q r, query_result s q = Some r -> query_result (query_step s e) q = Some r.
Proof. exact QueryFacts.result_final. Qed.
Print Assumptions c17_final.

(** C17: when every query has ended the table is empty. *)
Theorem c17_table_emptied : forall evs, List.NoDup (asked_ids evs) ->
  (forall q, (q < length (asked_ids evs))%nat -> query_result (query_run queries_new evs) q <> None) ->
  q_table (query_run queries_new evs) = ∅.
Proof. exact QueryFacts.table_emptied. Qed.
Print Assumptions c17_table_emptied.

(** Two queries; the second is answered twice, then the first times out while its answer is on its
    way. *)
Definition c17_story : list query_event :=
  [EAnswer [2] [0]; EAsk [1]; EAsk [2]; EAnswer [2] [7]; ESend 0; EAnswer [2] [8]; EAnswer [1] [9]; EGiveUp 0; ESend 0;
   ERead 1; EDrop 0].
Example c17_example :
  List.NoDup (asked_ids c17_story)
  /\ query_result (query_run queries_new c17_story) 0 = Some None
  /\ query_result (query_run queries_new c17_story) 1 = Some (Some [7])
  /\ first_answers c17_story = [([1], Some [9]); ([2], Some [7])]
  /\ first_answers (firstn 5 c17_story) = [([1], None); ([2], Some [7])]
  /\ q_sent (query_run queries_new (firstn 5 c17_story)) = [].
Proof.
  split; [repeat constructor; cbn; intuition discriminate|].
  split; [vm_compute; reflexivity|]. split; [vm_compute; reflexivity|]. split; [vm_compute; reflexivity|].
  split; vm_compute; reflexivity.
Qed.

(** C15, C16: building a keystore succeeds exactly when equal tags go with equal keys; then every
    given tag resolves to its key and no other tag resolves. *)
Theorem c16_built : forall P l,
  match with_tagged_keys P keystore_new l with
  | Ok s =>
      (forall k t, In (k, t) l -> exists k', key_by_tag s t = Ok k' /\ id_of_secret P k' = id_of_secret P k
                                             /\ key_by_id s (id_of_secret P k) = Ok k')
      /\ (forall t, ~ In t (map snd l) -> key_by_tag s t = Err (NoKeyTag t))
      /\ forall k t k' t', In (k, t) l -> In (k', t') l -> (t = t' <-> id_of_secret P k = id_of_secret P k')
  | Err _ =>
      exists k t k' t', In (k, t) l /\ In (k', t') l /\ ~ (t = t' <-> id_of_secret P k = id_of_secret P k')
  end.
Proof. exact KeystoreFacts.built_keystore. Qed.
Print Assumptions c16_built.

Example c16_built_example :
  (exists s, with_tagged_keys light keystore_new [([1], 10%N); ([2], 20%N); ([1], 10%N)] = Ok s
     /\ key_by_tag s 20 = Ok [2] /\ key_by_tag s 10 = Ok [1] /\ key_by_tag s 30 = Err (NoKeyTag 30))
  /\ with_tagged_keys light keystore_new [([1], 10%N); ([2], 10%N)] = Err (DuplicatedKeyTag 10)
  /\ with_tagged_keys light keystore_new [([1], 10%N); ([1], 20%N)] = Err (DuplicatedKey 20).
Proof. split; [eexists; vm_compute; repeat split|]. vm_compute. split; reflexivity. Qed.

(** C24: the first [n] subscribers refuse and the next one, if there is one, decides.  Exactly these
    were asked, in order, each with what the one before passed on. *)
Theorem c24_queries : forall E (subs : list (subscriber E)) c rest query,
  get_u32 query = Some (c, rest) ->
  exists n q',
    passed_on subs c query n q'
    /\ map fst (snd (process_query subs query))
       = seq 0 (match nth_error subs n with Some _ => S n | None => n end)
    /\ (forall k q, In (k, q) (snd (process_query subs query)) -> passed_on subs c query k q)
    /\ match nth_error subs n with
       | None => n = length subs /\ fst (process_query subs query) = Ok AllRejected
       | Some s =>
         match s c q' with
         | Consumed a => fst (process_query subs query) = Ok (Processed a)
         | Failed e => fst (process_query subs query) = Err (SubscriberError e)
         | Refused _ => False
         end
       end.
Proof. exact SubscriberFacts.process_query_spec. Qed.
Print Assumptions c24_queries.

Theorem c24_messages : forall E (subs : list (message_subscriber E)) c rest d,
  get_u32 d = Some (c, rest) ->
  exists n,
    (forall k s, (k < n)%nat -> nth_error subs k = Some s -> s c d = Ok false)
    /\ snd (process_message_custom subs d) = seq 0 (match nth_error subs n with Some _ => S n | None => n end)
    /\ match nth_error subs n with
       | None => n = length subs /\ fst (process_message_custom subs d) = Ok false
       | Some s =>
         match s c d with
         | Ok true => fst (process_message_custom subs d) = Ok true
         | Err e => fst (process_message_custom subs d) = Err (SubscriberError e)
         | Ok false => False
         end
       end.
Proof. exact SubscriberFacts.process_custom_spec. Qed.
Print Assumptions c24_messages.

(** C24: behind subscribers that pass a query on, a ping gets its pong and anything else is rejected. *)
Theorem c24_ping : forall E (bad : E) subs v, u64_ok v ->
  (forall s, In s subs -> s id_adnl_ping (put_adnl_ping v) = Refused (put_adnl_ping v)) ->
  fst (process_query (subs ++ [ping_subscriber bad]) (put_adnl_ping v)) = Ok (Processed (Some (put_adnl_pong v))).
Proof. exact SubscriberFacts.ping_answered. Qed.
Print Assumptions c24_ping.

Theorem c24_not_ping : forall E (bad : E) subs q c r, get_u32 q = Some (c, r) -> c <> id_adnl_ping ->
  (forall s, In s subs -> s c q = Refused q) ->
  fst (process_query (subs ++ [ping_subscriber bad]) q) = Ok AllRejected.
Proof. exact SubscriberFacts.not_ping_refused. Qed.
Print Assumptions c24_not_ping.

(** A subscriber that refuses, the ping subscriber, and one that is never asked. *)
Example c24_example :
  let subs := [fun _ q => Refused q; ping_subscriber tt; fun _ _ => Consumed None] in
  process_query subs (put_adnl_ping 42) = (Ok (Processed (Some (put_adnl_pong 42))), [(0, put_adnl_ping 42); (1, put_adnl_ping 42)])%nat
  /\ process_message_custom [fun _ _ => Ok false; fun _ _ => Err tt; fun _ _ => Ok true] [1; 2; 3; 4; 5]
     = (Err (SubscriberError tt), [0; 1])%nat
  /\ process_query [ping_subscriber tt] [1; 2; 3; 4; 5] = (Ok AllRejected, [(0%nat, [1; 2; 3; 4; 5])]).
Proof. vm_compute. repeat split. Qed.
