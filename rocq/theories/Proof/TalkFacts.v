From stdpp Require Import gmap.
From Coq Require Import NArith Lia.
From Verif.Base Require Import Bytes BytesFacts Res.
From Verif.Model Require Import Crypto ProtoAdnl AdnlNode Queries NodeQueries.
From Verif.Spec Require Import Codec CryptoSpec QueriesSpec PairSpec TalkSpec.
From Verif.Proof Require Import PairFacts QueryFacts.
Open Scope N_scope.

(** The table of pending queries. *)
Lemma run_app : forall s l l', query_run s (l ++ l') = query_run (query_run s l) l'.
Proof. intros. unfold query_run. apply fold_left_app. Qed.

Lemma abandoned_ends : forall s q, (q < length (q_list s))%nat -> query_result (query_run s [EGiveUp q; EDrop q]) q <> None.
Proof.
  intros s q Hq. destruct (q_list s !! q) as [[id ph]|] eqn:Hl; [|apply lookup_ge_None in Hl; lia].
  assert (Hd : forall r, ph = Done r -> query_result s q = Some r).
  { intros r ->. unfold query_result. now rewrite Hl. }
  assert (Hdrop : forall t id', q_list t !! q = Some (id', Leaving) -> query_result (query_step t (EDrop q)) q <> None).
  { intros t id' Ht. cbn [query_step]. rewrite Ht. unfold query_result. cbn [q_list]. rewrite set_phase_lookup.
    assert (Hc : exists ph', close (q_list t) (q_table t !! id') !! q = Some (id', ph')).
    { destruct (q_table t !! id') as [j|]; cbn [close]; [|eauto].
      destruct (q_list t !! j) as [[? []]|]; eauto. rewrite set_phase_lookup, Ht. cbn [fmap option_fmap option_map fst].
      destruct (q =? j)%nat; eauto. }
    destruct Hc as [ph' ->]. cbn. rewrite Nat.eqb_refl. discriminate. }
  unfold query_run. cbn [fold_left].
  destruct ph as [|an| | |r].
  5: { rewrite (result_final _ (EDrop q) q r); [discriminate|]. apply result_final. now apply Hd. }
  all: eapply (Hdrop _ id); cbn [query_step]; rewrite Hl; cbn [q_list]; try exact Hl.
  all: rewrite set_phase_lookup, Hl; cbn; now rewrite Nat.eqb_refl.
Qed.

Lemma answered_at_once : forall s id answer, q_sent s = [] -> q_sent (query_run s [EAnswer id answer; ESend 0]) = [].
Proof.
  intros s id answer H. unfold query_run. cbn [fold_left query_step]. destruct (q_table s !! id) as [q|].
  - cbn [q_sent]. rewrite H. cbn. reflexivity.
  - rewrite H. cbn. exact H.
Qed.
Lemma sent_kept : forall s e, (forall id answer, e <> EAnswer id answer) -> q_sent s = [] -> q_sent (query_step s e) = [].
Proof.
  intros s e He H. destruct e as [id|id answer|i|q|q|q]; cbn [query_step].
  - exact H.
  - now destruct (He id answer).
  - rewrite H. cbn. exact H.
  - destruct (q_list s !! q) as [[? []]|]; exact H.
  - destruct (q_list s !! q) as [[? []]|]; exact H.
  - destruct (q_list s !! q) as [[? []]|]; exact H.
Qed.
Lemma list_length : forall s l, List.NoDup (asked_ids l) -> s = query_run queries_new l -> length (q_list s) = length (asked_ids l).
Proof.
  intros s l Hn ->. pose proof (run_qinv l Hn) as H. rewrite <- (map_length fst), (qi_ids _ _ _ H), <- asked_first.
  reflexivity.
Qed.

(** A failed sending changes nothing. *)
Lemma send_error : forall P n now l p m priority rs e n', send_message P n now l p m priority rs = (Err e, n') -> n' = n.
Proof.
  intros P n now l p m priority rs e n' H. unfold send_message in H.
  repeat match type of H with context [match ?x with _ => _ end] => destruct x end; congruence.
Qed.

Section facts.
Variables (P : prims) (fuel : nat) (a b : party).
Variable HP : prims_ok P.
Variable Hab : parties_ok P a b.
Local Notation idw := (id_of_who P a b).
Local Notation party w := (pick_who w a b).

Lemma start_node : forall x now l p id query priority rs,
  qn_node (snd (query_start P x now l p id query priority rs)) = snd (send_message P (qn_node x) now l p (MQuery id query) priority rs).
Proof. intros. unfold query_start. destruct (send_message _ _ _ _ _ _ _ _) as [[]]; reflexivity. Qed.
Lemma pair_becomes : forall s w x now m seen asked replied,
  pair_of (becomes s w x (changed (pair_of s) w (qn_node x) now m seen) asked replied) = changed (pair_of s) w (qn_node x) now m seen.
Proof. intros s [] x now m seen asked replied; reflexivity. Qed.
Lemma node_pair : forall s w, node_of (pair_of s) w = qn_node (qnode_of s w).
Proof. now intros s []. Qed.

Lemma pair_asks : forall s w id query x, pair_of (asks P a b s w id query x) = says_to P a b s w (MQuery id query) x.
Proof.
  intros s w id query x. unfold asks, says_to, says. rewrite node_pair, <- start_node. apply pair_becomes.
Qed.
Lemma pair_tells : forall s w data x, pair_of (tells P a b s w data x) = says_to P a b s w (MCustom data) x.
Proof.
  intros s [] data x; reflexivity.
Qed.
Lemma receive_node : forall x now data fresh rs,
  qn_node (query_receive P fuel x now data fresh rs) = snd (handle_received_data P fuel (qn_node x) now data fresh rs).
Proof.
  intros. unfold query_receive. destruct (handle_received_data _ _ _ _ _ _ _) as [[o ds] n]. cbn [snd].
  assert (H : forall ds y, qn_node (fold_left delivered ds y) = qn_node y).
  { induction ds0 as [|d ds0 IH]; intros y; [reflexivity|]. cbn [fold_left]. rewrite IH. now destruct d. }
  now rewrite H.
Qed.
Lemma pair_receives : forall s i l x, pair_of (receives P fuel s i l x)
  = gets P fuel (pair_of s) i l (rv_now x) (rv_fresh x) (rv_rnds x).
Proof.
  intros s i l x. unfold receives, gets, arrival. rewrite node_pair, <- receive_node. apply pair_becomes.
Qed.
Lemma pair_replies : forall s w k id query answer x, handed P a b s w k id query ->
  pair_of (replies P a b s w k id answer x) = says_to P a b s w (MAnswer id answer) x.
Proof.
  intros s w k id query answer x Hk. unfold replies, says_to, says. rewrite node_pair.
  assert (H : qn_node (snd (query_reply P (qnode_of s w) (sn_now x) k answer (sn_priority x) (fun _ => sn_rnd x)))
              = snd (send_message P (qn_node (qnode_of s w)) (sn_now x) (idw w) (idw (other w)) (MAnswer id answer) (sn_priority x) (fun _ => sn_rnd x))).
  { unfold query_reply. rewrite Hk. destruct (send_message _ _ _ _ _ _ _ _) as [[]]; reflexivity. }
  rewrite <- H. apply pair_becomes.
Qed.
Lemma pair_local : forall s w f t asked replied,
  pair_of (becomes s w (mk_qnode (qn_node (qnode_of s w)) f t) (pair_of s) asked replied) = pair_of s.
Proof. now intros s [] f t asked replied. Qed.

Lemma talking_exchange : forall s, talking P fuel a b s -> exchange P fuel a b (pair_of s).
Proof.
  induction 1 as [|s w id query x _ IH Hm _|s w data x _ IH Hm|s i l x _ IH Hg|s w k id query answer x _ IH Hk Hm|s w q _ IH|s w q _ IH _].
  - exact (ex_start _ _ _ _).
  - rewrite pair_asks. now apply ex_says.
  - rewrite pair_tells. now apply ex_says.
  - rewrite pair_receives. now apply ex_gets.
  - rewrite (pair_replies s w k id query answer x Hk). now apply ex_says.
  - unfold reads, query_wait. now rewrite pair_local.
  - unfold abandons, query_abandon. now rewrite pair_local.
Qed.

(** One letter is posted by a sending, none by an arrival. *)
Lemma say_posts : forall p w now m priority r, exchange P fuel a b p -> may_say P a b p w now m priority r ->
  exists l, pr_letters (says P a b p w now m priority r) = pr_letters p ++ [l] /\ lt_from l = w /\ lt_message l = m /\ lt_time l = now.
Proof.
  intros p w now m priority r Hp Hm. destruct (exchange_inv P fuel a b HP Hab p Hp) as (pp & tags & HI).
  destruct (inv_says P fuel a b HP Hab p pp tags w now m priority r HI Hm) as (pp1 & tags1 & l & k & pr & q & c & _ & Hlet & Hw & Ht & Hmm & _).
  exists l. auto.
Qed.
Lemma get_posts : forall p i l now fresh rs, exchange P fuel a b p -> may_get a b p i l now ->
  pr_letters (gets P fuel p i l now fresh rs) = pr_letters p.
Proof.
  intros p i l now fresh rs Hp Hg. destruct (exchange_inv P fuel a b HP Hab p Hp) as (pp & tags & HI).
  destruct (letter_tag P a b p pp tags i l HI (proj1 Hg)) as ([[v pr] q] & Ht & -> & c & k & Hl).
  destruct (inv_gets P fuel a b HP Hab p pp tags i l now fresh rs pr q c k HI Hg Ht Hl)
    as (pp' & ds & n' & known & _ & _ & _ & _ & _ & _ & _ & _ & E & _).
  exact E.
Qed.

Lemma who_same : forall A w (x y : A), pick_who w (pick_who w x y) (pick_who w y x) = x.
Proof. now intros A []. Qed.
Lemma becomes_same : forall s w x p asked replied, qnode_of (becomes s w x p asked replied) w = x.
Proof. now intros s []. Qed.
Lemma becomes_other : forall s w x p asked replied, qnode_of (becomes s w x p asked replied) (other w) = qnode_of s (other w).
Proof. now intros s []. Qed.

(** Who asked what. *)
Lemma asked_by_app : forall s s' e w, tk_asked s' = tk_asked s ++ [e] ->
  asked_by s' w = asked_by s w ++ (if match fst (fst e), w with Alice, Alice | Bob, Bob => true | _, _ => false end
                                   then [(snd (fst e), snd e)] else []).
Proof.
  intros s s' [[v id] query] w H. unfold asked_by. rewrite H, flat_map_app. f_equal. cbn. now destruct v, w.
Qed.
Lemma asked_by_In : forall s w id query, In (id, query) (asked_by s w) <-> In (w, id, query) (tk_asked s).
Proof.
  intros s w id query. unfold asked_by. rewrite in_flat_map. split.
  - intros ([[v i] q] & Hin & H). destruct v, w; cbn in H; try tauto; destruct H as [H|[]]; inversion H; subst; exact Hin.
  - intros H. exists (w, id, query). split; [exact H|]. destruct w; now left.
Qed.
Lemma asked_by_ids : forall s w, List.NoDup (map (fun e => snd (fst e)) (tk_asked s)) -> List.NoDup (map fst (asked_by s w)).
Proof.
  intros s w. unfold asked_by. generalize (tk_asked s) as l. induction l as [|[[v id] query] l IH]; cbn; intros H; [constructor|].
  apply List.NoDup_cons_iff in H as [H1 H2]. specialize (IH H2).
  assert (Hn : ~ In id (map fst (flat_map (fun e => match e with (v, id, query) =>
    match v, w with Alice, Alice | Bob, Bob => [(id, query)] | _, _ => [] end end) l))).
  { intros Hin. apply H1. apply in_map_iff in Hin as ([i q] & <- & Hin). apply in_flat_map in Hin as ([[v' i'] q'] & Hin & H).
    apply in_map_iff. exists (v', i', q'). split; [|exact Hin]. destruct v', w; cbn in H; try tauto; destruct H as [H|[]]; now inversion H. }
  destruct v, w; cbn; try exact IH; now constructor.
Qed.

(** What is known about a side: its table went through [evs]. *)
Record side_ok (s : talk) (w : who) (evs : list query_event) : Prop :=
  { so_run : qn_queries (qnode_of s w) = query_run queries_new evs;
    so_asked : asked_ids evs = map fst (asked_by s w);
    so_sent : q_sent (query_run queries_new evs) = [];
    so_answers : forall id answer, In (EAnswer id answer) evs ->
      exists i l, In i (tk_seen s) /\ nth_error (tk_letters s) i = Some l
        /\ lt_from l = other w /\ lt_message l = MAnswer id answer;
    so_gave_up : forall q, In (EGiveUp q) evs -> query_result (query_run queries_new evs) q <> None;
    so_seen : forall i l id answer, In i (tk_seen s) -> nth_error (tk_letters s) i = Some l -> lt_from l = other w ->
      lt_message l = MAnswer id answer -> In (EAnswer id answer) evs;
    so_handed : forall lo pe id query, In (lo, pe, id, query) (qn_handed (qnode_of s w)) ->
      lo = idw w /\ pe = idw (other w) /\ exists i l, In i (tk_seen s) /\ nth_error (tk_letters s) i = Some l
        /\ lt_from l = other w /\ lt_message l = MQuery id query;
    so_handed_seen : forall i l id query, In i (tk_seen s) -> nth_error (tk_letters s) i = Some l -> lt_from l = other w ->
      lt_message l = MQuery id query -> In (idw w, idw (other w), id, query) (qn_handed (qnode_of s w)) }.
Record talk_inv (s : talk) : Prop :=
  { ti_sides : forall w, exists evs, side_ok s w evs;
    ti_ids : List.NoDup (map (fun e => snd (fst e)) (tk_asked s));
    ti_queries : forall l id query, In l (tk_letters s) -> lt_message l = MQuery id query -> In (lt_from l, id, query) (tk_asked s);
    ti_one : forall i j l l' id query query', nth_error (tk_letters s) i = Some l -> nth_error (tk_letters s) j = Some l' ->
      lt_message l = MQuery id query -> lt_message l' = MQuery id query' -> i = j;
    ti_answers : forall l id answer, In l (tk_letters s) -> lt_message l = MAnswer id answer ->
      exists k query, In (lt_from l, k, answer) (tk_replied s) /\ handed P a b s (lt_from l) k id query;
    ti_seen : forall i, In i (tk_seen s) -> (i < length (tk_letters s))%nat }.

Lemma run_final : forall es t q, query_result t q <> None -> query_result (query_run t es) q <> None.
Proof.
  induction es as [|e es IH]; intros t q H; [exact H|]. unfold query_run. cbn [fold_left]. fold (query_run (query_step t e) es).
  apply IH. destruct (query_result t q) as [r|] eqn:E; [|now destruct H]. now rewrite (result_final t e q r E).
Qed.

Lemma side_step : forall s s' w evs es added out, side_ok s w evs ->
  (forall i, In i (tk_seen s) -> (i < length (tk_letters s))%nat) ->
  qn_queries (qnode_of s' w) = query_run (qn_queries (qnode_of s w)) es ->
  qn_handed (qnode_of s' w) = qn_handed (qnode_of s w) ->
  asked_by s' w = asked_by s w ++ added -> asked_ids es = map fst added ->
  (forall id answer, ~ In (EAnswer id answer) es) ->
  (forall q, In (EGiveUp q) es -> query_result (query_run (query_run queries_new evs) es) q <> None) ->
  tk_letters s' = tk_letters s ++ out -> tk_seen s' = tk_seen s ->
  side_ok s' w (evs ++ es).
Proof.
  intros s s' w evs es added out [H1 H2 H3 H4 H5 H6 H7 H8] Hlt Hq Hh Ha Hes Hna Hgu Hl Hs.
  assert (Hnth : forall i, In i (tk_seen s) -> nth_error (tk_letters s') i = nth_error (tk_letters s) i).
  { intros i Hi. rewrite Hl. apply nth_error_app1. now apply Hlt. }
  split.
  - now rewrite Hq, H1, run_app.
  - now rewrite asked_ids_app, H2, Hes, Ha, map_app.
  - rewrite run_app. clear - H3 Hna. revert H3. generalize (query_run queries_new evs) as t.
    induction es as [|e es IH]; intros t Ht; [exact Ht|]. unfold query_run. cbn [fold_left].
    apply IH; [intros id an H; exact (Hna id an (or_intror H))|].
    apply sent_kept; [|exact Ht]. intros id an ->. exact (Hna id an (or_introl eq_refl)).
  - intros id answer Hin. apply in_app_or in Hin as [Hin|Hin]; [|now destruct (Hna _ _ Hin)].
    destruct (H4 id answer Hin) as (i & l & Hi & Hn & Hr). exists i, l. rewrite Hs, (Hnth i Hi). auto.
  - intros q Hin. rewrite run_app. apply in_app_or in Hin as [Hin|Hin]; [|now apply Hgu]. apply run_final. now apply H5.
  - intros i l id answer Hi Hn Hf Hm. apply in_or_app. left. rewrite Hs in Hi. rewrite (Hnth i Hi) in Hn. eauto.
  - intros lo pe id query Hin. rewrite Hh in Hin. destruct (H7 _ _ _ _ Hin) as (-> & -> & i & l & Hi & Hn & Hr).
    split; [reflexivity|]. split; [reflexivity|]. exists i, l. rewrite Hs, (Hnth i Hi). auto.
  - intros i l id query Hi Hn Hf Hm. rewrite Hh. rewrite Hs in Hi. rewrite (Hnth i Hi) in Hn. eauto.
Qed.

Lemma In_snoc : forall A (l : list A) x y, In x (l ++ [y]) -> In x l \/ x = y.
Proof. intros A l x y H. apply in_app_or in H as [H|[H|[]]]; auto. Qed.

(** The part about letters, when one more is posted. *)
Lemma letters_step : forall s s' l, talk_inv s ->
  tk_letters s' = tk_letters s ++ [l] -> tk_seen s' = tk_seen s ->
  (forall w, exists evs, side_ok s' w evs) ->
  List.NoDup (map (fun e => snd (fst e)) (tk_asked s')) ->
  (forall e, In e (tk_asked s) -> In e (tk_asked s')) -> (forall e, In e (tk_replied s) -> In e (tk_replied s')) ->
  (forall w, qn_handed (qnode_of s' w) = qn_handed (qnode_of s w)) ->
  (forall id query, lt_message l = MQuery id query ->
    In (lt_from l, id, query) (tk_asked s') /\ ~ In id (map (fun e => snd (fst e)) (tk_asked s))) ->
  (forall id answer, lt_message l = MAnswer id answer ->
    exists k query, In (lt_from l, k, answer) (tk_replied s') /\ handed P a b s (lt_from l) k id query) ->
  talk_inv s'.
Proof.
  intros s s' l [H1 H2 H3 H4 H5 H6] Hl Hs Hsides Hids Hask Hrep Hh Hq Han.
  assert (Hold : forall l0 id query, In l0 (tk_letters s) -> lt_message l0 = MQuery id query -> In id (map (fun e => snd (fst e)) (tk_asked s))).
  { intros l0 id query Hin Hm. apply in_map_iff. exists (lt_from l0, id, query). split; [reflexivity|]. eauto. }
  split; [exact Hsides|exact Hids| | | |].
  - intros l0 id query Hin Hm. rewrite Hl in Hin. apply In_snoc in Hin as [Hin| ->]; [eauto|]. now apply Hq.
  - intros i j l0 l1 id q0 q1 Hi Hj Hm0 Hm1. rewrite Hl in Hi, Hj.
    destruct (lt_dec i (length (tk_letters s))) as [Li|Li]; destruct (lt_dec j (length (tk_letters s))) as [Lj|Lj].
    + rewrite nth_error_app1 in Hi, Hj by assumption. eauto.
    + rewrite nth_error_app1 in Hi by assumption. rewrite nth_error_app2 in Hj by lia.
      destruct (j - length (tk_letters s))%nat as [|z]; [|destruct z; discriminate]. injection Hj as <-.
      exfalso. apply (proj2 (Hq _ _ Hm1)). eapply Hold; [eapply nth_error_In; exact Hi|exact Hm0].
    + rewrite nth_error_app1 in Hj by assumption. rewrite nth_error_app2 in Hi by lia.
      destruct (i - length (tk_letters s))%nat as [|z]; [|destruct z; discriminate]. injection Hi as <-.
      exfalso. apply (proj2 (Hq _ _ Hm0)). eapply Hold; [eapply nth_error_In; exact Hj|exact Hm1].
    + rewrite nth_error_app2 in Hi, Hj by lia.
      destruct (i - length (tk_letters s))%nat as [|z] eqn:Ei; [|destruct z; discriminate].
      destruct (j - length (tk_letters s))%nat as [|z] eqn:Ej; [|destruct z; discriminate]. lia.
  - intros l0 id answer Hin Hm. rewrite Hl in Hin. unfold handed in *.
    apply In_snoc in Hin as [Hin| ->].
    + destruct (H5 l0 id answer Hin Hm) as (k & query & Hr & Hk). exists k, query. rewrite Hh. auto.
    + destruct (Han id answer Hm) as (k & query & Hr & Hk). exists k, query. rewrite Hh. auto.
  - intros i Hi. rewrite Hs in Hi. rewrite Hl, app_length. specialize (H6 i Hi). lia.
Qed.

(** An arrival. *)
Lemma receives_node : forall s i l x, talking P fuel a b s -> may_get a b (pair_of s) i l (rv_now x) ->
  exists ds n', qnode_of (receives P fuel s i l x) (other (lt_from l))
      = fold_left delivered ds (mk_qnode n' (qn_queries (qnode_of s (other (lt_from l)))) (qn_handed (qnode_of s (other (lt_from l)))))
    /\ (ds = shown P a b l \/ ds = [])
    /\ (~ In i (tk_seen s) -> ds = shown P a b l)
    /\ (o_history_enabled (pa_opts (party (other (lt_from l)))) = true -> In i (tk_seen s) ->
        (length (tk_letters s) < 256)%nat -> ds = []).
Proof.
  intros s i l x Hs Hg.
  destruct (letters_arrive P fuel a b HP Hab (pair_of s) i l (rv_now x) (rv_fresh x) (rv_rnds x) (talking_exchange s Hs) Hg)
    as (ds & n' & Har & H1 & H2 & _ & H3).
  exists ds, n'. split; [|auto]. unfold receives. rewrite becomes_same. unfold query_receive.
  unfold arrival in Har. rewrite node_pair in Har. now rewrite Har.
Qed.

Lemma receives_lists : forall s i l x, talking P fuel a b s -> may_get a b (pair_of s) i l (rv_now x) ->
  tk_letters (receives P fuel s i l x) = tk_letters s /\ tk_seen (receives P fuel s i l x) = i :: tk_seen s
  /\ qnode_of (receives P fuel s i l x) (lt_from l) = qnode_of s (lt_from l).
Proof.
  intros s i l x Hs Hg. split; [|split].
  - exact (get_posts (pair_of s) i l _ (rv_fresh x) (rv_rnds x) (talking_exchange s Hs) Hg).
  - reflexivity.
  - unfold receives. generalize (gets P fuel (pair_of s) i l (rv_now x) (rv_fresh x) (rv_rnds x)) as p0.
    generalize (query_receive P fuel (qnode_of s (other (lt_from l))) (rv_now x) (lt_data l) (rv_fresh x) (rv_rnds x)) as y.
    intros y p0. destruct (lt_from l); reflexivity.
Qed.

Lemma receives_sender : forall s i l x evs, talking P fuel a b s -> may_get a b (pair_of s) i l (rv_now x) ->
  side_ok s (lt_from l) evs -> side_ok (receives P fuel s i l x) (lt_from l) evs.
Proof.
  intros s i l x evs Hs Hg [H1 H2 H3 H4 H5 H6 H7 H8]. destruct (receives_lists s i l x Hs Hg) as (El & Es & En).
  assert (Hi : nth_error (tk_letters s) i = Some l) by exact (proj1 Hg).
  split; rewrite ?El, ?Es, ?En; try assumption.
  - intros id an Hin. destruct (H4 id an Hin) as (j & l0 & Hj & Hr). exists j, l0. split; [now right|exact Hr].
  - intros j l0 id an [<-|Hj] Hn Hf Hm; [|eauto]. rewrite Hi in Hn. injection Hn as <-. now destruct (other_neq _ (eq_sym Hf)).
  - intros lo pe id query Hin. destruct (H7 _ _ _ _ Hin) as (-> & -> & j & l0 & Hj & Hr).
    split; [reflexivity|]. split; [reflexivity|]. exists j, l0. split; [now right|exact Hr].
  - intros j l0 id query [<-|Hj] Hn Hf Hm; [|eauto]. rewrite Hi in Hn. injection Hn as <-. now destruct (other_neq _ (eq_sym Hf)).
Qed.

Lemma receives_receiver : forall s i l x evs, talking P fuel a b s -> may_get a b (pair_of s) i l (rv_now x) ->
  side_ok s (other (lt_from l)) evs -> exists evs', side_ok (receives P fuel s i l x) (other (lt_from l)) evs'.
Proof.
  intros s i l x evs Hs Hg [H1 H2 H3 H4 H5 H6 H7 H8]. destruct (receives_lists s i l x Hs Hg) as (El & Es & _).
  destruct (receives_node s i l x Hs Hg) as (ds & n' & En & Hds & Hfirst & _).
  assert (Hi : nth_error (tk_letters s) i = Some l) by exact (proj1 Hg).
  assert (Hlf : lt_from l = other (other (lt_from l))) by now rewrite other_other.
  assert (Hdec : In i (tk_seen s) \/ ~ In i (tk_seen s)) by (destruct (in_dec Nat.eq_dec i (tk_seen s)); auto).
  set (v := other (lt_from l)) in *. set (s' := receives P fuel s i l x) in *.
  assert (Hask : asked_by s' v = asked_by s v) by reflexivity.
  assert (K4 : forall id an, In (EAnswer id an) evs -> exists j l0, In j (tk_seen s') /\ nth_error (tk_letters s') j = Some l0
    /\ lt_from l0 = other v /\ lt_message l0 = MAnswer id an).
  { intros id an Hin. destruct (H4 id an Hin) as (j & l0 & Hj & Hr). exists j, l0. rewrite El, Es. split; [now right|exact Hr]. }
  assert (K7 : forall lo pe id query, In (lo, pe, id, query) (qn_handed (qnode_of s v)) ->
      lo = idw v /\ pe = idw (other v) /\ exists j l0, In j (tk_seen s') /\ nth_error (tk_letters s') j = Some l0
        /\ lt_from l0 = other v /\ lt_message l0 = MQuery id query).
  { intros lo pe id query Hin. destruct (H7 _ _ _ _ Hin) as (-> & -> & j & l0 & Hj & Hr).
    split; [reflexivity|]. split; [reflexivity|]. exists j, l0. rewrite El, Es. split; [now right|exact Hr]. }
  (* nothing new for this side *)
  assert (Hnone : ds = [] -> (forall id an, lt_message l = MAnswer id an -> In i (tk_seen s)) ->
    (forall id query, lt_message l = MQuery id query -> In i (tk_seen s)) -> side_ok s' v evs).
  { intros E Ha Hq. rewrite E in En. cbn [fold_left] in En. split; rewrite ?En; cbn [qn_queries qn_handed]; try assumption.
    - rewrite Es, El. intros j l0 id an [<-|Hj] Hn Hf Hm; [|eauto]. rewrite Hi in Hn. injection Hn as <-. eauto.
    - rewrite Es, El. intros j l0 id query [<-|Hj] Hn Hf Hm; [|eauto]. rewrite Hi in Hn. injection Hn as <-. eauto. }
  destruct Hdec as [Hin|Hnew].
  - destruct Hds as [Hds|Hds]; [|exists evs; apply Hnone; auto].
    (* handed over again *)
    unfold shown, NodeSpec.delivered_as in Hds. fold v in Hds.
    destruct (lt_message l) as [qi an|d|k pk d|h t o pd|k d|qi qd| |rd] eqn:Em;
      try (exists evs; apply Hnone; [exact Hds|discriminate|discriminate]).
    + exists (evs ++ [EAnswer qi an; ESend 0]). rewrite Hds in En. cbn [fold_left delivered qn_node qn_queries qn_handed] in En.
      split; rewrite ?En; cbn [qn_queries qn_handed].
      * now rewrite run_app, H1.
      * rewrite asked_ids_app. cbn [asked_ids]. rewrite app_nil_r. exact H2.
      * rewrite run_app. now apply answered_at_once.
      * intros id a0 Hx. apply in_app_or in Hx as [Hx|[Hx|[Hx|[]]]]; [now apply K4| |discriminate]. injection Hx as <- <-.
        exists i, l. rewrite El, Es. split; [now left|auto].
      * intros q Hx. rewrite run_app. apply in_app_or in Hx as [Hx|[Hx|[Hx|[]]]]; [|discriminate|discriminate].
        apply run_final. now apply H5.
      * rewrite Es, El. intros j l0 id a0 [<-|Hj] Hn Hf Hm; apply in_or_app; [|left; eauto]. rewrite Hi in Hn. injection Hn as <-.
        left. eapply H6; eauto.
      * exact K7.
      * rewrite Es, El. intros j l0 id query [<-|Hj] Hn Hf Hm; [|eauto]. rewrite Hi in Hn. injection Hn as <-. congruence.
    + exists evs. rewrite Hds in En. cbn [fold_left delivered qn_node qn_queries qn_handed] in En.
      split; rewrite ?En; cbn [qn_queries qn_handed]; try assumption.
      * rewrite Es, El. intros j l0 id a0 [<-|Hj] Hn Hf Hm; [|eauto]. rewrite Hi in Hn. injection Hn as <-. congruence.
      * rewrite Es, El. intros j l0 id query [<-|Hj] Hn Hf Hm; [|eauto]. rewrite Hi in Hn. injection Hn as <-. congruence.
    + exists evs. rewrite Hds in En. cbn [fold_left delivered qn_node qn_queries qn_handed] in En.
      split; rewrite ?En; cbn [qn_queries qn_handed]; try assumption.
      * rewrite Es, El. intros j l0 id a0 [<-|Hj] Hn Hf Hm; [|eauto]. rewrite Hi in Hn. injection Hn as <-. congruence.
      * intros lo pe id query Hx. apply In_snoc in Hx as [Hx|Hx]; [now apply K7|]. injection Hx as -> -> -> ->.
        split; [reflexivity|]. split; [now rewrite Hlf|]. exists i, l. rewrite El, Es. split; [now left|auto].
      * rewrite Es, El. intros j l0 id query [<-|Hj] Hn Hf Hm; apply in_or_app; left; eauto.
  - specialize (Hfirst Hnew). clear Hds. rename Hfirst into Hds.
    unfold shown, NodeSpec.delivered_as in Hds. fold v in Hds.
    destruct (lt_message l) as [qi an|d|k pk d|h t o pd|k d|qi qd| |rd] eqn:Em;
      try (exists evs; apply Hnone; [exact Hds|discriminate|discriminate]).
    + exists (evs ++ [EAnswer qi an; ESend 0]). rewrite Hds in En. cbn [fold_left delivered qn_node qn_queries qn_handed] in En.
      split; rewrite ?En; cbn [qn_queries qn_handed].
      * now rewrite run_app, H1.
      * rewrite asked_ids_app. cbn [asked_ids]. rewrite app_nil_r. exact H2.
      * rewrite run_app. now apply answered_at_once.
      * intros id a0 Hx. apply in_app_or in Hx as [Hx|[Hx|[Hx|[]]]]; [now apply K4| |discriminate]. injection Hx as <- <-.
        exists i, l. rewrite El, Es. split; [now left|auto].
      * intros q Hx. rewrite run_app. apply in_app_or in Hx as [Hx|[Hx|[Hx|[]]]]; [|discriminate|discriminate].
        apply run_final. now apply H5.
      * rewrite Es, El. intros j l0 id a0 [<-|Hj] Hn Hf Hm; apply in_or_app; [|left; eauto]. rewrite Hi in Hn. injection Hn as <-.
        right. left. congruence.
      * exact K7.
      * rewrite Es, El. intros j l0 id query [<-|Hj] Hn Hf Hm; [|eauto]. rewrite Hi in Hn. injection Hn as <-. congruence.
    + exists evs. rewrite Hds in En. cbn [fold_left delivered qn_node qn_queries qn_handed] in En.
      split; rewrite ?En; cbn [qn_queries qn_handed]; try assumption.
      * rewrite Es, El. intros j l0 id a0 [<-|Hj] Hn Hf Hm; [|eauto]. rewrite Hi in Hn. injection Hn as <-. congruence.
      * rewrite Es, El. intros j l0 id query [<-|Hj] Hn Hf Hm; [|eauto]. rewrite Hi in Hn. injection Hn as <-. congruence.
    + exists evs. rewrite Hds in En. cbn [fold_left delivered qn_node qn_queries qn_handed] in En.
      split; rewrite ?En; cbn [qn_queries qn_handed]; try assumption.
      * rewrite Es, El. intros j l0 id a0 [<-|Hj] Hn Hf Hm; [|eauto]. rewrite Hi in Hn. injection Hn as <-. congruence.
      * intros lo pe id query Hx. apply In_snoc in Hx as [Hx|Hx]; [now apply K7|]. injection Hx as -> -> -> ->.
        split; [reflexivity|]. split; [now rewrite Hlf|]. exists i, l. rewrite El, Es. split; [now left|auto].
      * rewrite Es, El. intros j l0 id query [<-|Hj] Hn Hf Hm; apply in_or_app; [|left; eauto]. rewrite Hi in Hn. injection Hn as <-.
        right. left. rewrite <- Hlf. congruence.
Qed.

(** A query goes out. *)
Lemma asks_sent : forall s w id query x, talking P fuel a b s -> may_say_to P a b s w (MQuery id query) x ->
  query_start P (qnode_of s w) (sn_now x) (idw w) (idw (other w)) id query (sn_priority x) (fun _ => sn_rnd x)
  = (Ok (length (q_list (qn_queries (qnode_of s w)))),
     mk_qnode (node_of (says_to P a b s w (MQuery id query) x) w) (query_step (qn_queries (qnode_of s w)) (EAsk id)) (qn_handed (qnode_of s w))).
Proof.
  intros s w id query x Hs Hm.
  destruct (say_posts (pair_of s) w (sn_now x) (MQuery id query) (sn_priority x) (sn_rnd x) (talking_exchange s Hs) Hm) as (l & Hl & _).
  unfold says_to, says in *. rewrite node_changed_same. unfold query_start. rewrite node_pair in *.
  destruct (send_message _ _ _ _ _ _ _ _) as [[[]|e] n'] eqn:E; [reflexivity|]. exfalso.
  apply send_error in E. subst n'. apply (f_equal (@length letter)) in Hl. unfold changed in Hl. cbn [snd pr_letters] in Hl.
  rewrite node_pair, drop_all in Hl. cbn [map] in Hl. rewrite app_length, app_length in Hl. cbn [length] in Hl. lia.
Qed.

Lemma side_same : forall s s' w evs out, side_ok s w evs -> talk_inv s ->
  qn_queries (qnode_of s' w) = qn_queries (qnode_of s w) -> qn_handed (qnode_of s' w) = qn_handed (qnode_of s w) ->
  asked_by s' w = asked_by s w -> tk_letters s' = tk_letters s ++ out -> tk_seen s' = tk_seen s -> side_ok s' w evs.
Proof.
  intros s s' w evs out H HI Hq Hh Ha Hl Hs. rewrite <- (app_nil_r evs).
  apply (side_step s s' w evs [] [] out H); auto; [apply ti_seen; exact HI|now rewrite Ha, app_nil_r].
Qed.

Lemma talk_invariant : forall s, talking P fuel a b s -> talk_inv s.
Proof.
  induction 1 as [|s w id query x Hs IH Hm Hid|s w data x Hs IH Hm|s i l x Hs IH Hg|s w k id query answer x Hs IH Hk Hm|s w q Hs IH|s w q Hs IH Hlt].
  - split.
    + intros w. exists []. split.
      * now destruct w.
      * now destruct w.
      * reflexivity.
      * intros id an [].
      * intros q [].
      * intros i l id an [].
      * intros lo pe id query Hin. destruct w; destruct Hin.
      * intros i l id query [].
    + constructor.
    + intros l id query [].
    + intros [|i] j l l' id query query' Hi; discriminate.
    + intros l id answer [].
    + intros i [].
  - pose proof (asks_sent s w id query x Hs Hm) as Hst.
    destruct (say_posts (pair_of s) w (sn_now x) (MQuery id query) (sn_priority x) (sn_rnd x) (talking_exchange s Hs) Hm) as (l & Hl & Hf & Hms & _).
    assert (Hn : qnode_of (asks P a b s w id query x) w
      = mk_qnode (node_of (says_to P a b s w (MQuery id query) x) w) (query_step (qn_queries (qnode_of s w)) (EAsk id)) (qn_handed (qnode_of s w))).
    { unfold asks. rewrite becomes_same, Hst. reflexivity. }
    assert (Hn' : qnode_of (asks P a b s w id query x) (other w) = qnode_of s (other w)).
    { unfold asks. apply becomes_other. }
    assert (Hasked : tk_asked (asks P a b s w id query x) = tk_asked s ++ [(w, id, query)]) by reflexivity.
    apply (letters_step s _ l IH).
    + exact Hl.
    + reflexivity.
    + intros v. destruct (ti_sides _ IH v) as (evs & He). destruct (who_cases v w) as [-> | ->].
      * exists (evs ++ [EAsk id]). apply (side_step s _ w evs [EAsk id] [(id, query)] [l] He); auto.
        -- apply ti_seen. exact IH.
        -- rewrite Hn. reflexivity.
        -- rewrite Hn. reflexivity.
        -- rewrite (asked_by_app s _ _ w Hasked). now destruct w.
        -- intros id0 an [H|[]]. discriminate.
        -- intros q [H|[]]. discriminate.
      * exists evs. apply (side_same s _ (other w) evs [l] He IH); try (now rewrite Hn').
        -- rewrite (asked_by_app s _ _ (other w) Hasked). destruct w; cbn; now rewrite app_nil_r.
        -- exact Hl.
        -- reflexivity.
    + rewrite Hasked, map_app. cbn [map fst snd].
      apply Permutation.Permutation_NoDup with (l := id :: map (fun e => snd (fst e)) (tk_asked s)).
      { apply Permutation.Permutation_cons_append. }
      constructor; [exact Hid|apply ti_ids; exact IH].
    + intros e He. rewrite Hasked. apply in_or_app. now left.
    + auto.
    + intros v. destruct (who_cases v w) as [-> | ->]; [now rewrite Hn|now rewrite Hn'].
    + intros id0 q0 H0. rewrite Hms in H0. injection H0 as <- <-. split; [|exact Hid]. rewrite Hf, Hasked. apply in_or_app. right. now left.
    + intros id0 an H0. rewrite Hms in H0. discriminate.
  - destruct (say_posts (pair_of s) w (sn_now x) (MCustom data) (sn_priority x) (sn_rnd x) (talking_exchange s Hs) Hm) as (l & Hl & Hf & Hms & _).
    assert (Hq : forall v, qn_queries (qnode_of (tells P a b s w data x) v) = qn_queries (qnode_of s v)
                        /\ qn_handed (qnode_of (tells P a b s w data x) v) = qn_handed (qnode_of s v)).
    { intros v. unfold tells. destruct (who_cases v w) as [-> | ->]; [rewrite becomes_same; now split|rewrite becomes_other; now split]. }
    apply (letters_step s _ l IH); auto.
    + intros v. destruct (ti_sides _ IH v) as (evs & He). exists evs.
      apply (side_same s _ v evs [l] He IH); auto; apply Hq.
    + exact (ti_ids _ IH).
    + intros v. apply Hq.
    + intros id0 q0 H0. rewrite Hms in H0. discriminate.
    + intros id0 an H0. rewrite Hms in H0. discriminate.
  - destruct (receives_lists s i l x Hs Hg) as (El & Es & En). destruct IH as [H1 H2 H3 H4 H5 H6].
    assert (Hh : forall w k id query, handed P a b s w k id query -> handed P a b (receives P fuel s i l x) w k id query).
    { intros w k id query Hk. unfold handed in *. destruct (who_cases w (lt_from l)) as [-> | ->]; [now rewrite En|].
      destruct (receives_node s i l x Hs Hg) as (ds & n' & Eq & _). rewrite Eq. clear Eq.
      assert (Hmono : forall ds y, nth_error (qn_handed y) k = Some (idw (other (lt_from l)), idw (other (other (lt_from l))), id, query) ->
        nth_error (qn_handed (fold_left delivered ds y)) k = Some (idw (other (lt_from l)), idw (other (other (lt_from l))), id, query)).
      { induction ds0 as [|d ds0 IHd]; intros y Hy; [exact Hy|]. cbn [fold_left]. apply IHd. destruct d; cbn [delivered qn_handed]; try exact Hy.
        rewrite nth_error_app1; [exact Hy|]. apply nth_error_Some. congruence. }
      now apply Hmono. }
    split.
    + intros w. destruct (H1 w) as (evs & He). destruct (who_cases w (lt_from l)) as [-> | ->].
      * exists evs. now apply receives_sender.
      * exact (receives_receiver s i l x evs Hs Hg He).
    + exact H2.
    + rewrite El. exact H3.
    + rewrite El. exact H4.
    + rewrite El. intros l0 id an Hin Hm. destruct (H5 l0 id an Hin Hm) as (k & query & Hr & Hk). exists k, query. auto.
    + rewrite El, Es. intros j [<-|Hj]; [|auto]. apply nth_error_Some. rewrite (proj1 Hg : nth_error (tk_letters s) i = _). discriminate.
  - destruct (say_posts (pair_of s) w (sn_now x) (MAnswer id answer) (sn_priority x) (sn_rnd x) (talking_exchange s Hs) Hm) as (l & Hl & Hf & Hms & _).
    assert (Hq : forall v, qn_queries (qnode_of (replies P a b s w k id answer x) v) = qn_queries (qnode_of s v)
                        /\ qn_handed (qnode_of (replies P a b s w k id answer x) v) = qn_handed (qnode_of s v)).
    { intros v. unfold replies. destruct (who_cases v w) as [-> | ->]; [rewrite becomes_same|rewrite becomes_other; now split].
      unfold query_reply. rewrite Hk. destruct (send_message _ _ _ _ _ _ _ _) as [[] ?]; now split. }
    apply (letters_step s _ l IH); auto.
    + intros v. destruct (ti_sides _ IH v) as (evs & He). exists evs.
      apply (side_same s _ v evs [l] He IH); auto; apply Hq.
    + exact (ti_ids _ IH).
    + intros e He. unfold replies. cbn [becomes tk_replied]. apply in_or_app. now left.
    + intros v. apply Hq.
    + intros id0 q0 H0. rewrite Hms in H0. discriminate.
    + intros id0 an H0. rewrite Hms in H0. injection H0 as <- <-. exists k, query. rewrite Hf. split; [|exact Hk].
      unfold replies. cbn [becomes tk_replied]. apply in_or_app. right. now left.
  - assert (Hh : forall v, qn_handed (qnode_of (reads s w q) v) = qn_handed (qnode_of s v)).
    { intros v. unfold reads. destruct (who_cases v w) as [-> | ->]; [now rewrite becomes_same|now rewrite becomes_other]. }
    destruct (IH) as [H1 H2 H3 H4 H5 H6]. split; auto.
    + intros v. destruct (H1 v) as (evs & He). destruct (who_cases v w) as [-> | ->].
      * exists (evs ++ [ERead q]). apply (side_step s _ w evs [ERead q] [] [] He); auto.
        -- unfold reads. now rewrite becomes_same.
        -- unfold asked_by. cbn. now rewrite app_nil_r.
        -- intros id0 an [H|[]]. discriminate.
        -- intros q0 [H|[]]. discriminate.
        -- cbn. now rewrite app_nil_r.
      * exists evs. apply (side_same s _ (other w) evs [] He IH); auto.
        -- unfold reads. now rewrite becomes_other.
        -- cbn. now rewrite app_nil_r.
    + intros l id an Hin Hm. destruct (H5 l id an Hin Hm) as (k & query & Hr & Hk). exists k, query. split; [exact Hr|].
      unfold handed in *. now rewrite Hh.
  - assert (Hh : forall v, qn_handed (qnode_of (abandons s w q) v) = qn_handed (qnode_of s v)).
    { intros v. unfold abandons. destruct (who_cases v w) as [-> | ->]; [now rewrite becomes_same|now rewrite becomes_other]. }
    destruct (IH) as [H1 H2 H3 H4 H5 H6]. split; auto.
    + intros v. destruct (H1 v) as (evs & He). destruct (who_cases v w) as [-> | ->].
      * exists (evs ++ [EGiveUp q; EDrop q]). apply (side_step s _ w evs [EGiveUp q; EDrop q] [] [] He); auto.
        -- unfold abandons. now rewrite becomes_same.
        -- unfold asked_by. cbn. now rewrite app_nil_r.
        -- intros id0 an [H|[H|[]]]; discriminate.
        -- intros q0 [H|[H|[]]]; [|discriminate]. injection H as <-. apply abandoned_ends.
           rewrite (list_length _ evs); [|now rewrite (so_asked _ _ _ He); apply asked_by_ids|reflexivity].
           rewrite (so_asked _ _ _ He), map_length. exact Hlt.
        -- cbn. now rewrite app_nil_r.
      * exists evs. apply (side_same s _ (other w) evs [] He IH); auto.
        -- unfold abandons. now rewrite becomes_other.
        -- cbn. now rewrite app_nil_r.
    + intros l id an Hin Hm. destruct (H5 l id an Hin Hm) as (k & query & Hr & Hk). exists k, query. split; [exact Hr|].
      unfold handed in *. now rewrite Hh.
Qed.

Lemma first_answer_event : forall evs q id d, nth_error (first_answers evs) q = Some (id, Some d) -> In (EAnswer id d) evs.
Proof.
  induction evs as [|e evs IH] using rev_ind; intros q id d H; [now destruct q|].
  rewrite first_answers_snoc in H. apply in_or_app.
  destruct e as [i|i an|i|i|i|i]; cbn [note] in H; try (left; now apply (IH q)).
  - destruct (lt_dec q (length (first_answers evs))) as [L|L].
    + rewrite nth_error_app1 in H by exact L. left. now apply (IH q).
    + rewrite nth_error_app2 in H by lia. destruct (q - _)%nat as [|z]; [discriminate|destruct z; discriminate].
  - rewrite nth_error_map in H. destruct (nth_error (first_answers evs) q) as [[i0 [d0|]]|] eqn:E; cbn in H; try discriminate.
    + injection H as <- <-. left. now apply (IH q).
    + destruct (bytes_eqb i0 i) eqn:Eb; [|discriminate]. injection H as <- <-. right. left. f_equal.
      symmetry. now apply bytes_eqb_eq.
Qed.
Lemma first_answer_noted : forall evs q id, nth_error (asked_ids evs) q = Some id ->
  exists d, nth_error (first_answers evs) q = Some (id, d).
Proof.
  intros evs q id H. rewrite <- asked_first, nth_error_map in H. destruct (nth_error (first_answers evs) q) as [[i d]|]; [|discriminate].
  injection H as <-. now exists d.
Qed.

Lemma same_query : forall s w id query query', talk_inv s -> In (w, id, query) (tk_asked s) -> In (w, id, query') (tk_asked s) -> query = query'.
Proof.
  intros s w id query query' HI H1 H2. pose proof (ti_ids _ HI) as Hn. revert H1 H2 Hn. generalize (tk_asked s) as l.
  induction l as [|[[v i] q] l IH]; cbn; intros H1 H2 Hn; [tauto|]. apply List.NoDup_cons_iff in Hn as [Hn1 Hn2].
  assert (Hin : forall q0, In (w, id, q0) l -> In id (map (fun e : who * bytes * bytes => snd (fst e)) l)).
  { intros q0 H. apply in_map_iff. exists (w, id, q0). now split. }
  destruct H1 as [H1|H1], H2 as [H2|H2].
  - congruence.
  - injection H1 as -> -> ->. destruct (Hn1 (Hin _ H2)).
  - injection H2 as -> -> ->. destruct (Hn1 (Hin _ H1)).
  - auto.
Qed.

Theorem handed_asked : forall s w k entry, talking P fuel a b s -> nth_error (qn_handed (qnode_of s w)) k = Some entry ->
  exists id query, entry = (idw w, idw (other w), id, query) /\ In (other w, id, query) (tk_asked s).
Proof.
  intros s w k [[[lo pe] id] query] Hs Hk. pose proof (talk_invariant s Hs) as HI. destruct (ti_sides _ HI w) as (evs & He).
  destruct (so_handed _ _ _ He _ _ _ _ (nth_error_In _ _ Hk)) as (-> & -> & i & l & _ & Hn & Hf & Hm).
  exists id, query. split; [reflexivity|]. rewrite <- Hf. exact (ti_queries _ HI l id query (nth_error_In _ _ Hn) Hm).
Qed.

Theorem answers_genuine : forall s w q answer, talking P fuel a b s -> result s w q = Some (Some answer) ->
  exists id query k, nth_error (asked_by s w) q = Some (id, query)
    /\ handed P a b s (other w) k id query /\ In (other w, k, answer) (tk_replied s).
Proof.
  intros s w q answer Hs Hr. pose proof (talk_invariant s Hs) as HI. destruct (ti_sides _ HI w) as (evs & He).
  assert (Hnd : List.NoDup (asked_ids evs)).
  { rewrite (so_asked _ _ _ He). apply asked_by_ids. apply ti_ids. exact HI. }
  unfold result, query_returned in Hr. rewrite (so_run _ _ _ He) in Hr.
  destruct (answers_matched evs q answer Hnd Hr) as (id & Hfa). pose proof (first_answer_event evs q id answer Hfa) as Hev.
  destruct (so_answers _ _ _ He id answer Hev) as (i & l & _ & Hn & Hf & Hm).
  destruct (ti_answers _ HI l id answer (nth_error_In _ _ Hn) Hm) as (k & query & Hrep & Hk). rewrite Hf in Hrep, Hk.
  assert (Hid : nth_error (map fst (asked_by s w)) q = Some id).
  { rewrite <- (so_asked _ _ _ He), <- asked_first, nth_error_map, Hfa. reflexivity. }
  rewrite nth_error_map in Hid. destruct (nth_error (asked_by s w) q) as [[id' query']|] eqn:Eq; [|discriminate]. injection Hid as ->.
  destruct (handed_asked s (other w) k _ Hs Hk) as (id2 & query2 & E2 & Hin). injection E2 as <- <-. rewrite other_other in Hin.
  assert (query' = query) as ->.
  { apply (same_query s w id query' query HI); [|exact Hin]. apply asked_by_In. exact (nth_error_In _ _ Eq). }
  exists id, query, k. auto.
Qed.

Theorem query_handed : forall s i l x id query, talking P fuel a b s -> may_get a b (pair_of s) i l (rv_now x) ->
  ~ In i (tk_seen s) -> lt_message l = MQuery id query ->
  let v := other (lt_from l) in
  qn_handed (qnode_of (receives P fuel s i l x) v) = qn_handed (qnode_of s v) ++ [(idw v, idw (other v), id, query)].
Proof.
  intros s i l x id query Hs Hg Hi Hm v. destruct (receives_node s i l x Hs Hg) as (ds & n' & En & _ & Hf & _).
  fold v in En. rewrite En, (Hf Hi). unfold shown, NodeSpec.delivered_as. rewrite Hm. fold v. cbn [fold_left delivered qn_handed].
  replace (other v) with (lt_from l) by (unfold v; now rewrite other_other). reflexivity.
Qed.

Theorem answer_arrives : forall s w q id query i l x answer, talking P fuel a b s ->
  nth_error (asked_by s w) q = Some (id, query) -> result s w q = None ->
  may_get a b (pair_of s) i l (rv_now x) -> ~ In i (tk_seen s) -> lt_from l = other w -> lt_message l = MAnswer id answer ->
  exists answer', result (reads (receives P fuel s i l x) w q) w q = Some (Some answer')
    /\ (~ answer_seen s w id -> answer' = answer).
Proof.
  intros s w q id query i l x answer Hs Hq Hnone Hg Hi Hf Hm. pose proof (talk_invariant s Hs) as HI.
  destruct (ti_sides _ HI w) as (evs & He).
  assert (Hnd : List.NoDup (asked_ids evs)).
  { rewrite (so_asked _ _ _ He). apply asked_by_ids. apply ti_ids. exact HI. }
  destruct (receives_node s i l x Hs Hg) as (ds & n' & En & _ & Hfirst & _). rewrite (Hfirst Hi) in En. clear Hfirst.
  unfold shown, NodeSpec.delivered_as in En. rewrite Hm in En. rewrite Hf, other_other in En.
  cbn [fold_left delivered qn_queries qn_handed qn_node] in En.
  set (evs' := evs ++ [EAnswer id answer; ESend 0]).
  assert (Hids : asked_ids evs' = asked_ids evs).
  { unfold evs'. rewrite asked_ids_app. cbn [asked_ids]. apply app_nil_r. }
  assert (Hqid : nth_error (asked_ids evs) q = Some id).
  { rewrite (so_asked _ _ _ He), nth_error_map, Hq. reflexivity. }
  destruct (first_answer_noted evs q id Hqid) as (d & Hd).
  assert (Hnote : forall d0, d = d0 -> nth_error (first_answers evs') q = Some (id, Some (match d0 with Some y => y | None => answer end))).
  { intros d0 <-. unfold evs'. replace (evs ++ _) with ((evs ++ [EAnswer id answer]) ++ [ESend 0]) by (rewrite <- app_assoc; reflexivity).
    rewrite first_answers_snoc. cbn [note]. rewrite first_answers_snoc. cbn [note]. rewrite nth_error_map, Hd. cbn.
    destruct d as [y|]; [reflexivity|]. assert (bytes_eqb id id = true) as -> by now apply bytes_eqb_eq. reflexivity. }
  exists (match d with Some y => y | None => answer end). split.
  - unfold result, query_returned, reads. rewrite becomes_same. unfold query_wait. cbn [qn_queries]. rewrite En. cbn [qn_queries].
    rewrite (so_run _ _ _ He), <- run_app. fold evs'.
    change (query_step (query_run queries_new evs') (ERead q)) with (query_run (query_run queries_new evs') [ERead q]).
    rewrite <- run_app. apply (answers_arrive evs' q id).
    + now rewrite Hids.
    + now apply Hnote.
    + unfold evs'. intros Hin. apply in_app_or in Hin as [Hin|[Hin|[Hin|[]]]]; try discriminate.
      apply (so_gave_up _ _ _ He q Hin). unfold result, query_returned in Hnone. now rewrite (so_run _ _ _ He) in Hnone.
    + unfold evs'. rewrite run_app. apply answered_at_once. exact (so_sent _ _ _ He).
  - intros Hna. destruct d as [y|]; [|reflexivity]. exfalso. apply Hna.
    destruct (so_answers _ _ _ He id y (first_answer_event _ _ _ _ Hd)) as (j & l0 & H). exists j, l0, y. exact H.
Qed.

Lemma last_posted : forall s s' l, tk_letters s' = tk_letters s ++ [l] ->
  last_one s' = Some l /\ (length (tk_letters s') - 1)%nat = length (tk_letters s).
Proof.
  intros s s' l H. unfold last_one. rewrite H, app_length. cbn [length].
  replace (length (tk_letters s) + 1 - 1)%nat with (length (tk_letters s)) by lia.
  split; [|reflexivity]. rewrite nth_error_app2, Nat.sub_diag by lia. reflexivity.
Qed.

Theorem round_trip : forall s w id query answer x1 y1 x2 y2, talking P fuel a b s ->
  let v := other w in
  let q := length (asked_by s w) in
  let k := length (qn_handed (qnode_of s v)) in
  let s1 := asks P a b s w id query x1 in
  let s2 := last_arrives P fuel s1 y1 in
  let s3 := replies P a b s2 v k id answer x2 in
  let s4 := last_arrives P fuel s3 y2 in
  ~ In id (map (fun e => snd (fst e)) (tk_asked s)) ->
  may_say_to P a b s w (MQuery id query) x1 -> last_timely a b s1 y1 ->
  may_say_to P a b s2 v (MAnswer id answer) x2 -> last_timely a b s3 y2 ->
  talking P fuel a b s4 /\ handed P a b s2 v k id query /\ result (reads s4 w q) w q = Some (Some answer).
Proof.
  intros s w id query answer x1 y1 x2 y2 Hs v q k s1 s2 s3 s4 Hid M1 T1 M2 T2.
  assert (X1 : talking P fuel a b s1) by now apply tk_asks.
  destruct (say_posts (pair_of s) w (sn_now x1) (MQuery id query) (sn_priority x1) (sn_rnd x1) (talking_exchange s Hs) M1) as (l1 & L1 & F1 & G1 & _).
  destruct (last_posted s s1 l1 L1) as (La1 & Le1).
  pose proof (ti_seen _ (talk_invariant s Hs)) as Hseen.
  assert (Hg1 : may_get a b (pair_of s1) (length (tk_letters s1) - 1) l1 (rv_now y1)).
  { split; [exact La1|]. now apply T1. }
  assert (E2 : s2 = receives P fuel s1 (length (tk_letters s1) - 1) l1 y1).
  { unfold s2, last_arrives. now rewrite La1. }
  assert (Hnew1 : ~ In (length (tk_letters s1) - 1)%nat (tk_seen s1)).
  { rewrite Le1. change (tk_seen s1) with (tk_seen s). intros H. specialize (Hseen _ H). lia. }
  assert (X2 : talking P fuel a b s2) by (rewrite E2; now apply tk_receives).
  assert (Hh : handed P a b s2 v k id query).
  { unfold handed. rewrite E2. pose proof (query_handed s1 _ l1 y1 id query X1 Hg1 Hnew1 G1) as Hx. rewrite F1 in Hx. fold v in Hx.
    cbv zeta in Hx. rewrite Hx.
    assert (Hsame : qnode_of s1 v = qnode_of s v) by (unfold s1, asks, v; apply becomes_other).
    rewrite Hsame, nth_error_app2 by (unfold k; lia). unfold k. rewrite Nat.sub_diag. reflexivity. }
  assert (X3 : talking P fuel a b s3) by (eapply tk_replies; eauto).
  destruct (say_posts (pair_of s2) v (sn_now x2) (MAnswer id answer) (sn_priority x2) (sn_rnd x2) (talking_exchange s2 X2) M2) as (l2 & L2 & F2 & G2 & _).
  destruct (last_posted s2 s3 l2 L2) as (La2 & Le2).
  pose proof (talk_invariant s2 X2) as HI2. pose proof (talk_invariant s1 X1) as HI1.
  assert (Hg2 : may_get a b (pair_of s3) (length (tk_letters s3) - 1) l2 (rv_now y2)).
  { split; [exact La2|]. now apply T2. }
  assert (E4 : s4 = receives P fuel s3 (length (tk_letters s3) - 1) l2 y2).
  { unfold s4, last_arrives. now rewrite La2. }
  assert (Hnew2 : ~ In (length (tk_letters s3) - 1)%nat (tk_seen s3)).
  { rewrite Le2. change (tk_seen s3) with (tk_seen s2). intros H. pose proof (ti_seen _ HI2 _ H). lia. }
  assert (X4 : talking P fuel a b s4) by (rewrite E4; now apply tk_receives).
  split; [exact X4|]. split; [exact Hh|].
  assert (Hasked : asked_by s3 w = asked_by s w ++ [(id, query)]).
  { transitivity (asked_by s2 w); [reflexivity|]. rewrite E2. transitivity (asked_by s1 w); [reflexivity|].
    rewrite (asked_by_app s s1 (w, id, query) w eq_refl). now destruct w. }
  assert (Hq : nth_error (asked_by s3 w) q = Some (id, query)).
  { rewrite Hasked, nth_error_app2 by (unfold q; lia). unfold q. now rewrite Nat.sub_diag. }
  (* no answer to this id has been sent before *)
  assert (Hnoans : forall l, In l (tk_letters s2) -> forall an, lt_message l <> MAnswer id an).
  { intros l Hin an Hm.
    assert (Hl2 : tk_letters s2 = tk_letters s1) by (rewrite E2; exact (proj1 (receives_lists s1 _ l1 y1 X1 Hg1))).
    assert (Hl1 : tk_letters s1 = tk_letters s ++ [l1]) by exact L1.
    rewrite Hl2, Hl1 in Hin. apply In_snoc in Hin as [Hin| ->]; [|congruence].
    destruct (ti_answers _ (talk_invariant s Hs) l id an Hin Hm) as (k0 & query0 & _ & Hk0).
    destruct (handed_asked s (lt_from l) k0 _ Hs Hk0) as (id2 & qu2 & Ee & Hin2). injection Ee as <- <-.
    apply Hid. apply in_map_iff. eexists. split; [|exact Hin2]. reflexivity. }
  assert (Hns : ~ answer_seen s3 w id).
  { intros (i & l & an & Hi & Hn & Hf & Hm). change (tk_seen s3) with (tk_seen s2) in Hi.
    pose proof (ti_seen _ HI2 _ Hi) as Hlt. assert (Hl3 : tk_letters s3 = tk_letters s2 ++ [l2]) by exact L2.
    rewrite Hl3, nth_error_app1 in Hn by exact Hlt. exact (Hnoans l (nth_error_In _ _ Hn) an Hm). }
  assert (Hnone : result s3 w q = None).
  { destruct (result s3 w q) as [r|] eqn:Er; [|reflexivity]. exfalso.
    assert (Hsame : qn_queries (qnode_of s3 w) = query_step (qn_queries (qnode_of s w)) (EAsk id)).
    { transitivity (qn_queries (qnode_of s2 w)).
      { unfold s3, replies. rewrite <- (other_other w) at 1. unfold v at 1. rewrite becomes_other. now rewrite other_other. }
      rewrite E2. rewrite <- F1 at 1. rewrite (proj2 (proj2 (receives_lists s1 _ l1 y1 X1 Hg1))). rewrite F1.
      unfold s1, asks. rewrite becomes_same, (asks_sent s w id query x1 Hs M1). reflexivity. }
    unfold result, query_returned in Er. rewrite Hsame in Er. cbn [query_step] in Er. unfold query_result in Er. cbn [q_list] in Er.
    assert (Hlen : forall o, length (close (q_list (qn_queries (qnode_of s w))) o) = q).
    { intros o. assert (Hb : length (q_list (qn_queries (qnode_of s w))) = q).
      { destruct (ti_sides _ (talk_invariant s Hs) w) as (evs & He).
        rewrite (list_length _ evs); [|rewrite (so_asked _ _ _ He); apply asked_by_ids; exact (ti_ids _ (talk_invariant s Hs))|exact (so_run _ _ _ He)].
        rewrite (so_asked _ _ _ He), map_length. reflexivity. }
      destruct o as [j|]; cbn [close]; [|exact Hb].
      destruct (q_list (qn_queries (qnode_of s w)) !! j) as [[? []]|]; try exact Hb.
      unfold set_phase. rewrite imap_length. exact Hb. }
    rewrite lookup_app_r in Er by (rewrite Hlen; lia). rewrite Hlen, Nat.sub_diag in Er. cbn in Er. discriminate. }
  destruct (answer_arrives s3 w q id query _ l2 y2 answer X3 Hq Hnone Hg2 Hnew2 F2 G2) as (an & Hres & Han).
  rewrite E4, Hres, (Han Hns). reflexivity.
Qed.

Theorem handed_once : both_remember a b -> forall s w, talking P fuel a b s -> (length (tk_letters s) < 256)%nat ->
  List.NoDup (map (fun e => snd (fst e)) (qn_handed (qnode_of s w))).
Proof.
  intros [Ra Rb] s w Hs. revert w.
  assert (Hrem : forall v, o_history_enabled (pa_opts (party v)) = true) by now intros [].
  induction Hs as [|s w id query x Hs IH Hm Hid|s w data x Hs IH Hm|s i l x Hs IH Hg|s w k id query answer x Hs IH Hk Hm|s w q Hs IH|s w q Hs IH Hlt]; intros v Hlen.
  - destruct v; constructor.
  - destruct (say_posts (pair_of s) w (sn_now x) (MQuery id query) (sn_priority x) (sn_rnd x) (talking_exchange s Hs) Hm) as (l & Hl & _).
    assert (Hl' : tk_letters (asks P a b s w id query x) = tk_letters s ++ [l]) by exact Hl.
    rewrite Hl', app_length in Hlen. specialize (IH v ltac:(lia)).
    unfold asks. destruct (who_cases v w) as [-> | ->]; [rewrite becomes_same|now rewrite becomes_other].
    rewrite (asks_sent s w id query x Hs Hm). exact IH.
  - destruct (say_posts (pair_of s) w (sn_now x) (MCustom data) (sn_priority x) (sn_rnd x) (talking_exchange s Hs) Hm) as (l & Hl & _).
    assert (Hl' : tk_letters (tells P a b s w data x) = tk_letters s ++ [l]) by exact Hl.
    rewrite Hl', app_length in Hlen. specialize (IH v ltac:(lia)).
    unfold tells. destruct (who_cases v w) as [-> | ->]; [now rewrite becomes_same|now rewrite becomes_other].
  - destruct (receives_lists s i l x Hs Hg) as (El & Es & En). rewrite El in Hlen. specialize (IH v Hlen).
    destruct (who_cases v (lt_from l)) as [-> | ->]; [now rewrite En|].
    destruct (receives_node s i l x Hs Hg) as (ds & n' & Eq & Hds & Hf & Hrep). rewrite Eq.
    destruct (in_dec Nat.eq_dec i (tk_seen s)) as [Hin|Hin].
    + rewrite (Hrep (Hrem _) Hin Hlen). exact IH.
    + rewrite (Hf Hin). unfold shown, NodeSpec.delivered_as.
      destruct (lt_message l) as [qi an|d|k0 pk d|h t o pd|k0 d|qi qd| |rd] eqn:Em; cbn [fold_left delivered qn_handed]; try exact IH.
      rewrite map_app. cbn [map fst snd].
      apply Permutation.Permutation_NoDup with (l := qi :: map (fun e => snd (fst e)) (qn_handed (qnode_of s (other (lt_from l))))).
      { apply Permutation.Permutation_cons_append. }
      constructor; [|exact IH]. intros Hx. apply in_map_iff in Hx as ([[[lo pe] id0] query0] & E0 & Hx). cbn in E0. subst id0.
      pose proof (talk_invariant s Hs) as HI. destruct (ti_sides _ HI (other (lt_from l))) as (evs & He).
      destruct (so_handed _ _ _ He _ _ _ _ Hx) as (_ & _ & j & l0 & Hj & Hn & _ & Hm0).
      apply Hin. rewrite <- (ti_one _ HI j i l0 l qi query0 qd Hn (proj1 Hg) Hm0 Em). exact Hj.
  - destruct (say_posts (pair_of s) w (sn_now x) (MAnswer id answer) (sn_priority x) (sn_rnd x) (talking_exchange s Hs) Hm) as (l & Hl & _).
    assert (Hl' : tk_letters (replies P a b s w k id answer x) = tk_letters s ++ [l]) by exact Hl.
    rewrite Hl', app_length in Hlen. specialize (IH v ltac:(lia)).
    unfold replies. destruct (who_cases v w) as [-> | ->]; [rewrite becomes_same|now rewrite becomes_other].
    unfold query_reply. rewrite Hk. destruct (send_message _ _ _ _ _ _ _ _) as [[] ?]; exact IH.
  - unfold reads. destruct (who_cases v w) as [-> | ->]; [rewrite becomes_same|rewrite becomes_other]; now apply IH.
  - unfold abandons. destruct (who_cases v w) as [-> | ->]; [rewrite becomes_same|rewrite becomes_other]; now apply IH.
Qed.
End facts.

(** The samples. *)
Lemma sample_may_say : forall s w m x, u32_ok (sn_now x) -> small_payload m -> length (r_bytes (sn_rnd x)) = 10%nat ->
  N.of_nat (length (tk_letters s)) < 2 ^ 62 -> may_say_to light sample_alice sample_bob s w m x.
Proof.
  intros s w m x H1 H2 H3 H4. split; [exact H1|]. split; [exact H2|]. split; [exact H3|]. split; [exact H4|].
  apply List.Forall_forall. intros l _ Hv. exfalso. destruct (lt_from l); discriminate.
Qed.
Lemma sample_counts :
  length (tk_letters (sample_talk1 light)) = 1%nat /\ length (tk_letters (sample_talk2 light)) = 1%nat
  /\ length (tk_letters (sample_talk3 light)) = 2%nat /\ length (tk_letters (sample_talk4 light)) = 2%nat
  /\ length (tk_letters (sample_talk5 light)) = 2%nat.
Proof. repeat split; vm_compute; reflexivity. Qed.
Lemma sample_times : last_timely sample_alice sample_bob (sample_talk1 light) (sample_receiving 1001)
  /\ last_timely sample_alice sample_bob (sample_talk3 light) (sample_receiving 1003)
  /\ last_timely sample_alice sample_bob (sample_talk4 light) (sample_receiving 1004).
Proof.
  assert (H1 : option_map (fun l => (lt_from l, lt_time l)) (last_one (sample_talk1 light)) = Some (Alice, 1000)) by (vm_compute; reflexivity).
  assert (H3 : option_map (fun l => (lt_from l, lt_time l)) (last_one (sample_talk3 light)) = Some (Bob, 1002)) by (vm_compute; reflexivity).
  assert (H4 : option_map (fun l => (lt_from l, lt_time l)) (last_one (sample_talk4 light)) = Some (Bob, 1002)) by (vm_compute; reflexivity).
  split; [|split]; intros l Hl; unfold timely.
  - rewrite Hl in H1. injection H1 as -> ->. cbn. lia.
  - rewrite Hl in H3. injection H3 as -> ->. cbn. lia.
  - rewrite Hl in H4. injection H4 as -> ->. cbn. lia.
Qed.
Lemma last_arrives_talking : forall P fuel a b s x, talking P fuel a b s -> last_timely a b s x -> talking P fuel a b (last_arrives P fuel s x).
Proof.
  intros P fuel a b s x Hs Ht. unfold last_arrives. destruct (last_one s) as [l|] eqn:E; [|exact Hs].
  apply tk_receives; [exact Hs|]. split; [exact E|]. now apply Ht.
Qed.
Lemma sample_may :
  may_say_to light sample_alice sample_bob (talk_start light sample_alice sample_bob) Alice (MQuery (sample_bytes 3) [2]) (sample_sending 1000)
  /\ may_say_to light sample_alice sample_bob (sample_talk2 light) Bob (MAnswer (sample_bytes 3) [3]) (sample_sending 1002)
  /\ may_say_to light sample_alice sample_bob (sample_talk5 light) Alice (MQuery (sample_bytes 4) [5]) (sample_sending 1005).
Proof.
  destruct sample_counts as (C1 & C2 & C3 & C4 & C5). split; [|split]; apply sample_may_say.
  - reflexivity.
  - split; [split; reflexivity|cbn; lia].
  - reflexivity.
  - reflexivity.
  - reflexivity.
  - split; [split; reflexivity|cbn; lia].
  - reflexivity.
  - rewrite C2. reflexivity.
  - reflexivity.
  - split; [split; reflexivity|cbn; lia].
  - reflexivity.
  - rewrite C5. reflexivity.
Qed.
Lemma sample_talking : talking light 0 sample_alice sample_bob (sample_talk7 light)
  /\ talking light 0 sample_alice sample_bob (sample_talk4 light).
Proof.
  destruct sample_may as (M1 & M2 & M3). destruct sample_times as (T1 & T3 & T4).
  assert (X1 : talking light 0 sample_alice sample_bob (sample_talk1 light)).
  { apply tk_asks; [apply tk_starts|exact M1|]. intros []. }
  assert (X2 : talking light 0 sample_alice sample_bob (sample_talk2 light)) by (apply last_arrives_talking; assumption).
  assert (Hh : handed light sample_alice sample_bob (sample_talk2 light) Bob 0 (sample_bytes 3) [2]) by (vm_compute; reflexivity).
  assert (X3 : talking light 0 sample_alice sample_bob (sample_talk3 light)) by (eapply tk_replies; [exact X2|exact Hh|exact M2]).
  assert (X4 : talking light 0 sample_alice sample_bob (sample_talk4 light)) by (apply last_arrives_talking; assumption).
  assert (X5 : talking light 0 sample_alice sample_bob (sample_talk5 light)) by (apply tk_reads; apply last_arrives_talking; assumption).
  split; [|exact X4]. apply tk_abandons.
  - apply tk_asks; [exact X5|exact M3|]. intros H. assert (E : tk_asked (sample_talk5 light) = [(Alice, sample_bytes 3, [2])]) by (vm_compute; reflexivity).
    rewrite E in H. destruct H as [H|[]].
    assert (Hd : bytes_eqb (sample_bytes 3) (sample_bytes 4) = false) by (vm_compute; reflexivity).
    exact (proj1 (bytes_eqb_neq _ _) Hd H).
  - assert (E : asked_by (sample_talk6 light) Alice = [(sample_bytes 3, [2]); (sample_bytes 4, [5])]) by (vm_compute; reflexivity).
    rewrite E. cbn. lia.
Qed.
