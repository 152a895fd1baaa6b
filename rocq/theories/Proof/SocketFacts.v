(** The receive buffer gets as large as the system allows. *)
From Coq Require Import List ZArith Lia Bool.
From Coq Require Import ZifyBool.
From Verif.Model Require Import Socket.
From Verif.Spec Require Import SocketSpec.
Import ListNotations.
Open Scope Z_scope.

Lemma c_int_ok : forall x, - 2 ^ 31 <= x < 2 ^ 31 -> c_int x = Some x.
Proof. intros x H. unfold c_int. destruct (_ && _) eqn:E; [reflexivity|]. lia. Qed.
Lemma buffer_size_app : forall c t x b, buffer_size c (t ++ [(x, b)]) = if b then x else buffer_size c t.
Proof. intros. unfold buffer_size. rewrite fold_left_app. reflexivity. Qed.
Lemma search_ends : forall fuel accept tried min max, 0 <= min -> min <= 2 ^ 24 + 1 -> -1 <= max <= 2 ^ 24 ->
  max - min + 1 < 2 ^ Z.of_nat fuel ->
  exists l, search fuel accept tried min max = Sizes (tried ++ l)
    /\ Forall (fun t => min <= fst t <= max) l.
Proof.
  induction fuel as [|f IH]; intros accept tried min max H0 H1 H2 Hf; cbn [search].
  - change (2 ^ Z.of_nat 0) with 1 in Hf. destruct (min <=? max) eqn:E; [lia|]. exists []. rewrite app_nil_r. auto.
  - destruct (min <=? max) eqn:E; [|exists []; rewrite app_nil_r; auto]. apply Z.leb_le in E.
    rewrite Nat2Z.inj_succ, Z.pow_succ_r in Hf by lia.
    assert (Hq : 0 <= Z.quot (max - min) 2 /\ 2 * Z.quot (max - min) 2 <= max - min < 2 * Z.quot (max - min) 2 + 2).
    { rewrite Z.quot_div_nonneg by lia. pose proof (Z.div_mod (max - min) 2). pose proof (Z.mod_pos_bound (max - min) 2). lia. }
    destruct Hq as (Hq0 & Hq1). rewrite (c_int_ok (max - min)) by lia.
    set (d := Z.quot (max - min) 2) in *. clearbody d. rewrite (c_int_ok (min + d)) by lia.
    destruct (accept tried (min + d)).
    + rewrite (c_int_ok (min + d + 1)) by lia.
      destruct (IH accept (tried ++ [(min + d, true)]) (min + d + 1) max) as (l & Hl & Hb); [lia..|].
      exists ((min + d, true) :: l). rewrite Hl, <- app_assoc. split; [reflexivity|]. constructor; [cbn [fst]; lia|].
      eapply Forall_impl; [|exact Hb]. cbn beta. intros t Ht. lia.
    + rewrite (c_int_ok (min + d - 1)) by lia.
      destruct (IH accept (tried ++ [(min + d, false)]) min (min + d - 1)) as (l & Hl & Hb); [lia..|].
      exists ((min + d, false) :: l). rewrite Hl, <- app_assoc. split; [reflexivity|]. constructor; [cbn [fst]; lia|].
      eapply Forall_impl; [|exact Hb]. cbn beta. intros t Ht. lia.
Qed.
Lemma c_int_some : forall x y, c_int x = Some y -> y = x.
Proof. intros x y. unfold c_int. destruct (_ && _); [|discriminate]. now intros [= ->]. Qed.
Lemma search_finds : forall limit accept, limited limit accept -> forall fuel tried l min max s0,
  search fuel accept tried min max = Sizes l ->
  buffer_size s0 l = if min <=? Z.min limit max then Z.min limit max else buffer_size s0 tried.
Proof.
  intros limit accept Hl. induction fuel as [|f IH]; intros tried l min max s0 H; cbn [search] in H.
  - destruct (min <=? max) eqn:E; [discriminate|]. injection H as <-. destruct (min <=? Z.min limit max) eqn:E2; [lia|reflexivity].
  - destruct (min <=? max) eqn:E; [|injection H as <-; destruct (min <=? Z.min limit max) eqn:E2; [lia|reflexivity]].
    apply Z.leb_le in E.
    assert (Hq : 0 <= Z.quot (max - min) 2 <= max - min).
    { rewrite Z.quot_div_nonneg by lia. pose proof (Z.div_mod (max - min) 2). pose proof (Z.mod_pos_bound (max - min) 2). lia. }
    destruct (c_int (max - min)) as [r|] eqn:Er; [|discriminate]. apply c_int_some in Er. subst r.
    destruct (c_int (min + _)) as [avg|] eqn:Ea; [|discriminate]. apply c_int_some in Ea.
    set (d := Z.quot (max - min) 2) in *. clearbody d. rewrite Hl in H. destruct (avg <=? limit) eqn:Eq.
    + destruct (c_int (avg + 1)) as [m|] eqn:Em; [|discriminate]. apply c_int_some in Em. subst m.
      rewrite (IH _ _ _ _ s0 H), buffer_size_app. subst avg.
      destruct (min + d + 1 <=? Z.min limit max) eqn:E1, (min <=? Z.min limit max) eqn:E2; lia.
    + destruct (c_int (avg - 1)) as [m|] eqn:Em; [|discriminate]. apply c_int_some in Em. subst m.
      rewrite (IH _ _ _ _ s0 H), buffer_size_app. subst avg.
      destruct (min <=? Z.min limit (min + d - 1)) eqn:E1, (min <=? Z.min limit max) eqn:E2; lia.
Qed.
Lemma search_stop : forall fuel accept tried min max, (min <=? max) = false -> search fuel accept tried min max = Sizes tried.
Proof. intros [|f] accept tried min max E; cbn [search]; now rewrite E. Qed.
Theorem buffer_search_ends : forall accept current, 0 <= current < 2 ^ 31 ->
  exists tried, maximise_recv_buffer 25 accept current = Sizes tried
    /\ Forall (fun t => current <= fst t <= 2 ^ 24) tried /\ current <= buffer_size current tried.
Proof.
  intros accept current Hc. unfold maximise_recv_buffer, MAX_UDP_RECV_BUFFER_SIZE.
  assert (H : exists l, search 25 accept [] current (2 ^ 24) = Sizes l /\ Forall (fun t => current <= fst t <= 2 ^ 24) l).
  { destruct (current <=? 2 ^ 24) eqn:E.
    - assert (Hf : 2 ^ 24 - current + 1 < 2 ^ Z.of_nat 25) by (change (2 ^ Z.of_nat 25) with 33554432; lia).
      destruct (search_ends 25 accept [] current (2 ^ 24)) as (l & H & Hb); [lia|lia|lia|exact Hf|]. exists l. split; [exact H|exact Hb].
    - exists []. split; [exact (search_stop 25 accept [] current (2 ^ 24) E)|constructor]. }
  destruct H as (l & H & Hb). exists l. split; [exact H|]. split; [exact Hb|].
  unfold buffer_size. assert (Hs : current <= current) by lia. revert Hs. generalize current at 2 4 as s. clear H.
  induction Hb as [|[x b] l Hx Hb IH]; intros s Hs; cbn; [exact Hs|]. apply IH. cbn in Hx. destruct b; lia.
Qed.
Theorem buffer_largest : forall limit accept current tried fuel, limited limit accept -> 0 <= current < 2 ^ 31 ->
  maximise_recv_buffer fuel accept current = Sizes tried ->
  buffer_size current tried = Z.max current (Z.min limit (2 ^ 24)).
Proof.
  intros limit accept current tried fuel Hl Hc H. unfold maximise_recv_buffer, MAX_UDP_RECV_BUFFER_SIZE in H.
  rewrite (search_finds limit accept Hl _ _ _ _ _ current H). change (buffer_size current []) with current.
  destruct (_ <=? _) eqn:E; lia.
Qed.
