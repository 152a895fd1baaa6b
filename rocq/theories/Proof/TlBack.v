(** What parsers return is well formed. *)
From Coq Require Import List NArith Arith Bool Lia.
From Coq Require Import ZifyBool ZifyNat ZifyN.
From Verif.Base Require Import Bytes BytesFacts.
From Verif.Model Require Import Tl Scheme ProtoAdnl ProtoOverlay.
From Verif.Spec Require Import Codec.
From Verif.Proof Require Import TlFacts ProtoFacts.
Import ListNotations.
Open Scope N_scope.

Definition gives {A} (p : parser A) (wf : A -> Prop) : Prop :=
  forall l a r, bytes_ok l = true -> p l = Some (a, r) -> wf a /\ bytes_ok r = true.

Lemma bind_gives : forall A B (p : parser A) (f : A -> parser B) wa wb,
  gives p wa -> (forall a, wa a -> gives (f a) wb) -> gives (bind p f) wb.
Proof.
  intros A B p f wa wb Hp Hf l b r Hl. unfold bind. destruct (p l) as [[a r1]|] eqn:E; [|discriminate].
  destruct (Hp _ _ _ Hl E) as [Ha Hr]. intros H. exact (Hf a Ha _ _ _ Hr H).
Qed.

Lemma ret_gives : forall A (a : A) (wf : A -> Prop), wf a -> gives (ret a) wf.
Proof. intros A a wf Ha l x r Hl [= <- <-]. split; assumption. Qed.

Lemma fail_gives : forall A (wf : A -> Prop), gives fail wf.
Proof. intros A wf l a r _ H. discriminate. Qed.

Lemma take_gives : forall n, gives (take n) (fun b => length b = n /\ bytes_ok b = true).
Proof.
  intros n l a r Hl. unfold take. destruct (Nat.leb_spec n (length l)) as [H|H]; [|discriminate].
  intros [= <- <-]. rewrite firstn_length. split; [split; [lia|now apply bytes_ok_firstn]|now apply bytes_ok_skipn].
Qed.

Lemma u32_gives : gives get_u32 u32_ok.
Proof.
  unfold get_u32. eapply bind_gives; [apply take_gives|]. intros b [Hb Ho]. apply ret_gives.
  pose proof (of_le_bound b Ho) as H. rewrite Hb in H. exact H.
Qed.

Lemma u64_gives : gives get_u64 u64_ok.
Proof.
  unfold get_u64. eapply bind_gives; [apply take_gives|]. intros b [Hb Ho]. apply ret_gives.
  pose proof (of_le_bound b Ho) as H. rewrite Hb in H. exact H.
Qed.

Lemma hash_gives : gives get_hash hash_ok.
Proof. intros l a r Hl H. destruct (take_gives 32 l a r Hl H) as [[H1 _] H2]. split; assumption. Qed.

Lemma body_gives : forall p n, n < 2 ^ 24 -> gives (get_body p n) blob_ok.
Proof.
  intros p n Hn l a r Hl. unfold get_body. cbv zeta. destruct (N.ltb_spec (N.of_nat (length l)) (n + pad_len (p + n))); [discriminate|].
  intros [= <- <-]. split; [|now apply bytes_ok_skipn]. unfold blob_ok. rewrite firstn_length. lia.
Qed.

Lemma bytes_gives : gives get_bytes blob_ok.
Proof.
  intros l a r Hl. unfold get_bytes. destruct l as [|b l]; [discriminate|]. apply bytes_ok_cons in Hl as [Hb Hl].
  destruct (b =? 254).
  - revert a r Hl. generalize l. fold (gives (let* nb := take 3 in get_body 4 (of_le nb)) blob_ok).
    intros l0 a r Hl. revert l0 a r Hl.
    change (gives (let* nb := take 3 in get_body 4 (of_le nb)) blob_ok).
    eapply bind_gives; [apply take_gives|]. intros nb [H3 Ho]. apply body_gives.
    pose proof (of_le_bound nb Ho) as H. rewrite H3 in H. exact H.
  - intros H. refine (body_gives 1 b _ l a r Hl H). lia.
Qed.

Lemma public_key_gives : gives get_public_key public_key_ok.
Proof.
  unfold get_public_key. eapply bind_gives; [apply u32_gives|]. intros c _.
  destruct (c =? id_pub_ed25519); [eapply bind_gives; [apply hash_gives|]; intros; now apply ret_gives|].
  destruct (c =? id_pub_aes); [eapply bind_gives; [apply hash_gives|]; intros; now apply ret_gives|].
  destruct (c =? id_pub_overlay); [eapply bind_gives; [apply bytes_gives|]; intros; now apply ret_gives|].
  destruct (c =? id_pub_unenc); [eapply bind_gives; [apply bytes_gives|]; intros; now apply ret_gives|].
  apply fail_gives.
Qed.

Lemma many_gives : forall A (p : parser A) wf, gives p wf -> forall fuel n,
  gives (get_many fuel p n) (fun l => Forall wf l /\ N.of_nat (length l) = n).
Proof.
  intros A p wf Hp fuel. induction fuel as [|k IH]; intros n l a r Hl; cbn [get_many];
    destruct (N.eqb_spec n 0) as [->|Hn].
  - intros [= <- <-]. repeat split; [constructor|assumption].
  - discriminate.
  - intros [= <- <-]. repeat split; [constructor|assumption].
  - destruct (p l) as [[x r1]|] eqn:E; [|discriminate]. destruct (Hp _ _ _ Hl E) as [Hx Hr].
    destruct (get_many k p (n - 1) r1) as [[rest r2]|] eqn:E2; [|discriminate]. intros [= <- <-].
    destruct (IH _ _ _ _ Hr E2) as [[H1 H2] H3]. split; [|exact H3]. split; [now constructor|].
    cbn [length]. lia.
Qed.

Lemma vector_gives : forall A (p : parser A) wf, gives p wf -> gives (get_vector p) (vec_ok wf).
Proof.
  intros A p wf Hp l a r Hl. unfold get_vector, bind. destruct (get_u32 l) as [[n r1]|] eqn:E; [|discriminate].
  destruct (u32_gives _ _ _ Hl E) as [Hn Hr]. intros H. destruct (many_gives _ p wf Hp _ _ _ _ _ Hr H) as [[H1 H2] H3].
  split; [|exact H3]. split; [exact H1|]. rewrite H2. exact Hn.
Qed.

Lemma ov_node_gives : gives get_ov_node ov_node_ok.
Proof.
  unfold get_ov_node. eapply bind_gives; [apply public_key_gives|]. intros i Hi.
  eapply bind_gives; [apply hash_gives|]. intros o Ho. eapply bind_gives; [apply u32_gives|]. intros v Hv.
  eapply bind_gives; [apply bytes_gives|]. intros s Hs. apply ret_gives. unfold ov_node_ok. cbn. tauto.
Qed.

Lemma ov_nodes_boxed_gives : gives get_ov_nodes_boxed (vec_ok ov_node_ok).
Proof.
  unfold get_ov_nodes_boxed. eapply bind_gives; [apply u32_gives|]. intros c _.
  destruct (c =? id_overlay_nodes); [apply vector_gives, ov_node_gives|apply fail_gives].
Qed.

(** A vector with a truncated count reads back as its beginning. *)
Lemma vector_prefix : forall A (put : A -> bytes) get wf,
  reads put get wf -> (forall a, put a <> []) ->
  forall l, Forall wf l ->
  deserialize (get_vector get) (put_vector put l)
  = Some (firstn (N.to_nat (N.of_nat (length l) mod 2 ^ 32)) l).
Proof.
  intros A put get wf Hr Hne l Hl. unfold deserialize, get_vector, put_vector.
  set (m := N.of_nat (length l) mod 2 ^ 32). set (a := firstn (N.to_nat m) l).
  assert (Hm : m <= N.of_nat (length l)) by (apply N.mod_le; lia).
  assert (Hm2 : m < 2 ^ 32) by (apply N.mod_lt; lia).
  assert (Ha : length a = N.to_nat m) by (unfold a; rewrite firstn_length; lia).
  assert (Hp : put_u32 (N.of_nat (length l)) = put_u32 m).
  { unfold put_u32. rewrite <- (le_bytes_of_le (le_bytes 4 (N.of_nat (length l)))) by apply le_bytes_ok.
    rewrite le_bytes_length, of_le_le_bytes. reflexivity. }
  rewrite Hp. unfold bind. rewrite u32_reads by exact Hm2.
  assert (Hs : flat_map put l = flat_map put a ++ flat_map put (skipn (N.to_nat m) l))
    by (rewrite <- flat_map_app; unfold a; now rewrite firstn_skipn).
  rewrite Hs. replace m with (N.of_nat (length a)) by (rewrite Ha; lia).
  rewrite (many_reads _ put get wf Hr); [reflexivity| |].
  - unfold a. rewrite Forall_forall in *. intros x Hx. apply Hl. rewrite <- (firstn_skipn (N.to_nat m) l). apply in_or_app. now left.
  - rewrite app_length. pose proof (flat_map_length_ge _ put a Hne). lia.
Qed.
