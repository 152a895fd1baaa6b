(** What the scheme prescribes is read back. *)
From Coq Require Import String List NArith Arith Lia Bool.
From Coq Require Import ZifyBool ZifyNat ZifyN.
From Verif.Base Require Import Bytes BytesFacts Res.
From Verif.Model Require Import Crypto Tl Scheme ProtoAdnl ProtoRldp ProtoDht ProtoOverlay AdnlNode DhtStorage DhtNode.
From Verif.Spec Require Import CryptoSpec Codec TlScheme TlValues.
From Verif.Proof Require Import TlFacts ProtoFacts PacketFacts SchemeFacts.
Import ListNotations.
Open Scope N_scope.
Open Scope list_scope.

(** ** What can be encoded is in range *)
Lemma both_inv : forall a b x, both a b = Some x -> exists y z, a = Some y /\ b = Some z /\ x = y ++ z.
Proof. intros [y|] [z|] x H; try discriminate H. injection H as <-. exists y, z. auto. Qed.
Lemma int_inv : forall n x, encode scheme (Num n) TyInt = Some x -> u32_ok n /\ x = put_u32 n.
Proof.
  intros n x H. cbn [encode] in H. unfold int_bytes in H. destruct (n <? 2 ^ (8 * N.of_nat 4)) eqn:E; [|discriminate H].
  injection H as <-. split; [apply N.ltb_lt in E; exact E|reflexivity].
Qed.
Lemma long_inv : forall n x, encode scheme (Num n) TyLong = Some x -> u64_ok n /\ x = put_u64 n.
Proof.
  intros n x H. cbn [encode] in H. unfold int_bytes in H. destruct (n <? 2 ^ (8 * N.of_nat 8)) eqn:E; [|discriminate H].
  injection H as <-. split; [apply N.ltb_lt in E; exact E|reflexivity].
Qed.
Lemma hash_inv : forall b x, encode scheme (Raw b) TyInt256 = Some x -> hash_ok b /\ x = put_hash b.
Proof.
  intros b x H. cbn [encode] in H. unfold raw_bytes in H. destruct (Nat.eqb (length b) 32) eqn:E; [|discriminate H].
  injection H as <-. split; [apply Nat.eqb_eq in E; exact E|reflexivity].
Qed.
Lemma bytes_inv : forall b x, encode scheme (Raw b) TyBytes = Some x -> blob_ok b /\ x = put_bytes b.
Proof.
  intros b x H. assert (Hb : blob_ok b).
  { cbn [encode] in H. unfold string_bytes in H. destruct (N.of_nat (length b) <? 254) eqn:E.
    - unfold blob_ok. apply N.ltb_lt in E. lia.
    - destruct (N.of_nat (length b) <? 2 ^ 24) eqn:E2; [|discriminate H]. apply N.ltb_lt in E2. exact E2. }
  split; [exact Hb|]. rewrite (encode_bytes b Hb) in H. now injection H as <-.
Qed.

Ltac shape_in H :=
  match type of H with context [encode scheme (Con ?c ?f) ?t] => rewrite (encode_con c f t) in H end;
  cbv beta iota zeta delta [table declared d_constructor d_id d_fields d_type String.eqb Ascii.eqb Bool.eqb
    all_declared forallb existsb names parts f_name f_condition f_ty numbers in_order present get
    andb orb N.testbit Pos.testbit Pos.pred_N Pos.pred_double] in H.
Ltac split_both :=
  repeat match goal with
  | H : both _ _ = Some _ |- _ => apply both_inv in H; let y := fresh "y" in let z := fresh "z" in let Hy := fresh "Hy" in
      let Hz := fresh "Hz" in let E := fresh "E" in destruct H as (y & z & Hy & Hz & E)
  | H : encode scheme (Num _) TyInt = Some _ |- _ => apply int_inv in H as [? ?]
  | H : encode scheme (Num _) TyLong = Some _ |- _ => apply long_inv in H as [? ?]
  | H : encode scheme (Raw _) TyInt256 = Some _ |- _ => apply hash_inv in H as [? ?]
  | H : encode scheme (Raw _) TyBytes = Some _ |- _ => apply bytes_inv in H as [? ?]
  end.
Lemma public_key_in_range : forall k x, encode scheme (public_key_value k) (TyBoxed "PublicKey") = Some x -> public_key_ok k.
Proof. intros k x H. destruct k; unfold public_key_value in H; shape_in H; split_both; unfold public_key_ok; assumption. Qed.
Lemma message_in_range : forall m x, encode scheme (message_value m) (TyBoxed "adnl.Message") = Some x -> message_ok m.
Proof. intros m x H. destruct m; unfold message_value in H; shape_in H; split_both; unfold message_ok; repeat split; assumption. Qed.

(** ** Reading *)
(** [g] reads what [t] prescribes for the value of [a]. *)
Definition decodes {A B} (v : A -> value) (t : ty) (g : parser B) (conv : A -> B) (wf : A -> Prop) : Prop :=
  forall a x r, wf a -> encode scheme (v a) t = Some x -> g (x ++ r) = Some (conv a, r).
Definition always {A} (_ : A) : Prop := True.

Lemma decodes_of_reads : forall {A} (v : A -> value) t (put : A -> bytes) g (wf : A -> Prop),
  (forall a, wf a -> encode scheme (v a) t = Some (put a)) -> (forall a x, encode scheme (v a) t = Some x -> wf a) ->
  reads put g wf -> decodes v t g (fun a => a) always.
Proof.
  intros A v t put g wf He Hr Hg a x r _ H. pose proof (Hr a x H) as Hw. rewrite (He a Hw) in H. injection H as <-. apply Hg, Hw.
Qed.
Lemma key_decodes : decodes public_key_value (TyBoxed "PublicKey") get_public_key (fun k => k) always.
Proof. exact (decodes_of_reads _ _ _ _ _ public_key_encoded public_key_in_range public_key_reads). Qed.
Lemma message_decodes : decodes message_value (TyBoxed "adnl.Message") get_message (fun m => m) always.
Proof. exact (decodes_of_reads _ _ _ _ _ message_encoded message_in_range message_reads). Qed.
Lemma int_decodes : decodes Num TyInt get_u32 (fun n => n) always.
Proof. intros n x r _ H. apply int_inv in H as [H ->]. apply u32_reads, H. Qed.
Lemma long_decodes : decodes Num TyLong get_u64 (fun n => n) always.
Proof. intros n x r _ H. apply long_inv in H as [H ->]. apply u64_reads, H. Qed.
Lemma bytes_decodes : decodes Raw TyBytes get_bytes (fun n => n) always.
Proof. intros n x r _ H. apply bytes_inv in H as [H ->]. apply bytes_reads, H. Qed.
Lemma short_decodes : decodes (fun i => Con "adnl.id.short" [("id"%string, Raw i)]) (TyBare "adnl.id.short") get_hash (fun i => i) always.
Proof.
  intros i x r _ H. cbv beta in H. shape_in H. split_both. subst. injection Hz as <-. rewrite app_nil_r. apply hash_reads. assumption.
Qed.

Lemma many_decodes : forall {A B} (v : A -> value) t (g : parser B) conv wf, decodes v t g conv wf ->
  forall l x r fuel, List.Forall wf l -> all_encoded t (map v l) = Some x -> (length l < fuel)%nat ->
  get_many fuel g (N.of_nat (length l)) (x ++ r) = Some (map conv l, r).
Proof.
  intros A B v t g conv wf Hd l. induction l as [|a l IH]; intros x r fuel Hw Hx Hf.
  - cbn in Hx. injection Hx as <-. destruct fuel; reflexivity.
  - destruct fuel as [|fuel]; [cbn in Hf; lia|]. cbn [map all_encoded] in Hx. apply both_inv in Hx as (y & z & Hy & Hz & ->).
    inversion Hw as [|? ? Ha Hl]; subst.
    cbn [get_many]. replace (N.of_nat (length (a :: l)) =? 0) with false by (symmetry; apply N.eqb_neq; cbn [length]; lia).
    rewrite <- app_assoc, (Hd a y (z ++ r) Ha Hy).
    replace (N.of_nat (length (a :: l)) - 1) with (N.of_nat (length l)) by (cbn [length]; lia).
    rewrite (IH z r fuel Hl Hz) by (cbn [length] in Hf; lia). reflexivity.
Qed.
(** Every element takes at least one byte. *)
Lemma all_encoded_length : forall {A} (v : A -> value) t, (forall a x, encode scheme (v a) t = Some x -> x <> []) ->
  forall l x, all_encoded t (map v l) = Some x -> (length l <= length x)%nat.
Proof.
  intros A v t Hne l. induction l as [|a l IH]; intros x Hx; [cbn; lia|].
  cbn [map all_encoded] in Hx. apply both_inv in Hx as (y & z & Hy & Hz & ->).
  pose proof (IH z Hz). pose proof (Hne a y Hy). rewrite app_length. destruct y; [congruence|]. cbn [length]. lia.
Qed.
Lemma vector_decodes : forall {A B} (v : A -> value) t (g : parser B) conv wf,
  decodes v t g conv wf -> (forall a x, encode scheme (v a) t = Some x -> x <> []) ->
  decodes (fun l => Vec (map v l)) (TyVector t) (get_vector g) (map conv) (List.Forall wf).
Proof.
  intros A B v t g conv wf Hd Hne l x r Hw H. cbv beta in H. rewrite encode_vec, map_length in H.
  apply both_inv in H as (y & z & Hy & Hz & ->). change (encode scheme (Num (N.of_nat (length l))) TyInt = Some y) in Hy.
  unfold get_vector. rewrite <- app_assoc. unfold bind at 1. rewrite (int_decodes _ _ _ I Hy).
  apply (many_decodes v t g conv wf Hd l z r); [exact Hw|exact Hz|].
  pose proof (all_encoded_length v t Hne l z Hz). rewrite app_length. lia.
Qed.

(** ** Address lists *)
Definition any_address_udp (a : any_address) : address := match a with Udp ip port => mk_address ip port | Udp6 _ _ => mk_address 0 0 end.
Lemma udp_decodes : decodes any_address_value (TyBoxed "adnl.Address") get_address any_address_udp is_udp.
Proof.
  intros a x r Ha H. destruct a as [ip port|ip port]; [|contradiction Ha].
  assert (Hr : address_ok (mk_address ip port)). { unfold any_address_value in H. shape_in H. split_both. split; assumption. }
  pose proof (udp_encoded (mk_address ip port) Hr) as He. unfold udp_value in He. cbn [ad_ip ad_port] in He.
  unfold any_address_value in H. rewrite He in H. injection H as <-. apply address_reads, Hr.
Qed.
Lemma both_int_ne : forall n b x, both (int_bytes 4 n) b = Some x -> x <> [].
Proof.
  intros n b x H. apply both_inv in H as (y & z & Hy & Hz & ->). change (encode scheme (Num n) TyInt = Some y) in Hy.
  apply int_inv in Hy as [_ ->]. discriminate.
Qed.
Lemma any_address_ne : forall a x, encode scheme (any_address_value a) (TyBoxed "adnl.Address") = Some x -> x <> [].
Proof. intros a x H. destruct a; unfold any_address_value in H; shape_in H; exact (both_int_ne _ _ _ H). Qed.
Lemma message_ne : forall a x, encode scheme (message_value a) (TyBoxed "adnl.Message") = Some x -> x <> [].
Proof. intros a x H. destruct a; unfold message_value in H; shape_in H; exact (both_int_ne _ _ _ H). Qed.

Lemma any_list_split : forall l x, encode scheme (any_list_value l) (TyBare "adnl.addressList") = Some x ->
  exists y, encode scheme (Vec (map any_address_value (nl_addresses l))) (TyVector (TyBoxed "adnl.Address")) = Some y
    /\ u32_ok (nl_version l) /\ u32_ok (nl_reinit_date l) /\ u32_ok (nl_priority l) /\ u32_ok (nl_expire_at l)
    /\ x = y ++ put_u32 (nl_version l) ++ put_u32 (nl_reinit_date l) ++ put_u32 (nl_priority l) ++ put_u32 (nl_expire_at l).
Proof.
  intros l x H. unfold any_list_value in H. shape_in H. split_both. subst.
  match goal with H : Some [] = Some _ |- _ => injection H as <- end.
  match goal with H : encode scheme (Vec _) _ = Some ?y |- _ => exists y end. rewrite app_nil_r. repeat split; assumption.
Qed.
Lemma list_decodes : decodes any_list_value (TyBare "adnl.addressList") get_address_list first_udp (fun l => List.Forall is_udp (nl_addresses l)).
Proof.
  intros l x r Hu H. apply any_list_split in H as (y & Hy & H1 & H2 & H3 & H4 & ->).
  pose proof (vector_decodes any_address_value _ get_address any_address_udp is_udp udp_decodes any_address_ne (nl_addresses l) y) as Hv.
  specialize (Hv (put_u32 (nl_version l) ++ put_u32 (nl_reinit_date l) ++ put_u32 (nl_priority l) ++ put_u32 (nl_expire_at l) ++ r) Hu Hy).
  rewrite <- !app_assoc. unfold get_address_list. unfold get_vector in Hv. unfold bind at 1. unfold bind at 1 in Hv.
  match goal with |- match ?e with _ => _ end = _ => change e with (get_u32 (y ++ put_u32 (nl_version l) ++ put_u32 (nl_reinit_date l) ++ put_u32 (nl_priority l) ++ put_u32 (nl_expire_at l) ++ r)) end.
  destruct (get_u32 _) as [[n rest]|] eqn:En; [|discriminate Hv]. cbv beta iota in Hv |- *.
  unfold bind at 1. rewrite Hv. cbv beta iota.
  erewrite bind_reads; [|exact u32_reads|assumption].
  erewrite bind_reads; [|exact u32_reads|assumption].
  erewrite bind_reads; [|exact u32_reads|assumption].
  erewrite bind_reads; [|exact u32_reads|assumption].
  unfold ret, first_udp. do 3 f_equal. destruct (nl_addresses l) as [|a m]; [reflexivity|].
  inversion Hu as [|? ? Ha ?]; subst. destruct a; [reflexivity|contradiction Ha].
Qed.
(** An IPv6 address is not read. *)
Lemma udp6_fails : forall ip port x r, encode scheme (any_address_value (Udp6 ip port)) (TyBoxed "adnl.Address") = Some x ->
  get_address (x ++ r) = None.
Proof.
  intros ip port x r H. unfold any_address_value in H. shape_in H. apply both_inv in H as (y & z & Hy & _ & ->).
  change (encode scheme (Num 3810354170) TyInt = Some y) in Hy. unfold get_address. rewrite <- app_assoc.
  unfold bind at 1. rewrite (int_decodes _ _ _ I Hy). reflexivity.
Qed.
Lemma many_udp6_fails : forall l x r fuel, ~ List.Forall is_udp l -> all_encoded (TyBoxed "adnl.Address") (map any_address_value l) = Some x ->
  get_many fuel get_address (N.of_nat (length l)) (x ++ r) = None.
Proof.
  induction l as [|a l IH]; intros x r fuel Hn Hx; [exfalso; apply Hn; constructor|].
  destruct fuel as [|fuel]; cbn [get_many];
    (replace (N.of_nat (length (a :: l)) =? 0) with false by (symmetry; apply N.eqb_neq; cbn [length]; lia)); [reflexivity|].
  cbn [map all_encoded] in Hx. apply both_inv in Hx as (y & z & Hy & Hz & ->). rewrite <- app_assoc.
  destruct a as [ip port|ip port].
  - rewrite (udp_decodes (Udp ip port) y (z ++ r) I Hy).
    replace (N.of_nat (length (Udp ip port :: l)) - 1) with (N.of_nat (length l)) by (cbn [length]; lia).
    rewrite (IH z r fuel); [reflexivity| |exact Hz]. intros H. apply Hn. constructor; [exact I|exact H].
  - rewrite (udp6_fails ip port y (z ++ r) Hy). reflexivity.
Qed.
Lemma list_udp6_fails : forall l x r, ~ List.Forall is_udp (nl_addresses l) ->
  encode scheme (any_list_value l) (TyBare "adnl.addressList") = Some x -> get_address_list (x ++ r) = None.
Proof.
  intros l x r Hn H. apply any_list_split in H as (y & Hy & H1 & H2 & H3 & H4 & ->).
  rewrite encode_vec, map_length in Hy. apply both_inv in Hy as (c & z & Hc & Hz & ->).
  change (encode scheme (Num (N.of_nat (length (nl_addresses l)))) TyInt = Some c) in Hc.
  unfold get_address_list. rewrite <- !app_assoc. unfold bind at 1. rewrite (int_decodes _ _ _ I Hc). unfold bind at 1.
  rewrite (many_udp6_fails _ _ _ _ Hn Hz). reflexivity.
Qed.

(** ** Packets *)
Definition some {A} (o : option A) : bool := match o with Some _ => true | None => false end.
Definition piece {A} (o : option A) (v : A -> value) (t : ty) : option bytes :=
  match o with Some a => encode scheme (v a) t | None => Some [] end.
Lemma get_app : forall {A} n (a b : list (string * A)), get n (a ++ b) = match get n a with Some x => Some x | None => get n b end.
Proof. intros A n a b. induction a as [|[x v] a IH]; [reflexivity|]. cbn [app get]. destruct (String.eqb x n); [reflexivity|exact IH]. Qed.
Lemma parts_app : forall a b, parts (a ++ b) = parts a ++ parts b.
Proof. induction a as [|[x v] a IH]; intros b; [reflexivity|]. cbn [app parts]. rewrite IH. reflexivity. Qed.
Lemma names_app : forall a b, names (a ++ b) = names a ++ names b.
Proof. intros a b. rewrite <- !names_map. apply map_app. Qed.
Lemma all_declared_app : forall fs a b, all_declared fs (a ++ b) = all_declared fs a && all_declared fs b.
Proof. intros fs a b. apply forallb_app. Qed.
Lemma get_given_other : forall {A} n (o : option A) f, (forall a, get n (parts (f a)) = None) -> get n (parts (given o f)) = None.
Proof. intros A n o f H. destruct o; [apply H|reflexivity]. Qed.
Lemma in_order_given : forall {A} f r nums ps (o : option A) v, present f nums = Some (some o) ->
  get (f_name f) ps = match o with Some a => Some (encode scheme (v a)) | None => None end ->
  in_order (f :: r) nums ps = both (piece o v (f_ty f)) (in_order r nums ps).
Proof.
  intros A f r nums ps o v Hp Hg. cbn [in_order]. rewrite Hp, Hg. destruct o; cbn [some piece]; [reflexivity|].
  destruct (in_order r nums ps); reflexivity.
Qed.
Lemma in_order_always : forall f r nums ps v, f_condition f = None -> get (f_name f) ps = Some (encode scheme v) ->
  in_order (f :: r) nums ps = both (encode scheme v (f_ty f)) (in_order r nums ps).
Proof. intros f r nums ps v Hc Hg. cbn [in_order]. unfold present. rewrite Hc, Hg. reflexivity. Qed.

Definition flags_of (p : any_packet) : N :=
  bit (np_from p) 0 + bit (np_from_short p) 1 + bit (np_message p) 2 + bit (np_messages p) 3
  + bit (np_address p) 4 + bit (np_priority_address p) 5 + bit (np_seqno p) 6 + bit (np_confirm_seqno p) 7
  + bit (np_recv_version p) 8 + bit (np_recv_priority_version p) 9 + bit (np_dates p) 10 + bit (np_signature p) 11.
Lemma bit_b2n : forall {A} (o : option A) k, bit o k = 2 ^ k * N.b2n (some o).
Proof. intros A o k. destruct o; unfold bit, some; cbn [N.b2n]; lia. Qed.
Lemma flags_horner : forall p, flags_of p =
  2 * (2 * (2 * (2 * (2 * (2 * (2 * (2 * (2 * (2 * (2 * (2 * 0 + N.b2n (some (np_signature p))) + N.b2n (some (np_dates p)))
    + N.b2n (some (np_recv_priority_version p))) + N.b2n (some (np_recv_version p))) + N.b2n (some (np_confirm_seqno p)))
    + N.b2n (some (np_seqno p))) + N.b2n (some (np_priority_address p))) + N.b2n (some (np_address p)))
    + N.b2n (some (np_messages p))) + N.b2n (some (np_message p))) + N.b2n (some (np_from_short p))) + N.b2n (some (np_from p)).
Proof.
  intros p. unfold flags_of. rewrite !bit_b2n.
  change (2 ^ 0) with 1. change (2 ^ 1) with 2. change (2 ^ 2) with 4. change (2 ^ 3) with 8. change (2 ^ 4) with 16.
  change (2 ^ 5) with 32. change (2 ^ 6) with 64. change (2 ^ 7) with 128. change (2 ^ 8) with 256. change (2 ^ 9) with 512.
  change (2 ^ 10) with 1024. change (2 ^ 11) with 2048. lia.
Qed.
Lemma flags_bits : forall p,
  N.testbit (flags_of p) 0 = some (np_from p) /\ N.testbit (flags_of p) 1 = some (np_from_short p)
  /\ N.testbit (flags_of p) 2 = some (np_message p) /\ N.testbit (flags_of p) 3 = some (np_messages p)
  /\ N.testbit (flags_of p) 4 = some (np_address p) /\ N.testbit (flags_of p) 5 = some (np_priority_address p)
  /\ N.testbit (flags_of p) 6 = some (np_seqno p) /\ N.testbit (flags_of p) 7 = some (np_confirm_seqno p)
  /\ N.testbit (flags_of p) 8 = some (np_recv_version p) /\ N.testbit (flags_of p) 9 = some (np_recv_priority_version p)
  /\ N.testbit (flags_of p) 10 = some (np_dates p) /\ N.testbit (flags_of p) 11 = some (np_signature p).
Proof.
  intros p. rewrite flags_horner.
  change 1 with (N.succ 0) at 1. 
  change (N.testbit ?a 11) with (N.testbit a (N.succ (N.succ (N.succ (N.succ (N.succ (N.succ (N.succ (N.succ (N.succ (N.succ (N.succ 0)))))))))))).
  repeat split.
  all: repeat first [apply N.testbit_0_r | match goal with |- N.testbit _ ?k = _ => let m := eval vm_compute in (N.pred k) in change k with (N.succ m) end; rewrite N.testbit_succ_r].
Qed.

Ltac find_field fields :=
  unfold fields; rewrite !parts_app, !get_app;
  repeat match goal with |- context [get ?n (parts (given ?o ?f))] => rewrite (get_given_other n o f) by (intros; reflexivity) end;
  try match goal with |- context [get ?n (parts (given ?o ?f))] => destruct o end; reflexivity.
Lemma packet_split : forall p, encode scheme (any_packet_value p) (TyBoxed "adnl.PacketContents") =
  both (int_bytes 4 id_packet_contents)
  (both (encode scheme (Raw (np_rand1 p)) TyBytes)
  (both (encode scheme (Num (flags_of p)) TyInt)
  (both (piece (np_from p) public_key_value (TyBoxed "PublicKey"))
  (both (piece (np_from_short p) (fun i => Con "adnl.id.short" [("id"%string, Raw i)]) (TyBare "adnl.id.short"))
  (both (piece (np_message p) message_value (TyBoxed "adnl.Message"))
  (both (piece (np_messages p) (fun l => Vec (map message_value l)) (TyVector (TyBoxed "adnl.Message")))
  (both (piece (np_address p) any_list_value (TyBare "adnl.addressList"))
  (both (piece (np_priority_address p) any_list_value (TyBare "adnl.addressList"))
  (both (piece (np_seqno p) Num TyLong)
  (both (piece (np_confirm_seqno p) Num TyLong)
  (both (piece (np_recv_version p) Num TyInt)
  (both (piece (np_recv_priority_version p) Num TyInt)
  (both (piece (np_dates p) (fun d => Num (fst d)) TyInt)
  (both (piece (np_dates p) (fun d => Num (snd d)) TyInt)
  (both (piece (np_signature p) Raw TyBytes)
  (both (encode scheme (Raw (np_rand2 p)) TyBytes) (Some []))))))))))))))))).
Proof.
  intros p. pose proof (flags_bits p) as (B0 & B1 & B2 & B3 & B4 & B5 & B6 & B7 & B8 & B9 & B10 & B11).
  unfold any_packet_value. fold (flags_of p). set (F := flags_of p) in *.
  set (fields := _ ++ _).
  assert (Hn : get "flags" (numbers fields) = Some F) by reflexivity.
  assert (G1 : get "rand1" (parts fields) = Some (encode scheme (Raw (np_rand1 p)))) by reflexivity.
  assert (G2 : get "rand2" (parts fields) = Some (encode scheme (Raw (np_rand2 p)))) by reflexivity.
  assert (G3 : get "flags" (parts fields) = Some (encode scheme (Num F))) by reflexivity.
  assert (P0 : get "from" (parts fields) = match np_from p with Some a => Some (encode scheme (public_key_value a)) | None => None end)
    by find_field fields.
  assert (P1 : get "from_short" (parts fields)
    = match np_from_short p with Some a => Some (encode scheme (Con "adnl.id.short" [("id"%string, Raw a)])) | None => None end)
    by find_field fields.
  assert (P2 : get "message" (parts fields) = match np_message p with Some a => Some (encode scheme (message_value a)) | None => None end)
    by find_field fields.
  assert (P3 : get "messages" (parts fields)
    = match np_messages p with Some a => Some (encode scheme (Vec (map message_value a))) | None => None end)
    by find_field fields.
  assert (P4 : get "address" (parts fields) = match np_address p with Some a => Some (encode scheme (any_list_value a)) | None => None end)
    by find_field fields.
  assert (P5 : get "priority_address" (parts fields)
    = match np_priority_address p with Some a => Some (encode scheme (any_list_value a)) | None => None end)
    by find_field fields.
  assert (P6 : get "seqno" (parts fields) = match np_seqno p with Some a => Some (encode scheme (Num a)) | None => None end)
    by find_field fields.
  assert (P7 : get "confirm_seqno" (parts fields) = match np_confirm_seqno p with Some a => Some (encode scheme (Num a)) | None => None end)
    by find_field fields.
  assert (P8 : get "recv_addr_list_version" (parts fields)
    = match np_recv_version p with Some a => Some (encode scheme (Num a)) | None => None end)
    by find_field fields.
  assert (P9 : get "recv_priority_addr_list_version" (parts fields)
    = match np_recv_priority_version p with Some a => Some (encode scheme (Num a)) | None => None end)
    by find_field fields.
  assert (P10 : get "reinit_date" (parts fields) = match np_dates p with Some a => Some (encode scheme (Num (fst a))) | None => None end)
    by find_field fields.
  assert (P10b : get "dst_reinit_date" (parts fields) = match np_dates p with Some a => Some (encode scheme (Num (snd a))) | None => None end)
    by find_field fields.
  assert (P11 : get "signature" (parts fields) = match np_signature p with Some a => Some (encode scheme (Raw a)) | None => None end)
    by find_field fields.
  rewrite encode_con.
  assert (Ed : forall d, declared table "adnl.packetContents" = Some d -> all_declared (d_fields d) (names fields) = true).
  { intros d E. injection E as <-. cbn [d_fields].
    unfold fields. rewrite !names_app, !all_declared_app.
    repeat (apply andb_true_intro; split); try reflexivity;
      match goal with |- all_declared _ (names (given ?o _)) = true => destruct o; reflexivity end. }
  clearbody fields.
  destruct (declared table "adnl.packetContents") as [d|] eqn:E; [|discriminate E].
  rewrite (Ed d eq_refl). injection E as <-. cbn [d_fields d_type d_id]. cbv zeta.
  change (String.eqb "adnl.PacketContents" "adnl.PacketContents") with true. cbv iota. f_equal.
  assert (Pr : forall n t k b, N.testbit F k = b -> present (mk_field n (Some ("flags"%string, k)) t) (numbers fields) = Some b).
  { intros n t k b Eb. unfold present. cbn [f_condition]. rewrite Hn, Eb. reflexivity. }
  etransitivity; [eapply in_order_always; [reflexivity|exact G1]|]. cbn [f_ty]. f_equal.
  etransitivity; [eapply in_order_always; [reflexivity|exact G3]|]. cbn [f_ty]. f_equal.
  etransitivity; [eapply in_order_given; [apply Pr; exact B0|exact P0]|]. cbn [f_ty]. f_equal.
  etransitivity; [eapply (in_order_given _ _ _ _ _ (fun i => Con "adnl.id.short" [("id"%string, Raw i)])); [apply Pr; exact B1|exact P1]|]. cbn [f_ty]. f_equal.
  etransitivity; [eapply in_order_given; [apply Pr; exact B2|exact P2]|]. cbn [f_ty]. f_equal.
  etransitivity; [eapply (in_order_given _ _ _ _ _ (fun l => Vec (map message_value l))); [apply Pr; exact B3|exact P3]|]. cbn [f_ty]. f_equal.
  etransitivity; [eapply in_order_given; [apply Pr; exact B4|exact P4]|]. cbn [f_ty]. f_equal.
  etransitivity; [eapply in_order_given; [apply Pr; exact B5|exact P5]|]. cbn [f_ty]. f_equal.
  etransitivity; [eapply in_order_given; [apply Pr; exact B6|exact P6]|]. cbn [f_ty]. f_equal.
  etransitivity; [eapply in_order_given; [apply Pr; exact B7|exact P7]|]. cbn [f_ty]. f_equal.
  etransitivity; [eapply in_order_given; [apply Pr; exact B8|exact P8]|]. cbn [f_ty]. f_equal.
  etransitivity; [eapply in_order_given; [apply Pr; exact B9|exact P9]|]. cbn [f_ty]. f_equal.
  etransitivity; [eapply (in_order_given _ _ _ _ _ (fun d => Num (fst d))); [apply Pr; exact B10|exact P10]|]. cbn [f_ty]. f_equal.
  etransitivity; [eapply (in_order_given _ _ _ _ _ (fun d => Num (snd d))); [apply Pr; exact B10|exact P10b]|]. cbn [f_ty]. f_equal.
  etransitivity; [eapply in_order_given; [apply Pr; exact B11|exact P11]|]. cbn [f_ty]. f_equal.
  etransitivity; [eapply in_order_always; [reflexivity|exact G2]|]. cbn [f_ty]. f_equal.
Qed.

Lemma optional_reads : forall {A B C} (o : option A) (v : A -> value) t (g : parser B) conv wf (f : option B -> parser C) F k x r,
  decodes v t g conv wf -> N.testbit F k = some o -> match o with Some a => wf a | None => True end ->
  piece o v t = Some x -> bind (get_optional F k g) f (x ++ r) = f (option_map conv o) r.
Proof.
  intros A B C o v t g conv wf f F k x r Hd Hb Hw Hx. apply bind_ok. unfold get_optional. rewrite Hb.
  destruct o as [a|]; cbn [some piece option_map] in *.
  - unfold bind. rewrite (Hd a x r Hw Hx). reflexivity.
  - injection Hx as <-. reflexivity.
Qed.
Lemma dates_decode : forall {C} (o : option (N * N)) (f : option reinit_dates -> parser C) F k x y r,
  N.testbit F k = some o -> piece o (fun d => Num (fst d)) TyInt = Some x -> piece o (fun d => Num (snd d)) TyInt = Some y ->
  bind (get_optional F k get_reinit_dates) f (x ++ y ++ r) = f (option_map (fun d => mk_reinit_dates (fst d) (snd d)) o) r.
Proof.
  intros C o f F k x y r Hb Hx Hy. apply bind_ok. unfold get_optional. rewrite Hb.
  destruct o as [[a b]|]; cbn [some piece option_map fst snd] in *.
  - unfold get_reinit_dates, bind. rewrite (int_decodes _ _ _ I Hx), (int_decodes _ _ _ I Hy). reflexivity.
  - injection Hx as <-. injection Hy as <-. reflexivity.
Qed.
Lemma signature_decode : forall {C} (o : option bytes) (f : option packet_signature -> parser C) whole F fo x r,
  N.testbit F 11 = some o -> match o with Some s => length s = 64%nat | None => True end -> piece o Raw TyBytes = Some x ->
  exists s, option_map ps_signature s = o /\ bind (get_signature whole F fo) f (x ++ r) = f s r.
Proof.
  intros C o f whole F fo x r Hb Hl Hx. destruct o as [s|]; cbn [some piece] in *.
  - apply bytes_inv in Hx as [_ ->]. eexists. split; [|apply sig_some_reads; assumption]. reflexivity.
  - injection Hx as <-. exists None. split; [reflexivity|]. apply sig_none_reads, Hb.
Qed.
Lemma flags_small : forall p, u32_ok (flags_of p).
Proof.
  intros p. rewrite flags_horner. unfold u32_ok.
  assert (B : forall b, N.b2n b <= 1) by (intros [|]; cbn [N.b2n]; lia).
  repeat match goal with |- context [N.b2n ?b] => let H := fresh in pose proof (B b) as H; revert H; generalize (N.b2n b); intros end. lia.
Qed.

Lemma packet_understood : forall p b trailing,
  encode scheme (any_packet_value p) (TyBoxed "adnl.PacketContents") = Some b ->
  only_udp (np_address p) -> only_udp (np_priority_address p) ->
  (np_message p <> None \/ np_messages p <> None) ->
  match np_signature p with Some s => length s = 64%nat | None => True end ->
  exists q, parse_packet (b ++ trailing) = Some q /\ says q p.
Proof.
  intros p b trailing He Hu Hu' Hm Hs. pose proof (flags_bits p) as (B0 & B1 & B2 & B3 & B4 & B5 & B6 & B7 & B8 & B9 & B10 & B11).
  rewrite packet_split in He.
  repeat match goal with H : both _ _ = Some _ |- _ => apply both_inv in H as (? & ? & ? & ? & ?) end. subst.
  match goal with H : Some [] = Some _ |- _ => injection H as <- end.
  unfold parse_packet, deserialize. rewrite <- !app_assoc, app_nil_l.
  match goal with |- context [get_in_packet_at ?w] => generalize w at 1; intros whole end.
  unfold get_in_packet_at.
  match goal with H : int_bytes 4 id_packet_contents = Some ?x |- _ =>
    change (encode scheme (Num id_packet_contents) TyInt = Some x) in H; apply int_inv in H as [_ ->] end.
  erewrite bind_reads; [|exact u32_reads|reflexivity].
  change (negb (id_packet_contents =? id_packet_contents)) with false. cbv iota.
  match goal with H : encode scheme (Raw (np_rand1 p)) TyBytes = Some _ |- _ => apply bytes_inv in H as [? ->] end.
  erewrite bind_reads; [|exact bytes_reads|assumption]. rewrite bind_off.
  match goal with H : encode scheme (Num (flags_of p)) TyInt = Some _ |- _ => apply int_inv in H as [? ->] end.
  erewrite bind_reads; [|exact u32_reads|assumption].
  set (F := flags_of p) in *. clearbody F.
  erewrite (optional_reads (np_from p)); [|exact key_decodes|exact B0|destruct (np_from p); exact I|eassumption].
  erewrite (optional_reads (np_from_short p)); [|exact short_decodes|exact B1|destruct (np_from_short p); exact I|eassumption].
  erewrite (optional_reads (np_message p)); [|exact message_decodes|exact B2|destruct (np_message p); exact I|eassumption].
  erewrite (optional_reads (np_messages p));
    [|exact (vector_decodes _ _ _ _ _ message_decodes message_ne)|exact B3
     |destruct (np_messages p); [apply List.Forall_forall; intros; exact I|exact I]|eassumption].
  erewrite (optional_reads (np_address p)); [|exact list_decodes|exact B4|exact Hu|eassumption].
  erewrite (optional_reads (np_priority_address p)); [|exact list_decodes|exact B5|exact Hu'|eassumption].
  erewrite (optional_reads (np_seqno p)); [|exact long_decodes|exact B6|destruct (np_seqno p); exact I|eassumption].
  erewrite (optional_reads (np_confirm_seqno p)); [|exact long_decodes|exact B7|destruct (np_confirm_seqno p); exact I|eassumption].
  erewrite (optional_reads (np_recv_version p)); [|exact int_decodes|exact B8|destruct (np_recv_version p); exact I|eassumption].
  erewrite (optional_reads (np_recv_priority_version p)); [|exact int_decodes|exact B9|destruct (np_recv_priority_version p); exact I|eassumption].
  erewrite (dates_decode (np_dates p)); [|exact B10|eassumption|eassumption].
  match goal with |- context [bind (get_signature ?w ?fl ?fo) ?f (?x ++ ?r)] =>
    destruct (signature_decode (np_signature p) f w fl fo x r B11 Hs ltac:(eassumption)) as (s & Es & ->) end.
  match goal with H : encode scheme (Raw (np_rand2 p)) TyBytes = Some _ |- _ => apply bytes_inv in H as [? ->] end.
  erewrite bind_reads; [|exact bytes_reads|assumption].
  assert (Ei : forall A (o : option A), option_map (fun a => a) o = o) by (intros A [a|]; reflexivity).
  rewrite !Ei.
  destruct (np_messages p) as [l|] eqn:El, (np_message p) as [m|] eqn:Em; cbn [option_map]; rewrite ?map_id.
  4: { destruct Hm as [Hm|Hm]; now contradiction Hm. }
  all: eexists; (split; [reflexivity|]); unfold says; rewrite El, Em;
    cbn [ip_from ip_from_short ip_messages ip_address ip_seqno ip_confirm_seqno ip_reinit_dates ip_signature app];
    rewrite ?app_nil_r; repeat split; assumption.
Qed.

Lemma packet_not_understood : forall p b trailing l,
  encode scheme (any_packet_value p) (TyBoxed "adnl.PacketContents") = Some b ->
  np_address p = Some l -> ~ List.Forall is_udp (nl_addresses l) -> parse_packet (b ++ trailing) = None.
Proof.
  intros p b trailing l He Hl Hn. pose proof (flags_bits p) as (B0 & B1 & B2 & B3 & B4 & B5 & B6 & B7 & B8 & B9 & B10 & B11).
  rewrite packet_split in He.
  repeat match goal with H : both _ _ = Some _ |- _ => apply both_inv in H as (? & ? & ? & ? & ?) end. subst.
  match goal with H : Some [] = Some _ |- _ => injection H as <- end.
  unfold parse_packet, deserialize. rewrite <- !app_assoc, app_nil_l.
  match goal with |- context [get_in_packet_at ?w] => generalize w at 1; intros whole end.
  unfold get_in_packet_at.
  match goal with H : int_bytes 4 id_packet_contents = Some ?x |- _ =>
    change (encode scheme (Num id_packet_contents) TyInt = Some x) in H; apply int_inv in H as [_ ->] end.
  erewrite bind_reads; [|exact u32_reads|reflexivity].
  change (negb (id_packet_contents =? id_packet_contents)) with false. cbv iota.
  match goal with H : encode scheme (Raw (np_rand1 p)) TyBytes = Some _ |- _ => apply bytes_inv in H as [? ->] end.
  erewrite bind_reads; [|exact bytes_reads|assumption]. rewrite bind_off.
  match goal with H : encode scheme (Num (flags_of p)) TyInt = Some _ |- _ => apply int_inv in H as [? ->] end.
  erewrite bind_reads; [|exact u32_reads|assumption].
  set (F := flags_of p) in *. clearbody F.
  erewrite (optional_reads (np_from p)); [|exact key_decodes|exact B0|destruct (np_from p); exact I|eassumption].
  erewrite (optional_reads (np_from_short p)); [|exact short_decodes|exact B1|destruct (np_from_short p); exact I|eassumption].
  erewrite (optional_reads (np_message p)); [|exact message_decodes|exact B2|destruct (np_message p); exact I|eassumption].
  erewrite (optional_reads (np_messages p));
    [|exact (vector_decodes _ _ _ _ _ message_decodes message_ne)|exact B3
     |destruct (np_messages p); [apply List.Forall_forall; intros; exact I|exact I]|eassumption].
  rewrite Hl in *. cbn [some piece] in *. unfold bind at 1. unfold get_optional. rewrite B4. unfold bind at 1.
  erewrite list_udp6_fails; [reflexivity|exact Hn|eassumption].
Qed.

(** ** DHT nodes *)
Lemma any_node_split : forall n t x, encode scheme (any_node_value n) t = Some x ->
  t = TyBare "dht.node" \/ t = TyBoxed "dht.Node" ->
  exists k l, encode scheme (public_key_value (an_id n)) (TyBoxed "PublicKey") = Some k
    /\ encode scheme (any_list_value (an_addresses n)) (TyBare "adnl.addressList") = Some l
    /\ u32_ok (an_version n) /\ blob_ok (an_signature n)
    /\ x = (if match t with TyBoxed _ => true | _ => false end then put_u32 id_dht_node else [])
           ++ k ++ l ++ put_u32 (an_version n) ++ put_bytes (an_signature n).
Proof.
  intros n t x H [->| ->]; unfold any_node_value in H; shape_in H; split_both; subst;
    match goal with H : Some [] = Some _ |- _ => injection H as <- end;
    match goal with H : encode scheme (public_key_value _) _ = Some ?k, H' : encode scheme (any_list_value _) _ = Some ?l |- _ =>
      exists k, l end; rewrite app_nil_r; repeat split; try assumption.
  cbn [app]. match goal with H : int_bytes 4 _ = Some ?y |- _ => change (encode scheme (Num id_dht_node) TyInt = Some y) in H; apply int_inv in H as [_ ->] end.
  reflexivity.
Qed.
Lemma node_decodes : decodes any_node_value (TyBare "dht.node") get_dht_node node_read node_udp.
Proof.
  intros n x r Hu H. apply any_node_split in H as (k & l & Hk & Hl & Hv & Hs & ->); [|left; reflexivity].
  cbn [app]. rewrite <- !app_assoc. unfold get_dht_node.
  unfold bind at 1. rewrite (key_decodes _ _ _ I Hk). unfold bind at 1. rewrite (list_decodes _ _ _ Hu Hl).
  erewrite bind_reads; [|exact u32_reads|exact Hv]. erewrite bind_reads; [|exact bytes_reads|exact Hs]. reflexivity.
Qed.
Lemma node_udp6_fails : forall n x r, ~ node_udp n -> encode scheme (any_node_value n) (TyBare "dht.node") = Some x ->
  get_dht_node (x ++ r) = None.
Proof.
  intros n x r Hu H. apply any_node_split in H as (k & l & Hk & Hl & Hv & Hs & ->); [|left; reflexivity].
  cbn [app]. rewrite <- !app_assoc. unfold get_dht_node.
  unfold bind at 1. rewrite (key_decodes _ _ _ I Hk). unfold bind at 1. rewrite (list_udp6_fails _ _ _ Hu Hl). reflexivity.
Qed.
Lemma any_node_ne : forall n x, encode scheme (any_node_value n) (TyBare "dht.node") = Some x -> x <> [].
Proof.
  intros n x H. apply any_node_split in H as (k & l & Hk & Hl & Hv & Hs & ->); [|left; reflexivity].
  cbn [app]. intros E. apply app_eq_nil in E as [E _]. subst k.
  pose proof (public_key_in_range _ _ Hk) as Hr. rewrite (public_key_encoded _ Hr) in Hk. destruct (an_id n); discriminate Hk.
Qed.
Lemma any_nodes_split : forall l x, encode scheme (any_nodes_value l) (TyBoxed "dht.Nodes") = Some x ->
  exists y, encode scheme (Vec (map any_node_value l)) (TyVector (TyBare "dht.node")) = Some y /\ x = put_u32 id_dht_nodes ++ y.
Proof.
  intros l x H. unfold any_nodes_value in H. shape_in H. split_both. subst.
  match goal with H : Some [] = Some _ |- _ => injection H as <- end.
  match goal with H : encode scheme (Vec _) _ = Some ?y |- _ => exists y end. split; [assumption|]. rewrite app_nil_r.
  match goal with H : int_bytes 4 _ = Some ?y |- _ => change (encode scheme (Num id_dht_nodes) TyInt = Some y) in H; apply int_inv in H as [_ ->] end.
  reflexivity.
Qed.
Lemma nodes_understood : forall l x r, encode scheme (any_nodes_value l) (TyBoxed "dht.Nodes") = Some x -> List.Forall node_udp l ->
  get_dht_nodes_boxed (x ++ r) = Some (map node_read l, r).
Proof.
  intros l x r H Hu. apply any_nodes_split in H as (y & Hy & ->). rewrite <- app_assoc. unfold get_dht_nodes_boxed.
  erewrite bind_reads; [|exact u32_reads|reflexivity]. rewrite N.eqb_refl.
  exact (vector_decodes _ _ _ _ _ node_decodes any_node_ne l y r Hu Hy).
Qed.
Lemma many_nodes_fail : forall l x r fuel, ~ List.Forall node_udp l -> all_encoded (TyBare "dht.node") (map any_node_value l) = Some x ->
  get_many fuel get_dht_node (N.of_nat (length l)) (x ++ r) = None.
Proof.
  induction l as [|a l IH]; intros x r fuel Hn Hx; [exfalso; apply Hn; constructor|].
  destruct fuel as [|fuel]; cbn [get_many];
    (replace (N.of_nat (length (a :: l)) =? 0) with false by (symmetry; apply N.eqb_neq; cbn [length]; lia)); [reflexivity|].
  cbn [map all_encoded] in Hx. apply both_inv in Hx as (y & z & Hy & Hz & ->). rewrite <- app_assoc.
  assert (Hd : node_udp a \/ ~ node_udp a).
  { unfold node_udp. induction (nl_addresses (an_addresses a)) as [|b m IHm]; [left; constructor|].
    destruct b; [|right; intros F; inversion F as [|? ? F1 ?]; exact F1].
    destruct IHm as [Hl|Hr]; [left; constructor; [exact I|exact Hl]|right; intros F; inversion F; contradiction]. }
  destruct Hd as [Hd|Hd].
  - rewrite (node_decodes a y (z ++ r) Hd Hy).
    replace (N.of_nat (length (a :: l)) - 1) with (N.of_nat (length l)) by (cbn [length]; lia).
    rewrite (IH z r fuel); [reflexivity| |exact Hz]. intros H. apply Hn. constructor; [exact Hd|exact H].
  - rewrite (node_udp6_fails a y (z ++ r) Hd Hy). reflexivity.
Qed.
Lemma nodes_not_understood : forall l x r, encode scheme (any_nodes_value l) (TyBoxed "dht.Nodes") = Some x -> ~ List.Forall node_udp l ->
  get_dht_nodes_boxed (x ++ r) = None.
Proof.
  intros l x r H Hu. apply any_nodes_split in H as (y & Hy & ->). rewrite <- app_assoc. unfold get_dht_nodes_boxed.
  erewrite bind_reads; [|exact u32_reads|reflexivity]. rewrite N.eqb_refl.
  rewrite encode_vec, map_length in Hy. apply both_inv in Hy as (c & z & Hc & Hz & ->).
  change (encode scheme (Num (N.of_nat (length l))) TyInt = Some c) in Hc.
  unfold get_dht_nodes, get_vector. rewrite <- !app_assoc. unfold bind at 1. rewrite (int_decodes _ _ _ I Hc).
  apply (many_nodes_fail l z r _ Hu Hz).
Qed.

Lemma any_nodes_bare : forall l x, encode scheme (any_nodes_value l) (TyBare "dht.nodes") = Some x ->
  encode scheme (Vec (map any_node_value l)) (TyVector (TyBare "dht.node")) = Some x.
Proof.
  intros l x H. unfold any_nodes_value in H. shape_in H. split_both. subst.
  match goal with H : Some [] = Some _ |- _ => injection H as <- end. rewrite app_nil_r. assumption.
Qed.
Lemma not_found_split : forall l x, encode scheme (not_found_value l) (TyBoxed "dht.ValueResult") = Some x ->
  exists y, encode scheme (Vec (map any_node_value l)) (TyVector (TyBare "dht.node")) = Some y /\ x = put_u32 id_dht_value_not_found ++ y.
Proof.
  intros l x H. unfold not_found_value in H. shape_in H. split_both. subst.
  match goal with H : Some [] = Some _ |- _ => injection H as <- end.
  match goal with H : encode scheme (any_nodes_value _) _ = Some ?y |- _ => exists y; apply any_nodes_bare in H end. split; [assumption|]. rewrite app_nil_r.
  match goal with H : int_bytes 4 _ = Some ?y |- _ => change (encode scheme (Num id_dht_value_not_found) TyInt = Some y) in H; apply int_inv in H as [_ ->] end.
  reflexivity.
Qed.
Lemma not_found_not_understood : forall l x r, encode scheme (not_found_value l) (TyBoxed "dht.ValueResult") = Some x -> ~ List.Forall node_udp l ->
  get_value_result (x ++ r) = None.
Proof.
  intros l x r H Hu. apply not_found_split in H as (y & Hy & ->). rewrite <- app_assoc. unfold get_value_result.
  erewrite bind_reads; [|exact u32_reads|reflexivity]. change (id_dht_value_not_found =? id_dht_value_found) with false. rewrite N.eqb_refl. cbv iota.
  rewrite encode_vec, map_length in Hy. apply both_inv in Hy as (c & z & Hc & Hz & ->).
  change (encode scheme (Num (N.of_nat (length l))) TyInt = Some c) in Hc.
  unfold get_dht_nodes, get_vector. rewrite <- !app_assoc. unfold bind at 1. unfold bind at 1. rewrite (int_decodes _ _ _ I Hc).
  rewrite (many_nodes_fail l z r _ Hu Hz). reflexivity.
Qed.
Lemma not_found_understood : forall l x r, encode scheme (not_found_value l) (TyBoxed "dht.ValueResult") = Some x -> List.Forall node_udp l ->
  get_value_result (x ++ r) = Some (VrNotFound (map node_read l), r).
Proof.
  intros l x r H Hu. apply not_found_split in H as (y & Hy & ->). rewrite <- app_assoc. unfold get_value_result.
  erewrite bind_reads; [|exact u32_reads|reflexivity]. change (id_dht_value_not_found =? id_dht_value_found) with false. rewrite N.eqb_refl. cbv iota.
  unfold bind at 1. unfold get_dht_nodes. rewrite (vector_decodes _ _ _ _ _ node_decodes any_node_ne l y r Hu Hy). reflexivity.
Qed.

(** ** The signature of a node with several addresses *)
Lemma reduced_text : forall n x, node_udp n -> encode scheme (any_node_value n) (TyBoxed "dht.Node") = Some x ->
  encode scheme (any_node_value (reduced n)) (TyBoxed "dht.Node") = Some (put_dht_node_boxed (node_read n)) /\ dht_node_ok (node_read n).
Proof.
  intros n x Hu H. apply any_node_split in H as (k & l & Hk & Hl & Hv & Hs & _); [|right; reflexivity].
  pose proof (public_key_in_range _ _ Hk) as Hr.
  apply any_list_split in Hl as (y & Hy & H1 & H2 & H3 & H4 & _).
  assert (Ha : opt_ok address_ok (al_address (first_udp (an_addresses n)))).
  { unfold first_udp. cbn [al_address]. destruct (nl_addresses (an_addresses n)) as [|[ip port|ip port] m] eqn:E; try exact I.
    rewrite encode_vec in Hy. cbn [map all_encoded] in Hy. apply both_inv in Hy as (c & z & _ & Hz & _).
    apply both_inv in Hz as (z1 & z2 & Hz1 & _). unfold any_address_value in Hz1. shape_in Hz1. split_both. split; assumption. }
  assert (Hn : dht_node_ok (node_read n)). { unfold node_read. split; [exact Hr|]. split; [|split; [exact Hv|exact Hs]].
    split; [exact Ha|]. repeat split; assumption. }
  split; [|exact Hn]. rewrite <- (dht_node_encoded (node_read n) Hn). f_equal.
  unfold any_node_value, dht_node_value, reduced, node_read. cbn [an_id an_addresses an_version an_signature dn_id dn_addr_list dn_version dn_signature].
  unfold any_list_value, address_list_value, first_udp.
  cbn [nl_addresses nl_version nl_reinit_date nl_priority nl_expire_at al_address al_version al_reinit_date al_expire_at].
  unfold node_udp in Hu. destruct (nl_addresses (an_addresses n)) as [|[ip port|ip port] m]; [reflexivity|reflexivity|].
  inversion Hu as [|? ? F ?]. contradiction F.
Qed.
Lemma reduced_differs : forall n m m', (length (nl_addresses (an_addresses n)) >= 2)%nat \/ nl_priority (an_addresses n) <> 0 ->
  encode scheme (any_node_value n) (TyBoxed "dht.Node") = Some m ->
  encode scheme (any_node_value (reduced n)) (TyBoxed "dht.Node") = Some m' -> m' <> m.
Proof.
  intros n m m' Hd H H' E. subst m'.
  apply any_node_split in H as (k & l & Hk & Hl & Hv & Hs & ->); [|right; reflexivity].
  apply any_node_split in H' as (k' & l' & Hk' & Hl' & Hv' & Hs' & E); [|right; reflexivity].
  cbv iota in E. apply app_inv_head in E. unfold reduced in Hk', Hl', E. cbn [an_id an_addresses an_version an_signature] in Hk', Hl', E.
  rewrite Hk in Hk'. injection Hk' as <-. apply app_inv_head in E.
  apply any_list_split in Hl as (y & Hy & H1 & H2 & H3 & H4 & ->).
  apply any_list_split in Hl' as (y' & Hy' & H1' & H2' & H3' & H4' & ->).
  cbn [nl_addresses nl_version nl_reinit_date nl_priority nl_expire_at] in *.
  rewrite encode_vec, map_length in Hy, Hy'. apply both_inv in Hy as (c & z & Hc & Hz & ->). apply both_inv in Hy' as (c' & z' & Hc' & Hz' & ->).
  change (encode scheme (Num (N.of_nat (length (nl_addresses (an_addresses n))))) TyInt = Some c) in Hc.
  change (encode scheme (Num (N.of_nat (length (firstn 1 (nl_addresses (an_addresses n)))))) TyInt = Some c') in Hc'.
  apply int_inv in Hc as [Hc ->]. apply int_inv in Hc' as [Hc' ->]. rewrite <- !app_assoc in E.
  destruct (reads_unambiguous _ _ _ _ u32_reads _ _ _ _ Hc Hc' E) as [En E2].
  rewrite firstn_length in En.
  assert (Hl1 : (length (nl_addresses (an_addresses n)) <= 1)%nat) by lia.
  rewrite firstn_all2 in Hz' by exact Hl1. rewrite Hz in Hz'. injection Hz' as <-.
  apply app_inv_head in E2. do 2 apply app_inv_head in E2.
  destruct (reads_unambiguous _ _ _ _ u32_reads _ _ _ _ H3 (eq_refl : u32_ok 0) E2) as [E3 _].
  destruct Hd as [Hd|Hd]; [lia|congruence].
Qed.
Lemma node_refused : forall P, prims_ok P -> forall d now fresh n sent m secret,
  an_id n = PkEd25519 (pub_of P secret) -> node_udp n ->
  (length (nl_addresses (an_addresses n)) >= 2)%nat \/ nl_priority (an_addresses n) <> 0 ->
  encode scheme (any_node_value (unsigned_any n)) (TyBoxed "dht.Node") = Some m ->
  an_signature n = sign P secret m ->
  encode scheme (any_node_value n) (TyBare "dht.node") = Some sent ->
  exists m', encode scheme (any_node_value (unsigned_any (reduced n))) (TyBoxed "dht.Node") = Some m' /\ m' <> m
    /\ get_dht_node sent = Some (node_read n, [])
    /\ (verify P (pub_of P secret) m' (sign P secret m) = false ->
        add_dht_peer P d now fresh (node_read n) = (Ok None, d)).
Proof.
  intros P HP d now fresh n sent m secret Hid Hu Hd Hm Hs Hx.
  pose proof (reduced_text (unsigned_any n) m Hu Hm) as [Hr _].
  exists (put_dht_node_boxed (node_read (unsigned_any n))). split; [exact Hr|].
  split; [exact (reduced_differs (unsigned_any n) _ _ Hd Hm Hr)|].
  split. { pose proof (node_decodes n sent [] Hu Hx) as H. rewrite app_nil_r in H. exact H. }
  intros Hv. unfold add_dht_peer. unfold node_read at 1. cbn [dn_id]. rewrite Hid. unfold full_id.
  rewrite (pub_valid P HP). cbv iota.
  assert (Ef : verify_full P (pub_of P secret) (put_dht_node_boxed (unsigned_node (node_read n))) (dn_signature (node_read n)) = false).
  { unfold verify_full. replace (dn_signature (node_read n)) with (sign P secret m) by (symmetry; exact Hs).
    change (unsigned_node (node_read n)) with (node_read (unsigned_any n)). rewrite Hv. apply andb_false_r. }
  rewrite Ef. reflexivity.
Qed.
