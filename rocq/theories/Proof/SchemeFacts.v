(** What the codecs write is what the scheme prescribes. *)
From Coq Require Import String List NArith Arith Lia Bool.
From Coq Require Import ZifyBool ZifyNat ZifyN.
From Verif.Base Require Import Bytes BytesFacts Res.
From Verif.Model Require Import Crypto Tl Scheme ProtoAdnl ProtoRldp ProtoDht ProtoOverlay Broadcast.
From Verif.Spec Require Import Codec TlScheme TlValues.
Import ListNotations.
Open Scope N_scope.
Open Scope list_scope.

Definition table : list declaration := Eval vm_compute in scheme.
Lemma scheme_table : scheme = table.
Proof. vm_compute. reflexivity. Qed.

Lemma int4 : forall n, u32_ok n -> int_bytes 4 n = Some (put_u32 n).
Proof. intros n H. unfold int_bytes, put_u32, u32_ok in *. replace (n <? 2 ^ (8 * N.of_nat 4)) with true; [reflexivity|]. symmetry. apply N.ltb_lt. exact H. Qed.
Lemma int8 : forall n, u64_ok n -> int_bytes 8 n = Some (put_u64 n).
Proof. intros n H. unfold int_bytes, put_u64, u64_ok in *. replace (n <? 2 ^ (8 * N.of_nat 8)) with true; [reflexivity|]. symmetry. apply N.ltb_lt. exact H. Qed.
Lemma raw32 : forall b, hash_ok b -> raw_bytes 32 b = Some (put_hash b).
Proof. intros b H. unfold raw_bytes, hash_ok, put_hash in *. rewrite H. reflexivity. Qed.
Lemma string_ok : forall b, blob_ok b -> string_bytes b = Some (put_bytes b).
Proof.
  intros b H. unfold string_bytes, put_bytes, blob_ok, filled, pad_len in *.
  destruct (N.of_nat (length b) <? 254) eqn:E.
  - cbn [app length]. do 2 f_equal. f_equal. f_equal.
    change (S (length b)) with (1 + length b)%nat. lia.
  - replace (N.of_nat (length b) <? 2 ^ 24) with true by (symmetry; apply N.ltb_lt; exact H).
    cbn [app length]. do 2 f_equal. rewrite <- app_assoc. do 2 f_equal.
    rewrite app_length, le_bytes_length. f_equal.
    change (S (3 + length b))%nat with (4 + length b)%nat. lia.
Qed.


Fixpoint names (l : list (string * value)) : list string :=
  match l with [] => [] | (x, _) :: r => x :: names r end.
Fixpoint parts (l : list (string * value)) : list (string * (ty -> option bytes)) :=
  match l with [] => [] | (x, v) :: r => (x, encode scheme v) :: parts r end.
Fixpoint numbers (l : list (string * value)) : list (string * N) :=
  match l with [] => [] | (x, v) :: r => match v with Num n => (x, n) :: numbers r | _ => numbers r end end.
Lemma names_map : forall l, map fst l = names l.
Proof. induction l as [|[x v] l IH]; [reflexivity|]. cbn [map names fst]. rewrite IH. reflexivity. Qed.
Lemma numbers_map : forall l, numbers_of l = numbers l.
Proof. induction l as [|[x v] l IH]; [reflexivity|]. unfold numbers_of in *. cbn [flat_map numbers fst snd]. rewrite IH. destruct v; reflexivity. Qed.
Lemma encode_con : forall c fields t,
  encode scheme (Con c fields) t =
  match declared table c with
  | None => None
  | Some d =>
    if all_declared (d_fields d) (names fields) then
      let body := in_order (d_fields d) (numbers fields) (parts fields) in
      match t with
      | TyBare c' => if String.eqb c c' then body else None
      | TyBoxed type => if String.eqb (d_type d) type then both (int_bytes 4 (d_id d)) body else None
      | _ => None
      end
    else None
  end.
Proof.
  intros c fields t. rewrite <- scheme_table, <- names_map, <- numbers_map. reflexivity.
Qed.
Fixpoint all_encoded (e : ty) (l : list value) : option bytes :=
  match l with [] => Some [] | x :: r => both (encode scheme x e) (all_encoded e r) end.
Lemma encode_vec : forall l e, encode scheme (Vec l) (TyVector e) = both (int_bytes 4 (N.of_nat (length l))) (all_encoded e l).
Proof. intros l e. cbn [encode]. f_equal. induction l as [|x r IH]; [reflexivity|]. cbn [all_encoded]. rewrite <- IH. reflexivity. Qed.
Lemma encode_int : forall n, u32_ok n -> encode scheme (Num n) TyInt = Some (put_u32 n).
Proof. exact int4. Qed.
Lemma encode_long : forall n, u64_ok n -> encode scheme (Num n) TyLong = Some (put_u64 n).
Proof. exact int8. Qed.
Lemma encode_hash : forall b, hash_ok b -> encode scheme (Raw b) TyInt256 = Some (put_hash b).
Proof. exact raw32. Qed.
Lemma encode_bytes : forall b, blob_ok b -> encode scheme (Raw b) TyBytes = Some (put_bytes b).
Proof. exact string_ok. Qed.
Lemma all_encoded_map : forall {A} (f : A -> value) (put : A -> bytes) (wf : A -> Prop) e,
  (forall a, wf a -> encode scheme (f a) e = Some (put a)) ->
  forall l, Forall wf l -> all_encoded e (map f l) = Some (flat_map put l).
Proof.
  intros A f put wf e He l H. induction H as [|a l Ha Hl IH]; [reflexivity|].
  cbn [map all_encoded flat_map]. rewrite (He a Ha), IH. reflexivity.
Qed.
Lemma vec_encoded : forall {A} (f : A -> value) (put : A -> bytes) (wf : A -> Prop) e,
  (forall a, wf a -> encode scheme (f a) e = Some (put a)) ->
  forall l, vec_ok wf l -> encode scheme (Vec (map f l)) (TyVector e) = Some (put_vector put l).
Proof.
  intros A f put wf e He l [H Hn]. rewrite encode_vec, map_length, (int4 _ Hn), (all_encoded_map f put wf e He l H). reflexivity.
Qed.

Ltac shape :=
  repeat match goal with |- context [encode scheme (Con ?c ?f) ?t] => rewrite (encode_con c f t) end;
  cbv beta iota zeta delta [table declared d_constructor d_id d_fields d_type String.eqb Ascii.eqb Bool.eqb
    all_declared forallb existsb names parts f_name f_condition f_ty numbers in_order present get
    andb orb N.testbit Pos.testbit Pos.pred_N Pos.pred_double];
  rewrite ?(int4 _) by (vm_compute; reflexivity).
Ltac fill :=
  repeat match goal with
  | H : u32_ok ?n |- context [encode scheme (Num ?n) TyInt] => rewrite (encode_int n H)
  | H : u64_ok ?n |- context [encode scheme (Num ?n) TyLong] => rewrite (encode_long n H)
  | H : hash_ok ?b |- context [encode scheme (Raw ?b) TyInt256] => rewrite (encode_hash b H)
  | H : blob_ok ?b |- context [encode scheme (Raw ?b) TyBytes] => rewrite (encode_bytes b H)
  end;
  cbn [both].
Ltac done_encoding := shape; fill; cbn [both]; rewrite ?app_nil_r; reflexivity.


Lemma public_key_encoded : forall k, public_key_ok k -> encode scheme (public_key_value k) (TyBoxed "PublicKey") = Some (put_public_key k).
Proof. intros k H. destruct k; unfold public_key_value, public_key_ok in *; done_encoding. Qed.
Lemma udp_encoded : forall a, address_ok a -> encode scheme (udp_value a) (TyBoxed "adnl.Address") = Some (put_address a).
Proof. intros a [H1 H2]. unfold udp_value. done_encoding. Qed.
Lemma address_list_encoded : forall l, address_list_ok l ->
  encode scheme (address_list_value l) (TyBare "adnl.addressList") = Some (put_address_list l).
Proof.
  intros l (Ha & Hv & Hr & He). unfold address_list_value. shape. fill.
  rewrite (encode_int 0) by (vm_compute; reflexivity). rewrite encode_vec. unfold put_address_list.
  destruct (al_address l) as [a|]; cbn [opt_ok] in Ha; cbn [all_encoded].
  - rewrite (udp_encoded a Ha). cbn [length]. rewrite (int4 (N.of_nat 1)) by (vm_compute; reflexivity).
    cbn [both put_opt]. rewrite ?app_nil_r, ?app_assoc. reflexivity.
  - cbn [length]. rewrite (int4 (N.of_nat 0)) by (vm_compute; reflexivity).
    cbn [both put_opt]. rewrite ?app_nil_r, ?app_assoc. reflexivity.
Qed.
Lemma message_encoded : forall m, message_ok m -> encode scheme (message_value m) (TyBoxed "adnl.Message") = Some (put_message m).
Proof.
  intros m H. destruct m; unfold message_value, message_ok in *;
    try match type of H with _ /\ _ => destruct H end; repeat match goal with H : _ /\ _ |- _ => destruct H end; done_encoding.
Qed.
Lemma ping_encoded : forall v, u64_ok v -> encode scheme (ping_value v) (TyBoxed "adnl.Pong") = Some (put_adnl_ping v).
Proof. intros v H. unfold ping_value. done_encoding. Qed.
Lemma pong_encoded : forall v, u64_ok v -> encode scheme (pong_value v) (TyBoxed "adnl.Pong") = Some (put_adnl_pong v).
Proof. intros v H. unfold pong_value. done_encoding. Qed.

Lemma fec_type_encoded : forall f, fec_type_ok f -> encode scheme (fec_type_value f) (TyBoxed "fec.Type") = Some (put_fec_type f).
Proof. intros f (H1 & H2 & H3). unfold fec_type_value. done_encoding. Qed.
Lemma rldp_message_encoded : forall m, rldp_message_ok m ->
  encode scheme (rldp_message_value m) (TyBoxed "rldp.Message") = Some (put_rldp_message m).
Proof.
  intros m H. destruct m; unfold rldp_message_value, rldp_message_ok in *;
    repeat match goal with H : _ /\ _ |- _ => destruct H end; done_encoding.
Qed.
Lemma message_part_encoded : forall m, message_part_ok m ->
  encode scheme (message_part_value m) (TyBoxed "rldp.MessagePart") = Some (put_message_part m).
Proof.
  intros m H. destruct m; unfold message_part_value, message_part_ok in *;
    repeat match goal with H : _ /\ _ |- _ => destruct H end; shape; fill; rewrite ?fec_type_encoded by assumption;
    cbn [both]; rewrite ?app_nil_r; reflexivity.
Qed.

Lemma dht_node_bare : forall n, dht_node_ok n -> encode scheme (dht_node_value n) (TyBare "dht.node") = Some (put_dht_node n).
Proof.
  intros n (H1 & H2 & H3 & H4). unfold dht_node_value. shape. fill.
  rewrite public_key_encoded, address_list_encoded by assumption. cbn [both]. rewrite ?app_nil_r. reflexivity.
Qed.
Lemma dht_node_encoded : forall n, dht_node_ok n -> encode scheme (dht_node_value n) (TyBoxed "dht.Node") = Some (put_dht_node_boxed n).
Proof.
  intros n (H1 & H2 & H3 & H4). unfold dht_node_value. shape. fill.
  rewrite public_key_encoded, address_list_encoded by assumption. cbn [both]. rewrite ?app_nil_r. reflexivity.
Qed.
Lemma dht_nodes_bare : forall l, vec_ok dht_node_ok l -> encode scheme (dht_nodes_value l) (TyBare "dht.nodes") = Some (put_dht_nodes l).
Proof.
  intros l H. unfold dht_nodes_value. shape.
  rewrite (vec_encoded _ _ _ _ dht_node_bare l H). cbn [both]. rewrite ?app_nil_r. reflexivity.
Qed.
Lemma dht_nodes_encoded : forall l, vec_ok dht_node_ok l ->
  encode scheme (dht_nodes_value l) (TyBoxed "dht.Nodes") = Some (put_u32 id_dht_nodes ++ put_dht_nodes l).
Proof.
  intros l H. unfold dht_nodes_value. shape.
  rewrite (vec_encoded _ _ _ _ dht_node_bare l H). cbn [both]. rewrite ?app_nil_r. reflexivity.
Qed.
Lemma dht_key_bare : forall k, dht_key_ok k -> encode scheme (dht_key_value k) (TyBare "dht.key") = Some (put_dht_key k).
Proof. intros k (H1 & H2 & H3). unfold dht_key_value. done_encoding. Qed.
Lemma dht_key_encoded : forall k, dht_key_ok k -> encode scheme (dht_key_value k) (TyBoxed "dht.Key") = Some (put_dht_key_boxed k).
Proof. intros k (H1 & H2 & H3). unfold dht_key_value. done_encoding. Qed.
Lemma rule_encoded : forall r, encode scheme (rule_value r) (TyBoxed "dht.UpdateRule") = Some (put_update_rule r).
Proof. intros r. destruct r; unfold rule_value; done_encoding. Qed.
Lemma key_description_bare : forall d, key_description_ok d ->
  encode scheme (key_description_value d) (TyBare "dht.keyDescription") = Some (put_key_description d).
Proof.
  intros d (H1 & H2 & H3). unfold key_description_value. shape. fill.
  rewrite public_key_encoded, dht_key_bare, rule_encoded by assumption. cbn [both]. rewrite ?app_nil_r. reflexivity.
Qed.
Lemma key_description_encoded : forall d, key_description_ok d ->
  encode scheme (key_description_value d) (TyBoxed "dht.KeyDescription") = Some (put_key_description_boxed d).
Proof.
  intros d (H1 & H2 & H3). unfold key_description_value. shape. fill.
  rewrite public_key_encoded, dht_key_bare, rule_encoded by assumption. cbn [both]. rewrite ?app_nil_r. reflexivity.
Qed.
Lemma dht_value_bare : forall v, dht_value_ok v -> encode scheme (dht_value_value v) (TyBare "dht.value") = Some (put_dht_value v).
Proof.
  intros v (H1 & H2 & H3 & H4). unfold dht_value_value. shape. fill.
  rewrite key_description_bare by assumption. cbn [both]. rewrite ?app_nil_r. reflexivity.
Qed.
Lemma dht_value_encoded : forall v, dht_value_ok v -> encode scheme (dht_value_value v) (TyBoxed "dht.Value") = Some (put_dht_value_boxed v).
Proof.
  intros v (H1 & H2 & H3 & H4). unfold dht_value_value. shape. fill.
  rewrite key_description_bare by assumption. cbn [both]. rewrite ?app_nil_r. reflexivity.
Qed.
Lemma value_result_encoded : forall r, value_result_ok r ->
  encode scheme (value_result_value r) (TyBoxed "dht.ValueResult") = Some (put_value_result r).
Proof.
  intros r H. destruct r; unfold value_result_value, value_result_ok in *; shape.
  - rewrite dht_value_encoded by assumption. cbn [both]. rewrite ?app_nil_r. reflexivity.
  - rewrite dht_nodes_bare by assumption. cbn [both]. rewrite ?app_nil_r. reflexivity.
Qed.
Lemma dht_query_encoded : forall q, dht_query_ok q ->
  encode scheme (dht_query_value q) (TyBoxed (dht_query_type q)) = Some (put_dht_query q).
Proof.
  intros q H. destruct q; unfold dht_query_value, dht_query_type, dht_query_ok in *;
    repeat match goal with H : _ /\ _ |- _ => destruct H end; shape; fill;
    rewrite ?dht_value_bare, ?dht_node_bare by assumption; cbn [both]; rewrite ?app_nil_r; reflexivity.
Qed.

Lemma ov_node_bare : forall n, ov_node_ok n -> encode scheme (ov_node_value n) (TyBare "overlay.node") = Some (put_ov_node n).
Proof.
  intros n (H1 & H2 & H3 & H4). unfold ov_node_value. shape. fill.
  rewrite public_key_encoded by assumption. cbn [both]. rewrite ?app_nil_r. reflexivity.
Qed.
Lemma ov_nodes_bare : forall l, vec_ok ov_node_ok l -> encode scheme (ov_nodes_value l) (TyBare "overlay.nodes") = Some (put_ov_nodes l).
Proof.
  intros l H. unfold ov_nodes_value. shape.
  rewrite (vec_encoded _ _ _ _ ov_node_bare l H). cbn [both]. rewrite ?app_nil_r. reflexivity.
Qed.
Lemma ov_nodes_encoded : forall l, vec_ok ov_node_ok l ->
  encode scheme (ov_nodes_value l) (TyBoxed "overlay.Nodes") = Some (put_ov_nodes_boxed l).
Proof.
  intros l H. unfold ov_nodes_value. shape.
  rewrite (vec_encoded _ _ _ _ ov_node_bare l H). cbn [both]. rewrite ?app_nil_r. reflexivity.
Qed.
Lemma certificate_encoded : forall c, certificate_ok c ->
  encode scheme (certificate_value c) (TyBoxed "overlay.Certificate") = Some (put_certificate c).
Proof.
  intros c H. destruct c; unfold certificate_value, certificate_ok in *;
    repeat match goal with H : _ /\ _ |- _ => destruct H end; shape; fill;
    rewrite ?public_key_encoded by assumption; cbn [both]; rewrite ?app_nil_r; reflexivity.
Qed.
Lemma broadcast_encoded : forall b, broadcast_ok b ->
  encode scheme (broadcast_value b) (TyBoxed "overlay.Broadcast") = Some (put_broadcast b).
Proof.
  intros b H. destruct b; unfold broadcast_value, broadcast_ok, ov_broadcast_ok, ov_broadcast_fec_ok in *;
    repeat match goal with H : _ /\ _ |- _ => destruct H end; shape; fill;
    rewrite ?public_key_encoded, ?certificate_encoded, ?fec_type_encoded by assumption; cbn [both]; rewrite ?app_nil_r; reflexivity.
Qed.

Lemma overlay_message_encoded : forall o, hash_ok o ->
  encode scheme (overlay_message_value o) (TyBoxed "overlay.Message") = Some (put_overlay_message o).
Proof. intros o H. unfold overlay_message_value. done_encoding. Qed.
Lemma overlay_query_encoded : forall o, hash_ok o ->
  encode scheme (overlay_query_value o) (TyBoxed "True") = Some (put_overlay_query o).
Proof. intros o H. unfold overlay_query_value. done_encoding. Qed.
Lemma get_random_peers_encoded : forall l, vec_ok ov_node_ok l ->
  encode scheme (get_random_peers_value l) (TyBoxed "overlay.Nodes") = Some (put_get_random_peers l).
Proof.
  intros l H. unfold get_random_peers_value. shape. rewrite ov_nodes_bare by assumption. cbn [both]. rewrite ?app_nil_r. reflexivity.
Qed.
Lemma dht_pong_encoded : forall v, u64_ok v -> encode scheme (dht_pong_value v) (TyBoxed "dht.Pong") = Some (put_dht_pong v).
Proof. intros v H. unfold dht_pong_value. done_encoding. Qed.
Lemma dht_stored_encoded : encode scheme dht_stored_value (TyBoxed "dht.Stored") = Some put_dht_stored.
Proof. unfold dht_stored_value. done_encoding. Qed.
Lemma node_to_sign_encoded : forall i o v, hash_ok i -> hash_ok o -> u32_ok v ->
  encode scheme (node_to_sign_value i o v) (TyBoxed "overlay.node.ToSign") = Some (put_node_to_sign i o v).
Proof. intros i o v H1 H2 H3. unfold node_to_sign_value. shape. shape. fill. cbn [both]. rewrite ?app_nil_r. reflexivity. Qed.
Lemma shard_encoded : forall w s h, u32_ok w -> u64_ok s -> hash_ok h ->
  encode scheme (shard_value w s h) (TyBoxed "tonNode.ShardPublicOverlayId") = Some (put_shard_public_overlay_id w s h).
Proof. intros w s h H1 H2 H3. unfold shard_value. done_encoding. Qed.
Lemma first_block_encoded : forall h l, hash_ok h -> vec_ok hash_ok l ->
  encode scheme (first_block_value h l) (TyBoxed "catchain.FirstBlock") = Some (put_catchain_first_block h l).
Proof.
  intros h l H1 H2. unfold first_block_value. shape. fill.
  rewrite (vec_encoded Raw put_hash hash_ok TyInt256 encode_hash l H2). cbn [both]. rewrite ?app_nil_r. reflexivity.
Qed.
Lemma broadcast_id_encoded : forall s h f, hash_ok s -> hash_ok h -> u32_ok f ->
  encode scheme (broadcast_id_value s h f) (TyBoxed "overlay.broadcast.Id") = Some (put_u32 id_overlay_broadcast_id ++ s ++ h ++ put_u32 f).
Proof. intros s h f H1 H2 H3. unfold broadcast_id_value. done_encoding. Qed.
Lemma fec_id_encoded : forall s t h z f, hash_ok s -> hash_ok t -> hash_ok h -> u32_ok z -> u32_ok f ->
  encode scheme (fec_id_value s t h z f) (TyBoxed "overlay.broadcastFec.Id")
  = Some (put_u32 id_overlay_broadcast_fec_id ++ s ++ t ++ h ++ put_u32 z ++ put_u32 f).
Proof. intros s t h z f H1 H2 H3 H4 H5. unfold fec_id_value. done_encoding. Qed.
Lemma fec_part_id_encoded : forall b h q, hash_ok b -> hash_ok h -> u32_ok q ->
  encode scheme (fec_part_id_value b h q) (TyBoxed "overlay.broadcastFec.PartId")
  = Some (put_u32 id_overlay_broadcast_fec_part_id ++ b ++ h ++ put_u32 q).
Proof. intros b h q H1 H2 H3. unfold fec_part_id_value. done_encoding. Qed.
Lemma to_sign_encoded : forall h d, hash_ok h -> u32_ok d ->
  encode scheme (to_sign_value h d) (TyBoxed "overlay.broadcast.ToSign") = Some (put_to_sign h d).
Proof. intros h d H1 H2. unfold to_sign_value. done_encoding. Qed.

Lemma packet_encoded : forall p ms, out_packet_ok p -> carries (op_messages p) ms ->
  encode scheme (sent_value p ms) (TyBoxed "adnl.PacketContents") = Some (put_out_packet p).
Proof.
  intros p ms (H1 & H2 & H3 & H4 & H5 & H6 & H7 & H8) Hm.
  destruct p as [r1 from om ad sq cs dates sg r2].
  cbn [op_rand1 op_rand2 op_from op_messages op_address op_seqno op_confirm_seqno op_reinit_dates op_signature] in *.
  assert (Hs : match sg with Some s => blob_ok s | None => True end).
  { destruct sg as [s|]; [|exact I]. cbn [opt_ok] in H8. unfold blob_ok. rewrite H8. reflexivity. }
  unfold put_out_packet, sent_value.
  cbn [op_rand1 op_rand2 op_from op_messages op_address op_seqno op_confirm_seqno op_reinit_dates op_signature].
  assert (Hd : match dates with Some d => u32_ok (rd_local d) /\ u32_ok (rd_target d) | None => True end).
  { destruct dates; [exact H7|exact I]. }
  clear H7 H8.
  destruct Hm as [m Hm | a b Ha Hb];
  [pose proof (message_encoded m Hm) as He
  |assert (He : encode scheme (Vec (map message_value [a; b])) (TyVector (TyBoxed "adnl.Message")) = Some (put_u32 2 ++ put_message a ++ put_message b));
   [rewrite (vec_encoded _ _ _ _ message_encoded [a; b]); [unfold put_vector; cbn [flat_map length]; rewrite app_nil_r; reflexivity|split; [repeat constructor; assumption|reflexivity]]|]];
  pose proof (address_list_encoded ad H4) as Had;
  (destruct from as [k|]; [pose proof (public_key_encoded k H3) as Hk|]);
  (destruct dates as [d|]; [destruct Hd as [Hd1 Hd2]|]);
  destruct sg as [s|]; cbn [given app];
  match goal with |- context [("flags"%string, Num ?e)] => let v := eval vm_compute in e in change e with v end;
  shape; fill;
  rewrite (encode_int _) by (vm_compute; reflexivity);
  rewrite ?He, ?Had, ?Hk; cbn [both put_opt put_out_messages]; rewrite ?app_nil_r; unfold put_reinit_dates; rewrite <- ?app_assoc; try reflexivity.
Qed.

Lemma source_hash : forall source, match source with Some s => hash_ok s | None => True end -> hash_ok (source_bytes source).
Proof. intros [s|] H; [exact H|reflexivity]. Qed.
Lemma broadcast_text : forall P, (forall m, length (sha256 P m) = 32%nat) -> forall data date source,
  u32_ok date -> match source with Some s => hash_ok s | None => True end ->
  exists id, encode scheme (broadcast_id_value (match source with Some s => s | None => repeat 0 32 end) (sha256 P data) 1)
               (TyBoxed "overlay.broadcast.Id") = Some id
    /\ encode scheme (to_sign_value (sha256 P id) date) (TyBoxed "overlay.broadcast.ToSign")
       = Some (broadcast_to_sign P data date source).
Proof.
  intros P HP data date source Hd Hs. eexists. split.
  - apply broadcast_id_encoded; [exact (source_hash source Hs)|apply HP|reflexivity].
  - apply to_sign_encoded; [apply HP|exact Hd].
Qed.
Lemma fec_text : forall P, (forall m, length (sha256 P m) = 32%nat) -> forall data_hash size date flags params part seqno source,
  hash_ok data_hash -> u32_ok size -> u32_ok date -> u32_ok flags -> fec_type_ok params -> u32_ok seqno ->
  match source with Some s => hash_ok s | None => True end ->
  exists type id part_id,
    encode scheme (fec_type_value params) (TyBoxed "fec.Type") = Some type
    /\ encode scheme (fec_id_value (match source with Some s => s | None => repeat 0 32 end) (sha256 P type) data_hash size flags)
         (TyBoxed "overlay.broadcastFec.Id") = Some id
    /\ encode scheme (fec_part_id_value (sha256 P id) (sha256 P part) seqno) (TyBoxed "overlay.broadcastFec.PartId") = Some part_id
    /\ encode scheme (to_sign_value (sha256 P part_id) date) (TyBoxed "overlay.broadcast.ToSign")
       = Some (fec_part_to_sign P data_hash size date flags params part seqno source).
Proof.
  intros P HP data_hash size date flags params part seqno source H1 H2 H3 H4 H5 H6 Hs.
  do 3 eexists. split; [apply fec_type_encoded; exact H5|].
  split; [apply fec_id_encoded; [exact (source_hash source Hs)|apply HP|exact H1|exact H2|exact H4]|].
  split; [apply fec_part_id_encoded; [apply HP|apply HP|exact H6]|].
  apply to_sign_encoded; [apply HP|exact H3].
Qed.
