(** C83: what is searched for is what is stored. *)
From Coq Require Import String List NArith Bool.
From Verif.Base Require Import Bytes Res.
From Verif.Model Require Import Crypto Tl Scheme ProtoAdnl ProtoDht ProtoOverlay AdnlNode DhtStorage DhtNode DhtTasks.
From Verif.Spec Require Import Codec TlScheme TlValues.
From Verif.Proof Require Import SchemeFacts.
Import ListNotations.
Open Scope N_scope.
Open Scope list_scope.

Section Searches.
  Context (P : prims) (HP : forall m, List.length (sha256 P m) = 32%nat).

  Lemma search_encoded : forall key, encode scheme (search_value (sha256 P key)) (TyBoxed "dht.ValueResult")
    = Some (lookup_query (sha256 P key)).
  Proof.
    intros key. assert (H : dht_query_ok (DqFindValue (sha256 P key) 6)).
    { split; [apply HP|]. unfold u32_ok. reflexivity. }
    destruct H as [H1 H2]. unfold search_value, lookup_query. shape. fill. cbn [both]. rewrite ?app_nil_r. reflexivity.
  Qed.
  Lemma named_encoded : forall id name, hash_ok id -> blob_ok (text name) ->
    encode scheme (named_key_value id name) (TyBoxed "dht.Key") = Some (put_dht_key_boxed (mk_dht_key id (text name) 0)).
  Proof.
    intros id name H1 H2. assert (H3 : u32_ok 0) by reflexivity. unfold named_key_value. done_encoding.
  Qed.

  Lemma searches : forall id, hash_ok id ->
    (exists key, encode scheme (named_key_value id "address") (TyBoxed "dht.Key") = Some key
       /\ encode scheme (search_value (sha256 P key)) (TyBoxed "dht.ValueResult") = Some (address_search P id)
       /\ forall d secret addr now ttl, id = short_id P (pub_of P secret) ->
          storage_key P (kd_key (dv_key (address_entry P d secret addr now ttl))) = sha256 P key)
    /\ exists key, encode scheme (named_key_value id "nodes") (TyBoxed "dht.Key") = Some key
       /\ encode scheme (search_value (sha256 P key)) (TyBoxed "dht.ValueResult") = Some (nodes_search P id)
       /\ forall name n ttl, id = sha256 P (put_public_key (PkOverlay name)) ->
          storage_key P (kd_key (dv_key (overlay_entry P name n ttl))) = sha256 P key.
  Proof.
    intros id Hid. split.
    - exists (put_dht_key_boxed (address_key id)). split; [apply named_encoded; [exact Hid|reflexivity]|].
      split; [apply search_encoded|]. intros d secret addr now ttl ->. reflexivity.
    - exists (put_dht_key_boxed (nodes_key id)). split; [apply named_encoded; [exact Hid|reflexivity]|].
      split; [apply search_encoded|]. intros name n ttl ->. reflexivity.
  Qed.
End Searches.
