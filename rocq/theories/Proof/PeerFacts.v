(** Addresses (C21, C22). *)
From Coq Require Import List NArith ZArith Lia Bool Arith.
From Coq Require Import ZifyBool ZifyNat ZifyN.
From Verif.Base Require Import Bytes BytesFacts Res.
From Verif.Model Require Import ProtoAdnl Peer.
From Verif.Spec Require Import NodeSpec.
Import ListNotations.
Open Scope N_scope.

(** C22 *)
Lemma unpack_pack : forall a, addr_ok a -> unpack_addr (pack_addr a) = a.
Proof.
  intros [ip port] [H1 H2]. cbn [sa_ip sa_port] in *. unfold unpack_addr, pack_addr. cbn [sa_ip sa_port].
  set (b := be_bytes 4 ip ++ le_bytes 2 port ++ [0; 0]).
  assert (Hl : length b = 8%nat).
  { unfold b. now rewrite !app_length, be_bytes_length, le_bytes_length. }
  assert (Hok : bytes_ok b = true).
  { unfold b. rewrite !bytes_ok_app, be_bytes_ok, le_bytes_ok. auto. }
  rewrite <- Hl, le_bytes_of_le by assumption. unfold slice, b.
  pose proof (be_bytes_length 4 ip) as L4. pose proof (le_bytes_length 2 port) as L2.
  f_equal.
  - change (4 - 0)%nat with 4%nat. rewrite skipn_O. rewrite firstn_app, L4, Nat.sub_diag, firstn_O, app_nil_r.
    rewrite firstn_all2 by lia. apply of_be_be_bytes_small. assumption.
  - rewrite skipn_app, L4, Nat.sub_diag, skipn_O, skipn_all2 by lia. cbn [app].
    change (6 - 4)%nat with 2%nat. rewrite firstn_app, L2, Nat.sub_diag, firstn_O, app_nil_r.
    rewrite firstn_all2 by lia. apply of_le_le_bytes_small. assumption.
Qed.

Lemma pack_inj : forall a b, addr_ok a -> addr_ok b -> pack_addr a = pack_addr b -> a = b.
Proof. intros a b Ha Hb H. rewrite <- (unpack_pack a Ha), <- (unpack_pack b Hb). now rewrite H. Qed.

Lemma pack_fits : forall a, addr_ok a -> pack_addr a < 2 ^ 64.
Proof.
  intros a _. unfold pack_addr.
  eapply N.lt_le_trans; [apply of_le_bound|].
  - rewrite !bytes_ok_app, be_bytes_ok, le_bytes_ok. auto.
  - rewrite !app_length, be_bytes_length, le_bytes_length. reflexivity.
Qed.

Lemma wire_address : forall a, addr_ok a -> sockaddr_of (address_of a) = a.
Proof.
  intros [ip port] [H1 H2]. cbn in *. unfold sockaddr_of. cbn [ad_ip ad_port address_of sa_ip sa_port].
  now rewrite !N.mod_small.
Qed.

(** C21 *)
Lemma address_list_accepted : forall l now tolerance a,
  parse_address_list l now tolerance = Ok a <->
  (exists w, al_address l = Some w /\ a = sockaddr_of w)
  /\ al_reinit_date l <= now + tolerance /\ (al_expire_at l = 0 \/ now <= al_expire_at l).
Proof.
  intros l now tol a. unfold parse_address_list. destruct (al_address l) as [w|].
  2:{ split; [discriminate|]. intros ((w & H & _) & _). discriminate. }
  destruct (now + tol <? al_reinit_date l) eqn:E1.
  { split; [discriminate|]. lia. }
  destruct (negb (al_expire_at l =? 0) && (al_expire_at l <? now)) eqn:E2.
  { split; [discriminate|]. lia. }
  split.
  - intros H. injection H as <-. split; [eauto|]. lia.
  - intros ((w' & H & ->) & _). injection H as <-. reflexivity.
Qed.

