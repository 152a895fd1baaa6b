(** What a faithful codec is, and which values exist on the Rust side (range of the integer
    types, 32-byte hashes, byte strings below the 2^24 limit of the TL format). *)
From Coq Require Import List NArith Bool.
From Verif.Base Require Import Bytes.
From Verif.Model Require Import Tl ProtoAdnl ProtoRldp ProtoDht ProtoOverlay.
Import ListNotations.
Open Scope N_scope.

(** [get] reads back exactly what [put] wrote and leaves what follows untouched. *)
Definition reads {A} (put : A -> bytes) (get : parser A) (wf : A -> Prop) : Prop :=
  forall a r, wf a -> get (put a ++ r) = Some (a, r).

(** Two different values never share an encoding, not even as prefixes of longer streams. *)
Definition unambiguous {A} (put : A -> bytes) (wf : A -> Prop) : Prop :=
  forall a b r s, wf a -> wf b -> put a ++ r = put b ++ s -> a = b /\ r = s.

Definition u32_ok (v : N) : Prop := v < 2 ^ 32.
Definition u64_ok (v : N) : Prop := v < 2 ^ 64.
Definition hash_ok (h : bytes) : Prop := length h = 32%nat.
Definition blob_ok (d : bytes) : Prop := N.of_nat (length d) < 2 ^ 24.
Definition vec_ok {A} (wf : A -> Prop) (l : list A) : Prop :=
  Forall wf l /\ N.of_nat (length l) < 2 ^ 32.
Definition opt_ok {A} (wf : A -> Prop) (o : option A) : Prop :=
  match o with Some a => wf a | None => True end.

Definition public_key_ok (k : public_key) : Prop :=
  match k with
  | PkEd25519 b | PkAes b => hash_ok b
  | PkOverlay b | PkUnencoded b => blob_ok b
  end.
Definition address_ok (a : address) : Prop := u32_ok (ad_ip a) /\ u32_ok (ad_port a).
Definition address_list_ok (l : address_list) : Prop :=
  opt_ok address_ok (al_address l) /\ u32_ok (al_version l) /\ u32_ok (al_reinit_date l)
  /\ u32_ok (al_expire_at l).
Definition reinit_dates_ok (d : reinit_dates) : Prop := u32_ok (rd_local d) /\ u32_ok (rd_target d).
Definition message_ok (m : message) : Prop :=
  match m with
  | MAnswer q a => hash_ok q /\ blob_ok a
  | MCustom d => blob_ok d
  | MConfirmChannel k p d => hash_ok k /\ hash_ok p /\ u32_ok d
  | MPart h t o d => hash_ok h /\ u32_ok t /\ u32_ok o /\ blob_ok d
  | MCreateChannel k d => hash_ok k /\ u32_ok d
  | MQuery q a => hash_ok q /\ blob_ok a
  | MNop => True
  | MReinit d => u32_ok d
  end.

Definition fec_type_ok (f : fec_type) : Prop :=
  u32_ok (ft_total_len f) /\ u32_ok (ft_packet_len f) /\ u32_ok (ft_packet_count f).
Definition rldp_message_ok (m : rldp_message) : Prop :=
  match m with
  | RMessage i d | RAnswer i d => hash_ok i /\ blob_ok d
  | RQuery q ma t d => hash_ok q /\ u64_ok ma /\ u32_ok t /\ blob_ok d
  end.
Definition message_part_ok (m : message_part) : Prop :=
  match m with
  | MpPart t f p ts s d =>
      hash_ok t /\ fec_type_ok f /\ u32_ok p /\ u64_ok ts /\ u32_ok s /\ blob_ok d
  | MpConfirm t p s => hash_ok t /\ u32_ok p /\ u32_ok s
  | MpComplete t p => hash_ok t /\ u32_ok p
  end.

Definition dht_node_ok (n : dht_node) : Prop :=
  public_key_ok (dn_id n) /\ address_list_ok (dn_addr_list n) /\ u32_ok (dn_version n)
  /\ blob_ok (dn_signature n).
Definition dht_key_ok (k : dht_key) : Prop :=
  hash_ok (dk_id k) /\ blob_ok (dk_name k) /\ u32_ok (dk_idx k).
Definition key_description_ok (d : key_description) : Prop :=
  dht_key_ok (kd_key d) /\ public_key_ok (kd_id d) /\ blob_ok (kd_signature d).
Definition dht_value_ok (v : dht_value) : Prop :=
  key_description_ok (dv_key v) /\ blob_ok (dv_value v) /\ u32_ok (dv_ttl v)
  /\ blob_ok (dv_signature v).
Definition value_result_ok (r : value_result) : Prop :=
  match r with VrFound v => dht_value_ok v | VrNotFound l => vec_ok dht_node_ok l end.
Definition dht_query_ok (q : dht_query) : Prop :=
  match q with
  | DqPing r => u64_ok r
  | DqFindNode key k | DqFindValue key k => hash_ok key /\ u32_ok k
  | DqGetSignedAddressList => True
  | DqStore v => dht_value_ok v
  | DqQuery n => dht_node_ok n
  end.

Definition ov_node_ok (n : ov_node) : Prop :=
  public_key_ok (on_id n) /\ hash_ok (on_overlay n) /\ u32_ok (on_version n) /\ blob_ok (on_signature n).
Definition certificate_ok (c : certificate) : Prop :=
  match c with
  | Cert k e m s => public_key_ok k /\ u32_ok e /\ u32_ok m /\ blob_ok s
  | EmptyCert => True
  end.
Definition ov_broadcast_ok (b : ov_broadcast) : Prop :=
  public_key_ok (ob_src b) /\ certificate_ok (ob_certificate b) /\ u32_ok (ob_flags b)
  /\ blob_ok (ob_data b) /\ u32_ok (ob_date b) /\ blob_ok (ob_signature b).
Definition ov_broadcast_fec_ok (b : ov_broadcast_fec) : Prop :=
  public_key_ok (bf_src b) /\ certificate_ok (bf_certificate b) /\ hash_ok (bf_data_hash b)
  /\ u32_ok (bf_data_size b) /\ u32_ok (bf_flags b) /\ blob_ok (bf_data b) /\ u32_ok (bf_seqno b)
  /\ fec_type_ok (bf_fec b) /\ u32_ok (bf_date b) /\ blob_ok (bf_signature b).
Definition broadcast_ok (b : broadcast) : Prop :=
  match b with
  | BBroadcast x => ov_broadcast_ok x
  | BBroadcastFec x => ov_broadcast_fec_ok x
  | BBroadcastFecShort s c h p q g =>
      public_key_ok s /\ certificate_ok c /\ hash_ok h /\ hash_ok p /\ u32_ok q /\ blob_ok g
  | BBroadcastNotFound => True
  | BFecCompleted h | BFecReceived h => hash_ok h
  | BUnicast d => blob_ok d
  end.

(** The messages an outgoing packet carries: one, or exactly two. *)
Inductive carries : out_messages -> list message -> Prop :=
| carries_one : forall m, message_ok m -> carries (OmSingle (put_message m)) [m]
| carries_two : forall a b, message_ok a -> message_ok b ->
    carries (OmPair (put_message a ++ put_message b)) [a; b].

(** Outgoing packets the node can build ([signature] is always a 64-byte Ed25519 signature). *)
Definition out_packet_ok (p : out_packet) : Prop :=
  blob_ok (op_rand1 p) /\ blob_ok (op_rand2 p)
  /\ opt_ok public_key_ok (op_from p) /\ address_list_ok (op_address p)
  /\ u64_ok (op_seqno p) /\ u64_ok (op_confirm_seqno p)
  /\ opt_ok reinit_dates_ok (op_reinit_dates p)
  /\ opt_ok (fun s => length s = 64%nat) (op_signature p).

(** The received packet says exactly what the sent packet said. *)
Definition same_packet (p : out_packet) (msgs : list message) (q : in_packet) : Prop :=
  ip_from q = op_from p /\ ip_from_short q = None /\ ip_messages q = msgs
  /\ ip_address q = Some (op_address p)
  /\ ip_seqno q = Some (op_seqno p) /\ ip_confirm_seqno q = Some (op_confirm_seqno p)
  /\ ip_reinit_dates q = op_reinit_dates p
  /\ option_map ps_signature (ip_signature q) = op_signature p.

(** The same packet before it was signed. *)
Definition unsigned (p : out_packet) : out_packet :=
  mk_out_packet (op_rand1 p) (op_from p) (op_messages p) (op_address p) (op_seqno p)
    (op_confirm_seqno p) (op_reinit_dates p) None (op_rand2 p).
