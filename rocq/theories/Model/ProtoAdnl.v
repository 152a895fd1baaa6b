(** Codec of ADNL messages and packets: /repo/src/proto/adnl.rs. *)
From Coq Require Import List NArith Bool.
From Verif.Base Require Import Bytes.
From Verif.Model Require Import Tl Scheme.
Import ListNotations.
Open Scope N_scope.

(** [everscale_crypto::tl::PublicKey] (external crate): boxed union of key kinds. *)
Inductive public_key :=
| PkEd25519 (key : bytes)
| PkAes (key : bytes)
| PkOverlay (name : bytes)
| PkUnencoded (data : bytes).

Definition put_public_key (k : public_key) : bytes :=
  match k with
  | PkEd25519 key => put_u32 id_pub_ed25519 ++ put_hash key
  | PkAes key => put_u32 id_pub_aes ++ put_hash key
  | PkOverlay name => put_u32 id_pub_overlay ++ put_bytes name
  | PkUnencoded data => put_u32 id_pub_unenc ++ put_bytes data
  end.
Definition get_public_key : parser public_key :=
  let* c := get_u32 in
  if c =? id_pub_ed25519 then let* k := get_hash in ret (PkEd25519 k)
  else if c =? id_pub_aes then let* k := get_hash in ret (PkAes k)
  else if c =? id_pub_overlay then let* k := get_bytes in ret (PkOverlay k)
  else if c =? id_pub_unenc then let* k := get_bytes in ret (PkUnencoded k)
  else fail.

(** [Address] (adnl.rs:402-407): boxed, 12 bytes. *)
Record address := mk_address { ad_ip : N; ad_port : N }.
Definition put_address (a : address) : bytes :=
  put_u32 id_address_udp ++ put_u32 (ad_ip a) ++ put_u32 (ad_port a).
Definition get_address : parser address :=
  let* c := get_u32 in
  if c =? id_address_udp
  then let* ip := get_u32 in let* port := get_u32 in ret (mk_address ip port)
  else fail.

(** [AddressList] (adnl.rs:336-400): writes zero or one address, reads any number and keeps
    the first. *)
Record address_list := mk_address_list
  { al_address : option address; al_version : N; al_reinit_date : N; al_expire_at : N }.
Definition put_address_list (l : address_list) : bytes :=
  put_u32 (match al_address l with Some _ => 1 | None => 0 end)
  ++ put_opt put_address (al_address l)
  ++ put_u32 (al_version l) ++ put_u32 (al_reinit_date l) ++ put_u32 0 ++ put_u32 (al_expire_at l).
Definition get_address_list : parser address_list :=
  let* n := get_u32 in
  let* addrs := (fun l => get_many (S (length l)) get_address n l) in
  let* version := get_u32 in
  let* reinit_date := get_u32 in
  let* _priority := get_u32 in
  let* expire_at := get_u32 in
  ret (mk_address_list (hd_error addrs) version reinit_date expire_at).

(** [ReinitDates] (adnl.rs:283-288). *)
Record reinit_dates := mk_reinit_dates { rd_local : N; rd_target : N }.
Definition put_reinit_dates (d : reinit_dates) : bytes := put_u32 (rd_local d) ++ put_u32 (rd_target d).
Definition get_reinit_dates : parser reinit_dates :=
  let* l := get_u32 in let* t := get_u32 in ret (mk_reinit_dates l t).

(** [Message] (adnl.rs:290-334). *)
Inductive message :=
| MAnswer (query_id answer : bytes)
| MCustom (data : bytes)
| MConfirmChannel (key peer_key : bytes) (date : N)
| MPart (hash : bytes) (total_size offset : N) (data : bytes)
| MCreateChannel (key : bytes) (date : N)
| MQuery (query_id query : bytes)
| MNop
| MReinit (date : N).

Definition put_message (m : message) : bytes :=
  match m with
  | MAnswer q a => put_u32 id_answer ++ put_hash q ++ put_bytes a
  | MCustom d => put_u32 id_custom ++ put_bytes d
  | MConfirmChannel k p d => put_u32 id_confirm_channel ++ put_hash k ++ put_hash p ++ put_u32 d
  | MPart h t o d => put_u32 id_part ++ put_hash h ++ put_u32 t ++ put_u32 o ++ put_bytes d
  | MCreateChannel k d => put_u32 id_create_channel ++ put_hash k ++ put_u32 d
  | MQuery q a => put_u32 id_query ++ put_hash q ++ put_bytes a
  | MNop => put_u32 id_nop
  | MReinit d => put_u32 id_reinit ++ put_u32 d
  end.
Definition get_message : parser message :=
  let* c := get_u32 in
  if c =? id_answer then let* q := get_hash in let* a := get_bytes in ret (MAnswer q a)
  else if c =? id_custom then let* d := get_bytes in ret (MCustom d)
  else if c =? id_confirm_channel then
    let* k := get_hash in let* p := get_hash in let* d := get_u32 in ret (MConfirmChannel k p d)
  else if c =? id_part then
    let* h := get_hash in let* t := get_u32 in let* o := get_u32 in let* d := get_bytes in
    ret (MPart h t o d)
  else if c =? id_create_channel then let* k := get_hash in let* d := get_u32 in ret (MCreateChannel k d)
  else if c =? id_query then let* q := get_hash in let* a := get_bytes in ret (MQuery q a)
  else if c =? id_nop then ret MNop
  else if c =? id_reinit then let* d := get_u32 in ret (MReinit d)
  else fail.

(** [OutgoingMessages] (adnl.rs:70-107): already serialized messages, one or two. *)
Inductive out_messages := OmSingle (raw : bytes) | OmPair (raw : bytes).
Definition put_out_messages (m : out_messages) : bytes :=
  match m with OmSingle raw => raw | OmPair raw => put_u32 2 ++ raw end.

(** [OutgoingPacketContents] (adnl.rs:8-21). *)
Record out_packet := mk_out_packet
  { op_rand1 : bytes;
    op_from : option public_key;
    op_messages : out_messages;
    op_address : address_list;
    op_seqno : N;
    op_confirm_seqno : N;
    op_reinit_dates : option reinit_dates;
    op_signature : option bytes;
    op_rand2 : bytes }.

Definition flag_of {A} (o : option A) (bit : N) : N :=
  match o with Some _ => bit | None => 0 end.

(** adnl.rs:44-54; bit [k] has weight [2^k]. *)
Definition out_flags (p : out_packet) : N :=
  N.lor (N.lor (N.lor (N.lor (N.lor (N.lor (2 ^ 4) (2 ^ 6)) (2 ^ 7))
    (flag_of (op_from p) (2 ^ 0)))
    (match op_messages p with OmSingle _ => 2 ^ 2 | OmPair _ => 2 ^ 3 end))
    (flag_of (op_reinit_dates p) (2 ^ 10)))
    (flag_of (op_signature p) (2 ^ 11)).

(** adnl.rs:40-67. *)
Definition put_out_packet (p : out_packet) : bytes :=
  put_u32 id_packet_contents
  ++ put_bytes (op_rand1 p)
  ++ put_u32 (out_flags p)
  ++ put_opt put_public_key (op_from p)
  ++ put_out_messages (op_messages p)
  ++ put_address_list (op_address p)
  ++ put_u64 (op_seqno p)
  ++ put_u64 (op_confirm_seqno p)
  ++ put_opt put_reinit_dates (op_reinit_dates p)
  ++ put_opt put_bytes (op_signature p)
  ++ put_bytes (op_rand2 p).

(** [PacketContentsSignature] (adnl.rs:227-233). *)
Record packet_signature := mk_packet_signature
  { ps_signature : bytes; ps_flags_offset : N; ps_start : N; ps_end : N }.

(** [IncomingPacketContents] (adnl.rs:109-123). *)
Record in_packet := mk_in_packet
  { ip_from : option public_key;
    ip_from_short : option bytes;
    ip_messages : list message;
    ip_address : option address_list;
    ip_seqno : option N;
    ip_confirm_seqno : option N;
    ip_reinit_dates : option reinit_dates;
    ip_signature : option packet_signature }.

(** [read_optional] (adnl.rs:134-147). *)
Definition get_optional {A} (flags bit : N) (p : parser A) : parser (option A) :=
  if N.testbit flags bit then (let* a := p in ret (Some a)) else ret None.

(** Current offset inside the packet, truncated to u16 (adnl.rs:157, 182, 184). *)
Definition offset_u16 (packet : bytes) : parser N :=
  fun rest => Some (N.of_nat (length packet - length rest) mod 2 ^ 16, rest).

(** adnl.rs:181-198. *)
Definition get_signature (packet : bytes) (flags flags_offset : N) : parser (option packet_signature) :=
  if N.testbit flags 11 then
    let* s := offset_u16 packet in
    let* sg := get_bytes in
    let* e := offset_u16 packet in
    if Nat.eqb (length sg) 64
    then ret (Some (mk_packet_signature sg flags_offset s e))
    else fail
  else ret None.

(** adnl.rs:132-225. *)
Definition get_in_packet_at (packet : bytes) : parser in_packet :=
  let* c := get_u32 in
  if negb (c =? id_packet_contents) then fail else
  let* _rand1 := get_bytes in
  let* flags_offset := offset_u16 packet in
  let* flags := get_u32 in
  let* from := get_optional flags 0 get_public_key in
  let* from_short := get_optional flags 1 get_hash in
  let* m := get_optional flags 2 get_message in
  let* ms := get_optional flags 3 (get_vector get_message) in
  let* address := get_optional flags 4 get_address_list in
  let* _priority_address := get_optional flags 5 get_address_list in
  let* seqno := get_optional flags 6 get_u64 in
  let* confirm_seqno := get_optional flags 7 get_u64 in
  let* _v1 := get_optional flags 8 get_u32 in
  let* _v2 := get_optional flags 9 get_u32 in
  let* dates := get_optional flags 10 get_reinit_dates in
  let* signature := get_signature packet flags flags_offset in
  let* _rand2 := get_bytes in
  match ms, m with
  | Some l, None => ret (mk_in_packet from from_short l address seqno confirm_seqno dates signature)
  | None, Some x => ret (mk_in_packet from from_short [x] address seqno confirm_seqno dates signature)
  | Some l, Some x =>
      ret (mk_in_packet from from_short (x :: l) address seqno confirm_seqno dates signature)
  | None, None => fail
  end.

Definition parse_packet (packet : bytes) : option in_packet :=
  deserialize (get_in_packet_at packet) packet.

(** [PacketContentsSignature::extract] (adnl.rs:243-280): clears the signature flag (byte
    [flags_offset + 1], mask 0xf7), moves the bytes after the signature over it and returns
    the shortened packet together with the signature. *)
Definition extract (s : packet_signature) (packet : bytes) : option (bytes * bytes) :=
  let packet_len := N.of_nat (length packet) mod 2 ^ 16 in
  let fo := ps_flags_offset s + 1 in
  if (fo <? packet_len) && (ps_start s <? ps_end s) && (ps_end s <? packet_len) then
    let i := N.to_nat fo in
    let p1 := set_nth i (N.land (nth i packet 0) 0xf7) packet in
    let signature_len := ps_end s - ps_start s in
    let remaining := packet_len - ps_end s in
    let moved := firstn (N.to_nat remaining) (skipn (N.to_nat (ps_end s)) p1) in
    let p2 := firstn (N.to_nat (ps_start s)) p1 ++ moved
              ++ skipn (N.to_nat (ps_start s + remaining)) p1 in
    Some (firstn (length packet - N.to_nat signature_len) p2, ps_signature s)
  else None.

(** [Pong] (adnl.rs:424-428) and [AdnlPing] (proto/rpc.rs:5-9). *)
Definition put_adnl_pong (v : N) : bytes := put_u32 id_adnl_pong ++ put_u64 v.
Definition get_adnl_pong : parser N :=
  let* c := get_u32 in if c =? id_adnl_pong then get_u64 else fail.
Definition put_adnl_ping (v : N) : bytes := put_u32 id_adnl_ping ++ put_u64 v.
Definition get_adnl_ping : parser N :=
  let* c := get_u32 in if c =? id_adnl_ping then get_u64 else fail.
