(** Codec of RLDP messages: /repo/src/proto/rldp.rs. *)
From Coq Require Import List NArith Bool.
From Verif.Base Require Import Bytes.
From Verif.Model Require Import Tl Scheme.
Import ListNotations.
Open Scope N_scope.

(** [RaptorQFecType] (rldp.rs:56-62): boxed. *)
Record fec_type := mk_fec_type { ft_total_len : N; ft_packet_len : N; ft_packet_count : N }.
Definition fec_type_eqb (a b : fec_type) : bool :=
  (ft_total_len a =? ft_total_len b) && (ft_packet_len a =? ft_packet_len b)
  && (ft_packet_count a =? ft_packet_count b).
Definition put_fec_type (f : fec_type) : bytes :=
  put_u32 id_raptorq ++ put_u32 (ft_total_len f) ++ put_u32 (ft_packet_len f) ++ put_u32 (ft_packet_count f).
Definition get_fec_type : parser fec_type :=
  let* c := get_u32 in
  if c =? id_raptorq
  then let* a := get_u32 in let* b := get_u32 in let* d := get_u32 in ret (mk_fec_type a b d)
  else fail.

(** [Message] (rldp.rs:5-28). *)
Inductive rldp_message :=
| RMessage (id data : bytes)
| RAnswer (query_id data : bytes)
| RQuery (query_id : bytes) (max_answer_size timeout : N) (data : bytes).

Definition put_rldp_message (m : rldp_message) : bytes :=
  match m with
  | RMessage i d => put_u32 id_rldp_message ++ put_hash i ++ put_bytes d
  | RAnswer q d => put_u32 id_rldp_answer ++ put_hash q ++ put_bytes d
  | RQuery q ma t d =>
      put_u32 id_rldp_query ++ put_hash q ++ put_u64 ma ++ put_u32 t ++ put_bytes d
  end.
Definition get_rldp_message : parser rldp_message :=
  let* c := get_u32 in
  if c =? id_rldp_message then let* i := get_hash in let* d := get_bytes in ret (RMessage i d)
  else if c =? id_rldp_answer then let* q := get_hash in let* d := get_bytes in ret (RAnswer q d)
  else if c =? id_rldp_query then
    let* q := get_hash in let* ma := get_u64 in let* t := get_u32 in let* d := get_bytes in
    ret (RQuery q ma t d)
  else fail.

(** [MessagePart] (rldp.rs:30-54). *)
Inductive message_part :=
| MpPart (transfer_id : bytes) (fec : fec_type) (part total_size seqno : N) (data : bytes)
| MpConfirm (transfer_id : bytes) (part seqno : N)
| MpComplete (transfer_id : bytes) (part : N).

Definition put_message_part (m : message_part) : bytes :=
  match m with
  | MpPart t f p ts s d =>
      put_u32 id_rldp_message_part ++ put_hash t ++ put_fec_type f ++ put_u32 p ++ put_u64 ts
      ++ put_u32 s ++ put_bytes d
  | MpConfirm t p s => put_u32 id_rldp_confirm ++ put_hash t ++ put_u32 p ++ put_u32 s
  | MpComplete t p => put_u32 id_rldp_complete ++ put_hash t ++ put_u32 p
  end.
Definition get_message_part : parser message_part :=
  let* c := get_u32 in
  if c =? id_rldp_message_part then
    let* t := get_hash in let* f := get_fec_type in let* p := get_u32 in let* ts := get_u64 in
    let* s := get_u32 in let* d := get_bytes in ret (MpPart t f p ts s d)
  else if c =? id_rldp_confirm then
    let* t := get_hash in let* p := get_u32 in let* s := get_u32 in ret (MpConfirm t p s)
  else if c =? id_rldp_complete then
    let* t := get_hash in let* p := get_u32 in ret (MpComplete t p)
  else fail.
