(** What signatures and identifiers stand for. *)
From Coq Require Import List NArith Bool.
From Verif.Base Require Import Bytes.
From Verif.Model Require Import Crypto Tl Scheme ProtoAdnl ProtoRldp ProtoDht ProtoOverlay.
From Verif.Spec Require Import Codec.
Import ListNotations.
Open Scope N_scope.

(** No two different messages of the list have the same hash. *)
Definition separate (P : prims) (messages : list bytes) : Prop :=
  forall x y, In x messages -> In y messages -> sha256 P x = sha256 P y -> x = y.

(** ** Statements *)

(** Everything a node ever signs. *)
Inductive statement :=
| StPacket (contents : bytes)                                             (* this packet is mine *)
| StMember (node overlay : bytes) (version : N)                           (* I am in this overlay *)
| StAddress (id : public_key) (addresses : address_list) (version : N)    (* I can be reached there *)
| StKey (key : dht_key) (id : public_key) (rule : update_rule)            (* this DHT key is mine *)
| StValue (key : key_description) (value : bytes) (ttl : N)               (* its value is this *)
| StBroadcast (source data : bytes) (date : N)                            (* I broadcast this *)
| StPart (source data_hash : bytes) (size flags : N) (params : fec_type) (part : bytes) (seqno date : N).
                                                                          (* this is a part of it *)

(** The inner identifiers, hashed before they are signed. *)
Definition broadcast_name (P : prims) (source data : bytes) : bytes :=
  put_u32 id_overlay_broadcast_id ++ source ++ sha256 P data ++ put_u32 1.
Definition fec_name (P : prims) (source data_hash : bytes) (size flags : N) (params : fec_type) : bytes :=
  put_u32 id_overlay_broadcast_fec_id ++ source ++ sha256 P (put_fec_type params) ++ data_hash
  ++ put_u32 size ++ put_u32 flags.
Definition part_name (P : prims) (source data_hash : bytes) (size flags : N) (params : fec_type) (part : bytes)
    (seqno : N) : bytes :=
  put_u32 id_overlay_broadcast_fec_part_id ++ sha256 P (fec_name P source data_hash size flags params)
  ++ sha256 P part ++ put_u32 seqno.

(** The bytes under the signature. *)
Definition text (P : prims) (s : statement) : bytes :=
  match s with
  | StPacket contents => put_u32 id_packet_contents ++ contents
  | StMember node overlay version => put_u32 id_overlay_node_to_sign ++ node ++ overlay ++ put_u32 version
  | StAddress id addresses version => put_u32 id_dht_node ++ put_dht_node (mk_dht_node id addresses version [])
  | StKey key id rule => put_u32 id_dht_key_description ++ put_key_description (mk_key_description key id rule [])
  | StValue key value ttl => put_u32 id_dht_value ++ put_dht_value (mk_dht_value key value ttl [])
  | StBroadcast source data date =>
      put_u32 id_overlay_broadcast_to_sign ++ sha256 P (broadcast_name P source data) ++ put_u32 date
  | StPart source data_hash size flags params part seqno date =>
      put_u32 id_overlay_broadcast_to_sign
      ++ sha256 P (part_name P source data_hash size flags params part seqno) ++ put_u32 date
  end.

(** The messages that were hashed on the way. *)
Definition hashed (P : prims) (s : statement) : list bytes :=
  match s with
  | StBroadcast source data _ => [data; broadcast_name P source data]
  | StPart source data_hash size flags params part seqno _ =>
      [put_fec_type params; part; fec_name P source data_hash size flags params;
       part_name P source data_hash size flags params part seqno]
  | _ => []
  end.

(** Values that exist on the Rust side. *)
Definition statement_ok (s : statement) : Prop :=
  match s with
  | StPacket _ => True
  | StMember node overlay version => hash_ok node /\ hash_ok overlay /\ u32_ok version
  | StAddress id addresses version => public_key_ok id /\ address_list_ok addresses /\ u32_ok version
  | StKey key id _ => dht_key_ok key /\ public_key_ok id
  | StValue key value ttl => key_description_ok key /\ blob_ok value /\ u32_ok ttl
  | StBroadcast source _ date => hash_ok source /\ u32_ok date
  | StPart source data_hash size flags params _ seqno date =>
      hash_ok source /\ hash_ok data_hash /\ u32_ok size /\ u32_ok flags /\ fec_type_ok params
      /\ u32_ok seqno /\ u32_ok date
  end.

(** [signature] is a signature of the statement by the owner of [key]. *)
Definition stated_by (P : prims) (key : bytes) (s : statement) (signature : bytes) : Prop :=
  verify P key (text P s) signature = true.

(** Nobody but the owner of [key] makes signatures: whatever verifies was signed by the owner, who
    only signs statements, those of [said]. *)
Definition only_says (P : prims) (key : bytes) (said : list statement) : Prop :=
  forall message signature, verify P key message signature = true -> In message (map (text P) said).

(** ** Identifiers *)

(** What a 32-byte identifier stands for: the hash of [subject_text]. *)
Inductive subject :=
| SbNode (key : bytes)                                (* a node, by its public key *)
| SbChannel (secret : bytes)                          (* a direction of a channel, by its shared secret *)
| SbOverlay (name : bytes)                            (* an overlay, by its full id *)
| SbWorkchain (workchain : N) (zero_state : bytes)    (* full id of the overlay of a workchain *)
| SbCatchain (unique_hash : bytes) (nodes : list bytes) (* full id of the overlay of a validator group *)
| SbKey (key : dht_key).                              (* a key of the DHT *)
Definition subject_text (s : subject) : bytes :=
  match s with
  | SbNode key => put_public_key (PkEd25519 key)
  | SbChannel secret => put_public_key (PkAes secret)
  | SbOverlay name => put_public_key (PkOverlay name)
  | SbWorkchain workchain zero_state =>
      put_u32 id_shard_public_overlay_id ++ put_u32 workchain ++ put_u64 (2 ^ 63) ++ zero_state
  | SbCatchain unique_hash nodes => put_u32 id_catchain_first_block ++ unique_hash ++ put_vector put_hash nodes
  | SbKey key => put_u32 id_dht_key ++ put_dht_key key
  end.
Definition identifier (P : prims) (s : subject) : bytes := sha256 P (subject_text s).
Definition subject_ok (s : subject) : Prop :=
  match s with
  | SbNode b | SbChannel b => hash_ok b
  | SbOverlay name => blob_ok name
  | SbWorkchain workchain zero_state => u32_ok workchain /\ hash_ok zero_state
  | SbCatchain unique_hash nodes => hash_ok unique_hash /\ vec_ok hash_ok nodes
  | SbKey key => dht_key_ok key
  end.
