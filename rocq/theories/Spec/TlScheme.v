(** The wire format as a TL scheme describes it: a reader of declarations and the encoding they define.
    This file does not use the codecs of the model. *)
From Coq Require Import String Ascii List NArith Bool.
From Verif.Base Require Import Bytes.
From Verif.Model Require Import Scheme.
Import ListNotations.
Open Scope N_scope.

(** ** Declarations *)
(** [TyBare c]: the fields of constructor [c]; [TyBoxed T]: the id of some constructor of type [T], then its
    fields. *)
Inductive ty := TyInt | TyLong | TyInt128 | TyInt256 | TyBytes | TyBare (constructor : string) | TyBoxed (type : string) | TyVector (e : ty).
(** [flags.k?] in front of a type: the field exists if bit [k] of the field [flags] is set. *)
Record field := mk_field { f_name : string; f_condition : option (string * N); f_ty : ty }.
Record declaration := mk_declaration
  { d_constructor : string; d_id : N; d_fields : list field; d_type : string }.

(** Words, separated by blanks; parentheses and semicolons are dropped. *)
Definition blank (c : ascii) : bool := let n := N_of_ascii c in (n =? 32) || (n =? 10).
Definition dropped (c : ascii) : bool := let n := N_of_ascii c in (n =? 40) || (n =? 41) || (n =? 59).
Definition flush (word : string) (rest : list string) : list string :=
  match word with EmptyString => rest | _ => word :: rest end.
Fixpoint split_words (s : string) (word : string) : list string :=
  match s with
  | EmptyString => flush word []
  | String c r => if blank c then flush word (split_words r EmptyString)
    else if dropped c then split_words r word
    else split_words r (word ++ String c EmptyString)
  end.
Definition words (s : string) : list string := split_words s EmptyString.

(** The parts before and after the first [c]. *)
Fixpoint cut (c : ascii) (s : string) : option (string * string) :=
  match s with
  | EmptyString => None
  | String x r =>
    if Ascii.eqb x c then Some (EmptyString, r)
    else match cut c r with Some (a, b) => Some (String x a, b) | None => None end
  end.
Fixpoint number (s : string) (n : N) : N :=
  match s with EmptyString => n | String c r => number r (10 * n + (N_of_ascii c - 48)) end.

(** A name stands for a type if its last component starts with a capital letter. *)
Fixpoint capital (start : bool) (s : string) (last : bool) : bool :=
  match s with
  | EmptyString => last
  | String c r =>
    let n := N_of_ascii c in
    if n =? 46 then capital true r last
    else capital false r (if start then (65 <=? n) && (n <=? 90) else last)
  end.
Local Open Scope string_scope.
Definition named (s : string) : ty :=
  if (s =? "int") || (s =? "#") then TyInt
  else if s =? "long" then TyLong
  else if s =? "int128" then TyInt128
  else if s =? "int256" then TyInt256
  else if s =? "bytes" then TyBytes
  else if capital true s false then TyBoxed s else TyBare s.

Fixpoint read_fields (l : list string) : option (list field * string) :=
  match l with
  | [] => None
  | w :: r =>
    if w =? "=" then match r with [t] => Some ([], t) | _ => None end else
    match cut ":" w with
    | None => None
    | Some (name, t) =>
      let '(condition, t) :=
        match cut "?" t with
        | Some (c, t') => (match cut "." c with Some (f, k) => Some (f, number k 0) | None => None end, t')
        | None => (None, t)
        end in
      if t =? "vector" then
        match r with
        | e :: r' =>
          match read_fields r' with Some (fs, x) => Some (mk_field name condition (TyVector (named e)) :: fs, x) | None => None end
        | [] => None
        end
      else match read_fields r with Some (fs, x) => Some (mk_field name condition (named t) :: fs, x) | None => None end
    end
  end.
(** The id is the CRC-32 of the words of the declaration. *)
Definition read_declaration (s : string) : option declaration :=
  match words s with
  | c :: r =>
    match read_fields r with
    | Some (fs, t) => Some (mk_declaration c (crc32 (String.concat " " (words s))) fs t)
    | None => None
    end
  | [] => None
  end.
Definition read_scheme (l : list string) : list declaration :=
  flat_map (fun s => match read_declaration s with Some d => [d] | None => [] end) l.

(** /repo/src/scheme.tl:22-176, word for word, without comments and section marks. *)
Definition scheme_text : list string :=
  ["fec.raptorQ data_size:int symbol_size:int symbols_count:int = fec.Type;";
   "pub.ed25519 key:int256 = PublicKey;";
   "pub.aes key:int256 = PublicKey;";
   "pub.overlay name:bytes = PublicKey;";
   "adnl.id.short id:int256 = adnl.id.Short;";
   "adnl.address.udp ip:int port:int = adnl.Address;";
   "adnl.address.udp6 ip:int128 port:int = adnl.Address;";
   "adnl.addressList addrs:(vector adnl.Address) version:int reinit_date:int priority:int expire_at:int = adnl.AddressList;";
   "adnl.node id:PublicKey addr_list:adnl.addressList = adnl.Node;";
   "adnl.nodes nodes:(vector adnl.node) = adnl.Nodes;";
   "adnl.packetContents
  rand1:bytes
  flags:#
  from:flags.0?PublicKey
  from_short:flags.1?adnl.id.short
  message:flags.2?adnl.Message
  messages:flags.3?(vector adnl.Message)
  address:flags.4?adnl.addressList
  priority_address:flags.5?adnl.addressList
  seqno:flags.6?long
  confirm_seqno:flags.7?long
  recv_addr_list_version:flags.8?int
  recv_priority_addr_list_version:flags.9?int
  reinit_date:flags.10?int
  dst_reinit_date:flags.10?int
  signature:flags.11?bytes
  rand2:bytes
        = adnl.PacketContents;";
   "adnl.message.createChannel key:int256 date:int = adnl.Message;";
   "adnl.message.confirmChannel key:int256 peer_key:int256 date:int = adnl.Message;";
   "adnl.message.custom data:bytes = adnl.Message;";
   "adnl.message.nop = adnl.Message;";
   "adnl.message.reinit date:int = adnl.Message;";
   "adnl.message.query query_id:int256 query:bytes = adnl.Message;";
   "adnl.message.answer query_id:int256 answer:bytes = adnl.Message;";
   "adnl.message.part hash:int256 total_size:int offset:int data:bytes = adnl.Message;";
   "adnl.pong value:long = adnl.Pong;";
   "adnl.ping value:long = adnl.Pong;";
   "rldp.messagePart transfer_id:int256 fec_type:fec.Type part:int total_size:long seqno:int data:bytes = rldp.MessagePart;";
   "rldp.confirm transfer_id:int256 part:int seqno:int = rldp.MessagePart;";
   "rldp.complete transfer_id:int256 part:int = rldp.MessagePart;";
   "rldp.message id:int256 data:bytes = rldp.Message;";
   "rldp.query query_id:int256 max_answer_size:long timeout:int data:bytes = rldp.Message;";
   "rldp.answer query_id:int256 data:bytes = rldp.Message;";
   "dht.node id:PublicKey addr_list:adnl.addressList version:int signature:bytes = dht.Node;";
   "dht.nodes nodes:(vector dht.node) = dht.Nodes;";
   "dht.key id:int256 name:bytes idx:int = dht.Key;";
   "dht.updateRule.signature = dht.UpdateRule;";
   "dht.updateRule.anybody = dht.UpdateRule;";
   "dht.updateRule.overlayNodes = dht.UpdateRule;";
   "dht.keyDescription key:dht.key id:PublicKey update_rule:dht.UpdateRule signature:bytes = dht.KeyDescription;";
   "dht.value key:dht.keyDescription value:bytes ttl:int signature:bytes = dht.Value;";
   "dht.pong random_id:long = dht.Pong;";
   "dht.valueNotFound nodes:dht.nodes = dht.ValueResult;";
   "dht.valueFound value:dht.Value = dht.ValueResult;";
   "dht.stored = dht.Stored;";
   "dht.message node:dht.node = dht.Message;";
   "dht.ping random_id:long = dht.Pong;";
   "dht.store value:dht.value = dht.Stored;";
   "dht.findNode key:int256 k:int = dht.Nodes;";
   "dht.findValue key:int256 k:int = dht.ValueResult;";
   "dht.getSignedAddressList = dht.Node;";
   "dht.query node:dht.node = True;";
   "overlay.node.toSign id:adnl.id.short overlay:int256 version:int = overlay.node.ToSign;";
   "overlay.node id:PublicKey overlay:int256 version:int signature:bytes = overlay.Node;";
   "overlay.nodes nodes:(vector overlay.node) = overlay.Nodes;";
   "overlay.message overlay:int256 = overlay.Message;";
   "overlay.fec.received hash:int256 = overlay.Broadcast;";
   "overlay.fec.completed hash:int256 = overlay.Broadcast;";
   "overlay.broadcast.id src:int256 data_hash:int256 flags:int = overlay.broadcast.Id;";
   "overlay.broadcastFec.id src:int256 type:int256 data_hash:int256 size:int flags:int = overlay.broadcastFec.Id;";
   "overlay.broadcastFec.partId broadcast_hash:int256 data_hash:int256 seqno:int = overlay.broadcastFec.PartId;";
   "overlay.broadcast.toSign hash:int256 date:int = overlay.broadcast.ToSign;";
   "overlay.certificate issued_by:PublicKey expire_at:int max_size:int signature:bytes = overlay.Certificate;";
   "overlay.emptyCertificate = overlay.Certificate;";
   "overlay.unicast data:bytes = overlay.Broadcast;";
   "overlay.broadcast src:PublicKey certificate:overlay.Certificate flags:int data:bytes date:int signature:bytes = overlay.Broadcast;";
   "overlay.broadcastFec src:PublicKey certificate:overlay.Certificate data_hash:int256 data_size:int flags:int
          data:bytes seqno:int fec:fec.Type date:int signature:bytes = overlay.Broadcast;";
   "overlay.broadcastFecShort src:PublicKey certificate:overlay.Certificate broadcast_hash:int256 part_data_hash:int256 seqno:int signature:bytes = overlay.Broadcast;";
   "overlay.broadcastNotFound = overlay.Broadcast;";
   "overlay.getRandomPeers peers:overlay.nodes = overlay.Nodes;";
   "overlay.query overlay:int256 = True;";
   "tonNode.shardPublicOverlayId workchain:int shard:long zero_state_file_hash:int256 = tonNode.ShardPublicOverlayId;";
   "catchain.firstblock unique_hash:int256 nodes:(vector int256) = catchain.FirstBlock;"].
(** A kind of key that only the external crate everscale_crypto knows. *)
Definition external_text : list string := ["pub.unenc data:bytes = PublicKey;"].
Definition scheme : list declaration := read_scheme (scheme_text ++ external_text).
Local Close Scope string_scope.
Local Open Scope list_scope.

(** ** Values and their encoding *)
(** A value of a constructor names its fields. *)
Inductive value := Num (n : N) | Raw (b : bytes) | Vec (l : list value) | Con (c : string) (fields : list (string * value)).

(** Integers are little-endian; a byte string has its length in front, in one byte if it is below 254,
    otherwise in three bytes after 254, and is filled up with zeros to a multiple of four bytes. *)
Definition int_bytes (k : nat) (n : N) : option bytes := if n <? 2 ^ (8 * N.of_nat k) then Some (le_bytes k n) else None.
Definition raw_bytes (k : nat) (b : bytes) : option bytes := if Nat.eqb (length b) k then Some b else None.
Definition filled (b : bytes) : bytes := b ++ repeat 0 (Nat.modulo (4 - Nat.modulo (length b) 4) 4).
Definition string_bytes (b : bytes) : option bytes :=
  let n := N.of_nat (length b) in
  if n <? 254 then Some (filled ([n] ++ b))
  else if n <? 2 ^ 24 then Some (filled ([254] ++ le_bytes 3 n ++ b)) else None.

Definition both (a b : option bytes) : option bytes :=
  match a, b with Some x, Some y => Some (x ++ y) | _, _ => None end.
Fixpoint get {A} (name : string) (l : list (string * A)) : option A :=
  match l with [] => None | (x, a) :: r => if String.eqb x name then Some a else get name r end.
Fixpoint declared (ds : list declaration) (c : string) : option declaration :=
  match ds with [] => None | d :: r => if String.eqb (d_constructor d) c then Some d else declared r c end.

(** Is a field there?  [numbers]: the numbers among the fields. *)
Definition present (f : field) (numbers : list (string * N)) : option bool :=
  match f_condition f with
  | None => Some true
  | Some (name, k) => match get name numbers with Some n => Some (N.testbit n k) | None => None end
  end.
(** The fields in the order of the declaration. *)
Fixpoint in_order (fs : list field) (numbers : list (string * N)) (parts : list (string * (ty -> option bytes))) : option bytes :=
  match fs with
  | [] => Some []
  | f :: r =>
    match present f numbers, get (f_name f) parts with
    | Some true, Some part => both (part (f_ty f)) (in_order r numbers parts)
    | Some false, None => in_order r numbers parts
    | _, _ => None
    end
  end.
Definition all_declared (fs : list field) (names : list string) : bool :=
  forallb (fun x => existsb (fun f => String.eqb (f_name f) x) fs) names.
Definition numbers_of (l : list (string * value)) : list (string * N) :=
  flat_map (fun x => match snd x with Num n => [(fst x, n)] | _ => [] end) l.

Fixpoint encode (ds : list declaration) (v : value) (t : ty) : option bytes :=
  match v with
  | Num n => match t with TyInt => int_bytes 4 n | TyLong => int_bytes 8 n | _ => None end
  | Raw b => match t with TyInt128 => raw_bytes 16 b | TyInt256 => raw_bytes 32 b | TyBytes => string_bytes b | _ => None end
  | Vec l =>
    match t with
    | TyVector e =>
      both (int_bytes 4 (N.of_nat (length l)))
        ((fix all (l : list value) : option bytes :=
            match l with [] => Some [] | x :: r => both (encode ds x e) (all r) end) l)
    | _ => None
    end
  | Con c fields =>
    match declared ds c with
    | None => None
    | Some d =>
      if all_declared (d_fields d) (map fst fields) then
        let body := in_order (d_fields d) (numbers_of fields)
          ((fix parts (l : list (string * value)) : list (string * (ty -> option bytes)) :=
              match l with [] => [] | (x, v) :: r => (x, encode ds v) :: parts r end) fields) in
        match t with
        | TyBare c' => if String.eqb c c' then body else None
        | TyBoxed type => if String.eqb (d_type d) type then both (int_bytes 4 (d_id d)) body else None
        | _ => None
        end
      else None
    end
  end.
