(** C10-C12: messages that do not fit into one packet. *)
From stdpp Require Import gmap.
From Coq Require Import NArith.
From Verif.Base Require Import Bytes Res.
From Verif.Model Require Import Crypto Tl ProtoAdnl Transfer Peer AdnlNode.
From Verif.Spec Require Import Codec CryptoSpec TransferSpec NodeSpec.
From Verif.Proof Require Import TransferFacts SplitFacts HearFacts.
Open Scope N_scope.

(** C10, sending: up to [longest] serialized bytes, a message is put into packets that carry it
    whole, or cut into consecutive non-empty pieces; together with the additional channel message
    and nothing else. *)
Theorem c10_split_partial : forall P, prims_ok P -> forall x m size,
  message_ok m -> message_size m = Some size -> Forall message_ok (extra_messages x) ->
  len (put_message m) <= longest x ->
  exists packets contents, plan P (extra_arg x) m size = Some packets /\ Forall2 carries packets contents
  /\ (concat contents = extra_messages x ++ [m]
      \/ exists pieces, message_of pieces = put_message m /\ Forall (fun d => d <> []) pieces
         /\ concat contents = extra_messages x ++ map part_message (parts_of P pieces)).
Proof. exact split_reassembled. Qed.
Print Assumptions c10_split_partial.
Example c10_split_example :
  let m := MQuery (repeat 3 32) (repeat 5 1800) in
  message_ok m /\ message_size m = Some 1844
  /\ Forall message_ok (extra_messages (Create (repeat 1 32) 7)) /\ len (put_message m) <= longest (Create (repeat 1 32) 7).
Proof.
  cbv zeta. split; [vm_compute; repeat split; reflexivity|]. split; [reflexivity|].
  split; [repeat constructor|]. vm_compute. discriminate.
Qed.

(** C10, receiving: when the last missing piece arrives (pieces in any order, with any
    repetitions, mixed with any other messages from anyone), exactly the original message is
    delivered. *)
Theorem c10_delivered : forall P fuel n m d pieces before last local peer,
  message_ok m -> delivered_as local peer m = Some d ->
  message_of pieces = put_message m -> Forall (fun x => x <> []) pieces -> (length pieces <= fuel)%nat ->
  n_transfers n !! sha256 P (put_message m) = None ->
  completes P pieces (parts_among before) last ->
  exists results, fst (hear P fuel n (before ++ [mk_heard local peer (part_message last)]))
    = results ++ [Ok [d]].
Proof. exact parts_delivered. Qed.
Print Assumptions c10_delivered.
Example c10_delivered_example :
  let m := MCustom (repeat 5 20) in
  let pieces := [firstn 10 (put_message m); skipn 10 (put_message m)] in
  let parts := parts_of toy pieces in
  message_of pieces = put_message m
  /\ delivered_as [1] [2] m = Some (DCustom [1] [2] (repeat 5 20))
  /\ completes toy pieces
       (parts_among [mk_heard [1] [2] (part_message (nth 1 parts (mk_part [] 0 0 [])));
                     mk_heard [1] [2] MNop;
                     mk_heard [1] [3] (MPart [7; 7] 50 0 [1; 2]);
                     mk_heard [1] [2] (part_message (nth 1 parts (mk_part [] 0 0 [])))])
       (nth 0 parts (mk_part [] 0 0 [])).
Proof.
  cbv zeta. split; [reflexivity|]. split; [reflexivity|].
  assert (E : parts_of toy [firstn 10 (put_message (MCustom (repeat 5 20))); skipn 10 (put_message (MCustom (repeat 5 20)))]
    = [nth 0 (parts_of toy [firstn 10 (put_message (MCustom (repeat 5 20))); skipn 10 (put_message (MCustom (repeat 5 20)))]) (mk_part [] 0 0 []);
       nth 1 (parts_of toy [firstn 10 (put_message (MCustom (repeat 5 20))); skipn 10 (put_message (MCustom (repeat 5 20)))]) (mk_part [] 0 0 [])]) by reflexivity.
  split; [|split].
  - cbn [parts_among flat_map hd_message part_message app]. intros p [<-|[<-|[<-|[]]]] H.
    + right. left. reflexivity.
    + exfalso. revert H. vm_compute. discriminate.
    + right. left. reflexivity.
  - intros [H|[H|[H|[]]]]; revert H; vm_compute; discriminate.
  - intros p. rewrite E at 1. split.
    + intros [<-|[<-|[]]]; [now right|left]. split; [left; reflexivity|reflexivity].
    + intros [[[<-|[<-|[<-|[]]]] H]| ->]; [right; left; reflexivity| |right; left; reflexivity|left; reflexivity].
      exfalso. revert H. vm_compute. discriminate.
Qed.

(** C10 fails for every longer message: the sender emits parts with gaps between them, and
    whatever of them arrives, in whatever order and however often, nothing is ever delivered. *)
Theorem c10_long_messages_refuted : forall P, prims_ok P -> forall x m size,
  message_ok m -> message_size m = Some size -> Forall message_ok (extra_messages x) ->
  longest x < len (put_message m) ->
  exists packets contents parts, plan P (extra_arg x) m size = Some packets /\ Forall2 carries packets contents
  /\ concat contents = extra_messages x ++ map part_message parts
  /\ forall fuel ts arrived,
     ts !! sha256 P (put_message m) = None ->
     (forall p, In p arrived -> pt_hash p = sha256 P (put_message m) -> In p parts) ->
     forall p o, In (p, o) (outcomes P fuel ts arrived) -> pt_hash p = sha256 P (put_message m) -> o = Pending.
Proof. exact long_never_arrives. Qed.
Print Assumptions c10_long_messages_refuted.
Example c10_long_example :
  let m := MAnswer (repeat 3 32) (repeat 5 2100) in
  message_ok m /\ message_size m = Some 2144 /\ longest NoExtra < len (put_message m).
Proof. cbv zeta. split; [vm_compute; repeat split; reflexivity|]. split; reflexivity. Qed.

(** Splitting always ends. *)
Theorem c10_split_ends : forall P, prims_ok P -> forall x m size, message_ok m -> message_size m = Some size ->
  Forall message_ok (extra_messages x) -> exists packets, plan P (extra_arg x) m size = Some packets.
Proof. exact split_always_ends. Qed.
Print Assumptions c10_split_ends.

(** C11: whatever parts arrive, only a message with the announced hash is ever delivered. *)
Theorem c11_only_authentic : forall P fuel ts l p m,
  In (p, Whole m) (outcomes P fuel ts l) -> sha256 P m = pt_hash p.
Proof. exact whole_is_authentic. Qed.
Print Assumptions c11_only_authentic.

(** C11: a message cut into non-empty consecutive pieces comes out exactly when the last missing
    piece arrives, whatever the order, the repetitions and the parts of other messages; nothing is
    reported before and the entry is gone afterwards. *)
Theorem c11_any_order : forall P fuel ts pieces before last,
  Forall (fun d => d <> []) pieces -> (length pieces <= fuel)%nat ->
  ts !! sha256 P (message_of pieces) = None -> completes P pieces before last ->
  exists os, outcomes P fuel ts (before ++ [last]) = os ++ [(last, Whole (message_of pieces))]
    /\ (forall p o, In (p, o) os -> pt_hash p = sha256 P (message_of pieces) -> o = Pending)
    /\ snd (arrive P fuel ts (before ++ [last])) !! sha256 P (message_of pieces) = None.
Proof. exact reassembled. Qed.
Print Assumptions c11_any_order.
Example c11_example :
  let pieces := [[1; 2; 3]; [4]; [5; 6]] in
  let parts := parts_of toy pieces in
  let a := nth 0 parts (mk_part [] 0 0 []) in
  let b := nth 1 parts (mk_part [] 0 0 []) in
  let c := nth 2 parts (mk_part [] 0 0 []) in
  In (b, Whole [1; 2; 3; 4; 5; 6]) (outcomes toy 3 ∅ [c; a; c; b])
  /\ completes toy pieces [c; a; c] b.
Proof.
  cbv zeta. split; [vm_compute; auto|]. split; [|split].
  - intros p [<-|[<-|[<-|[]]]] _; vm_compute; auto.
  - intros [H|[H|[H|[]]]]; revert H; vm_compute; discriminate.
  - intros p. split.
    + intros [<-|[<-|[<-|[]]]]; [left|right|left]; try reflexivity; (split; [|reflexivity]); [right; left|left]; reflexivity.
    + intros [[[<-|[<-|[<-|[]]]] _]| ->]; vm_compute; auto.
Qed.

(** C12: processing non-empty parts always ends, in any history of non-empty parts. *)
Theorem c12_terminates_partial : forall P fuel l ts,
  Forall (fun p => pt_data p <> [] /\ (N.to_nat (pt_total p) <= fuel)%nat) l ->
  (forall h t, ts !! h = Some t -> (N.to_nat (t_total t) <= fuel)%nat
     /\ forall o d, t_parts t !! o = Some d -> d <> []) ->
  forall p o, In (p, o) (outcomes P fuel ts l) -> o <> Spinning.
Proof. exact nonempty_parts_terminate. Qed.
Print Assumptions c12_terminates_partial.

(** C12 fails with an empty part: two parts any peer can send, after which the loop runs for
    ever (it has not finished after any number of iterations). *)
Theorem c12_endless_refuted : exists parts p, forall P fuel,
  In (p, Spinning) (outcomes P fuel ∅ parts).
Proof.
  exact (ex_intro _ [mk_part [9] 5 0 []; mk_part [9] 5 1 [1; 2; 3; 4; 5]]
        (ex_intro _ (mk_part [9] 5 1 [1; 2; 3; 4; 5]) endless)).
Qed.
Print Assumptions c12_endless_refuted.

(** C12: a part at an offset already present is not counted, does not complete anything and
    changes nothing when it carries the same bytes... *)
Theorem c12_repeated_partial : forall P fuel t o d i d0, t_parts t !! o = Some d0 ->
  fst (add_part P fuel t o d i) = Pending
  /\ t_received (snd (add_part P fuel t o d i)) = t_received t
  /\ t_total (snd (add_part P fuel t o d i)) = t_total t
  /\ (forall o', o' <> o -> t_parts (snd (add_part P fuel t o d i)) !! o' = t_parts t !! o')
  /\ (d = d0 -> snd (add_part P fuel t o d i) = t).
Proof. exact repeated_part. Qed.
Print Assumptions c12_repeated_partial.
Example c12_example : exists t d0, t_parts t !! 4 = Some d0 /\ d0 <> [] /\ t_received t = 6 /\ t_total t = 9.
Proof. exists (mk_transfer {[4 := [1; 2]; 0 := [3; 4; 5; 6]]} 6 9), [1; 2]. repeat split. discriminate. Qed.

(** ...but with other bytes it replaces the part received first, so a message whose pieces all
    arrived intact is lost. *)
Theorem c12_overwrite_refuted : exists parts last m,
  In (last, Whole m) (outcomes toy 10 ∅ (firstn 1 parts ++ [last]))
  /\ In (last, Failed InvalidHash) (outcomes toy 10 ∅ (parts ++ [last])).
Proof.
  exact (ex_intro _ [mk_part (sha256 toy [1; 2; 3]) 3 0 [1; 2]; mk_part (sha256 toy [1; 2; 3]) 3 0 [8; 8]]
        (ex_intro _ (mk_part (sha256 toy [1; 2; 3]) 3 2 [3])
        (ex_intro _ [1; 2; 3] overwrite_loses))).
Qed.
Print Assumptions c12_overwrite_refuted.
