(** C57: building a network and starting a node. *)
From Coq Require Import List Arith Bool.
From Verif.Model Require Import Builder.
From Verif.Spec Require Import BuilderSpec.
From Verif.Proof Require BuilderFacts.
Import ListNotations.

(** C57 (builder): a chain of builder calls succeeds exactly when the socket could be bound and every key
    asked for exists.  Then the components come in the order of the calls, and the running node
    serves exactly the subscribers given: those of the chain in order, those of the layers, and
    ping last.  Otherwise nothing was started. *)
Theorem c57_builder : forall keys bound calls, typed false calls = true ->
  let nc := numbered 1 calls in
  let '(a, r) := run_builder keys bound calls in
  match r with
  | inl cs => all_fine keys bound calls = true /\ cs = CAdnl :: components nc
      /\ running_of a = Some (early_messages nc ++ late_messages nc, early_queries nc ++ late_queries nc ++ [SPing])
  | inr _ => all_fine keys bound calls = false /\ running_of a = None
  end.
Proof. exact BuilderFacts.builder_result. Qed.
Print Assumptions c57_builder.

Example c57_builder_example :
  let calls := [CallQuery 7; CallRldp [8]; CallDht 1; CallOverlay 2; CallMessage 9] in
  let run := run_builder (fun t => Nat.ltb t 3) true calls in
  typed false calls = true
  /\ run = (Some (mk_adnl None (Some ([SOverlay 3; SUser 9; SRldp 1], [SUser 7; SOverlay 3; SDht 2; SPing]))),
             inl [CAdnl; CRldp [SUser 8; SOverlay 3]; CDht; COverlay])
  /\ snd (run_builder (fun t => Nat.ltb t 2) true calls) = inr EKeyNotFound.
Proof. vm_compute. repeat split. Qed.

(** A failure of the socket is reported as such only when no other layer was asked for: otherwise the
    reported reason is that ADNL was not initialized. *)
Theorem c57_reason_hidden : forall keys calls,
  run_builder keys false calls = (None, inr (if existsb is_layer calls then ENotInitialized else ESocket)).
Proof. exact BuilderFacts.reason_hidden. Qed.
Print Assumptions c57_reason_hidden.

Example c57_reason_example : snd (run_builder (fun _ => true) false [CallQuery 7; CallRldp []]) = inr ENotInitialized.
Proof. reflexivity. Qed.

(** C57 (node): whatever calls a node's owner makes, the node starts at most once; subscribers added
    before that are served, each in its order, with ping last; everything after is refused and
    changes nothing. *)
Theorem c57_start : forall ops,
  let '(a, log) := fold_left node_step ops (adnl_new, []) in
  let early := before_start ops in
  ad_running a = (if starts ops then Some (given_messages early, given_queries early ++ [SPing]) else None)
  /\ log = map (fun _ => true) early
       ++ (if starts ops then true :: repeat false (length ops - length early - 1) else []).
Proof. exact (fun ops => BuilderFacts.node_calls ops [] [] []). Qed.
Print Assumptions c57_start.

Example c57_start_example :
  fold_left node_step [NcQuery (SUser 1); NcMessage (SUser 2); NcStart; NcQuery (SUser 3); NcStart] (adnl_new, [])
  = (mk_adnl None (Some ([SUser 2], [SUser 1; SPing])), [true; true; true; false; false]).
Proof. reflexivity. Qed.
