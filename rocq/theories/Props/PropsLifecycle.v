(** C87-C89: the life of a node, its receive buffer, and the search for peers by address. *)
From stdpp Require Import gmap.
From Coq Require Import List NArith ZArith Lia Bool.
From Verif.Base Require Import Bytes.
From Verif.Model Require Import Peer AdnlNode Lifecycle Socket PeerAddresses.
From Verif.Spec Require Import NodeSpec Sample LifecycleSpec SocketSpec.
From Verif.Proof Require Import LifecycleFacts SocketFacts PeerAddressesFacts.
Import ListNotations.

(** Every packet accepted for sending is given to the socket in the order of the calls and once, also those
    accepted before the start; as long as the node exists and its sending loop runs, what is not yet sent is queued. *)
Theorem c87_order : forall es os l, life_run life_new es = (os, l) ->
  exists rest, accepted es os = l_wire l ++ rest
    /\ (l_sender l <> Ended -> alive l = true -> rest = l_queue l).
Proof. exact sent_in_order. Qed.
Print Assumptions c87_order.
Example c87_order_example :
  accepted a_life (fst (life_run life_new a_life)) = [[1%N]; [2%N]] /\ l_wire (snd (life_run life_new a_life)) = [[1%N]; [2%N]]
  /\ l_wire (snd (life_run life_new (firstn 5 a_life))) = [] /\ l_queue (snd (life_run life_new (firstn 5 a_life))) = [[1%N]].
Proof. repeat split. Qed.

(** A packet is refused only after a shutdown: before the start it is accepted like after it. *)
Theorem c87_accepts : forall es os l d, life_run life_new es = (os, l) -> l_users l <> 0%nat -> ~ happened Shutdown Done es os ->
  fst (life_step l (Send d)) = Done.
Proof. exact accepts. Qed.
Print Assumptions c87_accepts.
Example c87_accepts_example :
  l_users (snd (life_run life_new (firstn 5 a_life))) = 1%nat /\ l_sender (snd (life_run life_new (firstn 5 a_life))) = NotStarted
  /\ fst (life_step (snd (life_run life_new (a_short_life ++ [SenderTurn true]))) (Send [1%N])) = FailedToSend.
Proof. repeat split. Qed.

(** Before a successful start nothing is sent and nothing is handled. *)
Theorem c87_before : forall es os l, life_run life_new es = (os, l) -> ~ happened Start Done es os ->
  l_wire l = [] /\ l_handled l = [].
Proof. exact silent_before_start. Qed.
Print Assumptions c87_before.
Example c87_before_example : ~ happened Start Done (firstn 5 a_life) (fst (life_run life_new (firstn 5 a_life))).
Proof. unfold happened. cbn. intuition discriminate. Qed.

(** The start takes all subscribers accepted before, in order, and succeeds once; afterwards nothing can be registered. *)
Theorem c87_start : forall before os l, life_run life_new before = (os, l) -> ~ happened Start Done before os ->
  l_users l <> 0%nat ->
  fst (life_step l Start) = Done
  /\ l_active (snd (life_step l Start)) = Some (subscribed false before os, subscribed true before os ++ [PING]).
Proof. exact start_takes_all. Qed.
Print Assumptions c87_start.
Theorem c87_once : forall before e after os l, life_run life_new (before ++ e :: after) = (os, l) ->
  happened Start Done before (firstn (length before) os) -> is_registration e ->
  nth (length before) os Nothing = AlreadyRunning \/ l_users (snd (life_run life_new before)) = 0%nat.
Proof. exact started_once. Qed.
Print Assumptions c87_once.
Example c87_once_example :
  let os := fst (life_run life_new a_life) in
  subscribed false a_life os = [8%nat] /\ subscribed true a_life os = [7%nat]
  /\ nth 5 os Nothing = Done /\ nth 6 os Nothing = AlreadyRunning /\ l_users (snd (life_run life_new (firstn 6 a_life))) = 1%nat.
Proof. repeat split. Qed.

(** A started node handles every datagram, cut to 2048 bytes, in order and once, until it is shut down. *)
Theorem c87_receives : forall before after os l, life_run life_new (before ++ Start :: after) = (os, l) ->
  nth (length before) os Nothing = Done -> ~ In Shutdown (before ++ after) ->
  l_handled l = offered after /\ l_receiver l = Running.
Proof. exact receives_all. Qed.
Print Assumptions c87_receives.
Example c87_receives_example : let os := fst (life_run life_new a_life) in
  nth 5 os Nothing = Done /\ ~ In Shutdown a_life /\ offered (skipn 6 a_life) = [[3%N; 4%N]; [5%N]].
Proof. split; [reflexivity|]. split; [cbn; intuition discriminate|]. reflexivity. Qed.
(** It sends every packet accepted, those of before the start too, once the sending loop has had as many turns. *)
Theorem c87_sends : forall before after os l, life_run life_new (before ++ Start :: after) = (os, l) ->
  nth (length before) os Nothing = Done -> ~ In Shutdown (before ++ after) ->
  l_sender l = Running
  /\ accepted (before ++ Start :: after) os = l_wire l ++ l_queue l
  /\ (forall c k, (length (l_queue l) <= k)%nat ->
      l_wire (snd (life_run l (repeat (SenderTurn c) k))) = accepted (before ++ Start :: after) os).
Proof. exact sends_all. Qed.
Print Assumptions c87_sends.
Example c87_sends_example :
  let l := snd (life_run life_new (firstn 9 a_life)) in
  nth 5 (fst (life_run life_new (firstn 9 a_life))) Nothing = Done /\ ~ In Shutdown (firstn 9 a_life)
  /\ l_queue l = [[2%N]] /\ l_wire l = [[1%N]].
Proof. split; [reflexivity|]. split; [cbn; intuition discriminate|]. split; reflexivity. Qed.
(** That is so even if the user has dropped all references to the node: dropping it does not stop it. *)
Theorem c87_drop_refuted : exists before after os l, life_run life_new (before ++ Start :: after) = (os, l)
  /\ nth (length before) os Nothing = Done /\ ~ In Shutdown (before ++ after)
  /\ l_users l = 0%nat /\ l_receiver l = Running /\ l_handled l = [[3%N; 4%N]; [5%N]].
Proof. exact dropped_runs. Qed.
Print Assumptions c87_drop_refuted.

(** After a shutdown the receiving loop ends when there is nothing to receive, the sending loop at the latest when it
    has had more turns than there were packets to send. *)
Theorem c87_shutdown : forall before os l es os' l',
  life_run life_new before = (os, l) -> happened Start Done before os -> happened Shutdown Done before os ->
  life_run l es = (os', l') ->
  ((length (l_queue l) + length (filter is_send es) < length (filter is_sender_turn es))%nat -> l_sender l' = Ended)
  /\ (forall c, In (ReceiverTurn c None) es -> l_receiver l' = Ended).
Proof. exact shutdown_ends. Qed.
Print Assumptions c87_shutdown.
Example c87_shutdown_example :
  let '(os, l) := life_run life_new a_short_life in
  happened Start Done a_short_life os /\ happened Shutdown Done a_short_life os
  /\ l_queue l = [[2%N]] /\ l_sender l = Running /\ l_receiver l = Running.
Proof. unfold happened. cbn. tauto. Qed.

(** A shutdown loses no accepted packets if the sending loop looks at its queue first: when it ends, all of them have
    been given to the socket. *)
Theorem c87_flushed : forall es os l, life_run life_new es = (os, l) -> happened Start Done es os -> ~ In (SenderTurn true) es ->
  accepted es os = l_wire l ++ l_queue l /\ (l_sender l = Ended -> l_wire l = accepted es os).
Proof. exact flushed. Qed.
Print Assumptions c87_flushed.
Example c87_flushed_example :
  let es := a_short_life ++ [ReceiverTurn false None; SenderTurn false; SenderTurn false] in
  let '(os, l) := life_run life_new es in
  happened Start Done es os /\ ~ In (SenderTurn true) es /\ l_sender l = Ended /\ l_wire l = [[1%N]; [2%N]].
Proof. cbn. unfold happened. cbn. intuition discriminate. Qed.

(** When a loop has ended, nothing more is sent or accepted for sending, or handled. *)
Theorem c87_over : forall before os l es os' l',
  life_run life_new before = (os, l) -> life_run l es = (os', l') ->
  (l_sender l = Ended -> l_wire l' = l_wire l /\ accepted es os' = [])
  /\ (l_receiver l = Ended -> l_handled l' = l_handled l).
Proof. exact over_forever. Qed.
Print Assumptions c87_over.
Example c87_over_example :
  let l := snd (life_run life_new (a_short_life ++ [SenderTurn false; SenderTurn false; ReceiverTurn false None])) in
  l_sender l = Ended /\ l_receiver l = Ended /\ l_wire l = [[1%N]; [2%N]].
Proof. repeat split. Qed.

(** C88: whatever the system answers, the search for the size of the receive buffer ends after 25 questions without
    overflow, asks only for sizes between the present one and 16 MiB, and does not make the buffer smaller. *)
Theorem c88_ends : forall accept current, (0 <= current < 2 ^ 31)%Z ->
  exists tried, maximise_recv_buffer 25 accept current = Sizes tried
    /\ Forall (fun t => current <= fst t <= 2 ^ 24)%Z tried /\ (current <= buffer_size current tried)%Z.
Proof. exact buffer_search_ends. Qed.
Print Assumptions c88_ends.
(** If the system has a limit, the buffer gets as large as it allows. *)
Theorem c88_largest : forall limit accept current tried fuel, limited limit accept -> (0 <= current < 2 ^ 31)%Z ->
  maximise_recv_buffer fuel accept current = Sizes tried ->
  buffer_size current tried = Z.max current (Z.min limit (2 ^ 24)).
Proof. exact buffer_largest. Qed.
Print Assumptions c88_largest.
Example c88_example : limited 425984 a_limit /\
  match maximise_recv_buffer 25 a_limit 212992 with Sizes tried => buffer_size 212992 tried = 425984%Z | _ => False end.
Proof. split; [intros tried size; reflexivity|]. vm_compute. reflexivity. Qed.

(** C89: whatever the order of the iteration, each value found belongs to a peer with the address asked for, and every address
    of a known peer is found. *)
Theorem c89_matched : forall n local order entries result,
  match_peer_addresses n local order entries = Some result ->
  List.NoDup (map fst result)
  /\ (forall t id, In (t, id) result -> exists a, In (a, t) entries /\ get_peer_address n local id = Some a)
  /\ (List.NoDup (map fst entries) -> forall a t id, In (a, t) entries -> get_peer_address n local id = Some a -> In id order ->
      exists id', In (t, id') result).
Proof. exact addresses_matched. Qed.
Print Assumptions c89_matched.
Example c89_example :
  let n := srun (sample_node 1 sample_options) [knows 1 2; knows 1 3; knows 1 4] in
  match_peer_addresses n (id_of 1) [id_of 4; id_of 2; id_of 3] [(addr_of 3, 30%nat); (addr_of 9, 90%nat); (addr_of 2, 20%nat)]
  = Some [(30%nat, id_of 3); (20%nat, id_of 2)].
Proof. vm_compute. reflexivity. Qed.
