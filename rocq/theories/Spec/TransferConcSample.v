(** Sample runs with several tasks (C73, C74). *)
From stdpp Require Import gmap.
From Coq Require Import NArith.
From Verif.Base Require Import Bytes.
From Verif.Model Require Import Crypto Transfer TransferConc.
From Verif.Spec Require Import CryptoSpec TransferSpec TransferConcSpec.
Open Scope N_scope.

(** A message of two parts. *)
Definition two_pieces : list bytes := [[1; 2; 3]; [4; 5]].
Definition two_id : bytes := sha256 light (message_of two_pieces).
Definition first_comes : receiving_event := PartCame two_id 5 0 [1; 2; 3].
Definition second_comes : receiving_event := PartCame two_id 5 3 [4; 5].
Definition runs (k n : nat) : list receiving_event := repeat (TaskRuns k) n.

(** One after the other. *)
Definition in_turn : list receiving_event := [first_comes] ++ runs 0 5 ++ [second_comes] ++ runs 1 9.
(** Both add their part before either looks whether the message is complete. *)
Definition at_once : list receiving_event :=
  [first_comes; second_comes] ++ runs 0 4 ++ runs 1 4 ++ runs 0 1 ++ runs 1 2 ++ runs 0 4.
(** The same, and the task that was late has not removed the transfer yet. *)
Definition one_late : list receiving_event :=
  [first_comes; second_comes] ++ runs 0 4 ++ runs 1 4 ++ runs 0 1 ++ runs 1 1 ++ runs 0 4.
(** The second copy after [one_late]: the late removal comes between its parts. *)
Definition copy_removed : list receiving_event := [first_comes] ++ runs 2 5 ++ runs 1 1 ++ [second_comes] ++ runs 3 5.
(** A second copy around the time at which the timer of the first one fires. *)
Definition copy_timed_out : list receiving_event :=
  [first_comes] ++ runs 2 5 ++ [TimeGoes 100; TimerRuns 0; TimerRuns 0; second_comes] ++ runs 3 5.
(** The timer of the first transfer runs out. *)
Definition timer_over : list receiving_event := [TimeGoes 3000; TimerRuns 0; TimerRuns 0].
(** A second copy without trouble. *)
Definition copy_in_turn : list receiving_event := [second_comes] ++ runs 2 5 ++ [first_comes] ++ runs 3 9.

Definition received_so (l : list receiving_event) : receiving_state := receiving_run light 3 (receiving_new 0) l.

(** The second part comes after 2.5 seconds and is being processed. *)
Definition second_slow : list receiving_event := [first_comes] ++ runs 0 5 ++ [TimeGoes 2500; second_comes; TaskRuns 1].
(** Two more seconds, and the timer runs. *)
Definition a_while : list receiving_event := [TimeGoes 2000; TimerRuns 0; TimerRuns 0].
