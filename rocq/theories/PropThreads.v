(** C93: several threads that send to one processor. *)
From Coq Require Import ZArith List Arith Bool Lia Permutation.
From Verif Require Import Base ModelObservation ModelInstrument ModelTree ModelChannel ModelProcessor ModelTransmitter SpecQueue SpecThreads
  ThreadsProofs Toy.
Import ListNotations.

(** The messages of a thread never overtake each other: what was received from it, what
    is queued, what it waits for and what it has still to do are in the order of its
    program, whatever the other threads do. *)
Theorem c93_order : forall X cap (P : nat -> program X) s t, turns (beginning cap P) s ->
  subsequence (of_thread t (th_received s ++ ch_queue (th_queue s) ++ ch_waiting (th_queue s)) ++ map snd (th_todo s t)) (map snd (P t)).
Proof. intros X. exact threads_order. Qed.
Print Assumptions c93_order.

(** What is missing was refused. *)
Theorem c93_complete : forall X cap (P : nat -> program X) s t, turns (beginning cap P) s ->
  Permutation (of_thread t (th_received s ++ ch_queue (th_queue s) ++ ch_waiting (th_queue s))
    ++ of_thread t (ch_lost (th_queue s)) ++ map snd (th_todo s t)) (map snd (P t)).
Proof. intros X. exact threads_complete. Qed.
Print Assumptions c93_complete.

(** While the processor lives, nothing of a thread is missing if the queue has no limit
    or if the thread only uses transmitters that block, even if others do not block. *)
Theorem c93_exact : forall X cap (P : nat -> program X) s t, turns (beginning cap P) s ->
  ch_receiver (th_queue s) = true -> cap = None \/ Forall (fun x => tx_use_send (fst x) = true) (P t) ->
  of_thread t (th_received s ++ ch_queue (th_queue s) ++ ch_waiting (th_queue s)) ++ map snd (th_todo s t) = map snd (P t).
Proof. intros X. exact threads_exact. Qed.
Print Assumptions c93_exact.

(** The numbers of the threads are not needed by the queue: without them, all is a
    history of the queue of the processor, and the same messages are received. *)
Theorem c93_real : forall X cap (P : nat -> program X) s, turns (beginning cap P) s ->
  exists h, untagged (th_queue s) = chan_run (chan_new cap) h /\ map snd (th_received s) = taken (chan_new cap) h.
Proof. intros X. exact threads_real. Qed.
Print Assumptions c93_real.

(** Room for one message. Thread 0 blocks, thread 1 does not. The second message of
    thread 0 waits while the second one of thread 1 is lost. *)
Definition msg (n : Z) : message toy := MObservation (Observed la n 0).
Definition two_programs (t : nat) : program toy :=
  match t with
  | O => [(Transmitter 0 true, msg 1); (Transmitter 0 true, msg 2)]
  | S O => [(Transmitter 0 false, msg 3); (Transmitter 0 false, msg 4)]
  | _ => []
  end.
Definition two_threads : list (nat * message toy) := [(0, msg 1); (1, msg 3); (0, msg 2)]%nat.

Example c93_case : exists s, turns (beginning (Some 1%nat) two_programs) s
  /\ th_received s = two_threads /\ ch_queue (th_queue s) = [] /\ ch_waiting (th_queue s) = [] /\ ch_lost (th_queue s) = [(1%nat, msg 4)]
  /\ th_todo s 0%nat = [] /\ th_todo s 1%nat = [] /\ ch_receiver (th_queue s) = true
  /\ Forall (fun x => tx_use_send (fst x) = true) (two_programs 0).
Proof.
  eexists. split.
  - eapply tu_more; [eapply tu_more; [eapply tu_more; [eapply tu_more; [eapply tu_more; [eapply tu_more; [eapply tu_more; [eapply tu_more; [eapply tu_none|]|]|]|]|]|]|]|].
    + apply (tu_calls _ _ _ 0 (Transmitter 0 true) (msg 1) [(Transmitter 0 true, msg 2)]); [reflexivity | intros (m & []) | discriminate].
    + apply tu_receives.
    + apply (tu_calls _ _ _ 1 (Transmitter 0 false) (msg 3) [(Transmitter 0 false, msg 4)]); [reflexivity | intros (m & []) | discriminate].
    + apply (tu_calls _ _ _ 0 (Transmitter 0 true) (msg 2) []); [reflexivity | intros (m & []) | discriminate].
    + apply (tu_calls _ _ _ 1 (Transmitter 0 false) (msg 4) []); [reflexivity | intros (m & [E | []]); discriminate E | discriminate].
    + apply tu_receives.
    + apply (tu_other _ _ _ (Wake 0)); discriminate.
    + apply tu_receives.
  - repeat split; repeat constructor.
Qed.
