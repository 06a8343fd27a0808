(** C37, C38: the queues between transmitters and processors. *)
From Coq Require Import ZArith Bool String List Lia Permutation.
From Verif Require Import Base SpecRun ModelObservation ModelLabelFilter ModelSnapshot ModelCounter
  ModelGauge ModelHistogram ModelSwitches ModelInstrument ModelTree ModelChannel ModelProcessor ModelTransmitter
  SpecQueue QueueProofs SpecCollect CollectProofs Toy.
Import ListNotations.
Open Scope string_scope.
Open Scope list_scope.
Open Scope Z_scope.

(** ** C37 *)

Theorem c37_capacity : forall A n h, (length (ch_queue (chan_run (chan_new (A := A) (Some n)) h)) <= n)%nat.
Proof. exact @capacity_respected. Qed.
Print Assumptions c37_capacity.

(** Collections change queues by channel operations only, so that this holds during and after them, too. *)
Theorem c37_collections : forall X Y n p max s k (w : world X Y) r w' i,
  processor_process n p max s k w = Ok r w' -> exists h, w_queues w' i = chan_run (w_queues w i) h.
Proof. intros X Y n p max s k w r w' i E. exact (proj1 (wruns_process n p max s k w r w' E) i). Qed.
Print Assumptions c37_collections.

(** When messages are lost. *)
Theorem c37_loses_only : forall A (c : chan A) e,
  ch_lost (chan_step c e) <> ch_lost c ->
  (exists m, e = Acts (TrySend m) /\ (crowded c \/ ch_receiver c = false))
  \/ (exists m, e = Acts (Send m) /\ ch_receiver c = false)
  \/ e = Acts DropReceiver.
Proof. exact @loses_only. Qed.
Print Assumptions c37_loses_only.

(** A transmitter that does not block. *)
Theorem c37_nonblocking : forall X tx (c : chan (message X)) m, tx_use_send tx = false -> ch_senders c <> O ->
  let c' := chan_act c (tx_send tx m) in
  (ch_receiver c = true -> ~ crowded c ->
     ch_queue c' = ch_queue c ++ [m] /\ ch_accepted c' = ch_accepted c ++ [m] /\ ch_lost c' = ch_lost c)
  /\ (ch_receiver c = false \/ crowded c ->
     ch_queue c' = ch_queue c /\ ch_accepted c' = ch_accepted c /\ ch_lost c' = ch_lost c ++ [m]).
Proof. exact @nonblocking_send. Qed.
Print Assumptions c37_nonblocking.

(** A transmitter that blocks. *)
Theorem c37_blocking : forall X tx (c : chan (message X)) m, tx_use_send tx = true ->
  ch_senders c <> O -> ch_receiver c = true ->
  let c' := chan_act c (tx_send tx m) in
  ch_lost c' = ch_lost c
  /\ (~ crowded c -> ch_queue c' = ch_queue c ++ [m] /\ ch_accepted c' = ch_accepted c ++ [m])
  /\ (crowded c -> ch_queue c' = ch_queue c /\ ch_waiting c' = ch_waiting c ++ [m]).
Proof. exact @blocking_send. Qed.
Print Assumptions c37_blocking.

(** Whatever happens meanwhile, as long as the receiver lives. *)
Theorem c37_blocking_never_loses : forall A h (c : chan A),
  ch_receiver c = true ->
  (forall e, In e h -> e <> Acts DropReceiver /\ forall m, e = Acts (TrySend m) -> ch_cap c = None) ->
  ch_lost (chan_run c h) = ch_lost c /\ ch_receiver (chan_run c h) = true.
Proof. exact @blocking_never_loses. Qed.
Print Assumptions c37_blocking_never_loses.

Theorem c37_unbounded : forall X tx (c : chan (message X)) m, ch_cap c = None ->
  ch_senders c <> O -> ch_receiver c = true ->
  let c' := chan_act c (tx_send tx m) in
  ch_queue c' = ch_queue c ++ [m] /\ ch_accepted c' = ch_accepted c ++ [m] /\ ch_lost c' = ch_lost c.
Proof. exact @unbounded_send. Qed.
Print Assumptions c37_unbounded.

(** No message vanishes: each is accepted, waiting, or counted as lost. *)
Theorem c37_conservation : forall A h (c : chan A),
  Permutation (ch_accepted (chan_run c h) ++ ch_waiting (chan_run c h) ++ ch_lost (chan_run c h))
    (ch_accepted c ++ ch_waiting c ++ ch_lost c ++ sent c h).
Proof. exact @run_conserves. Qed.
Print Assumptions c37_conservation.

(** Unless senders block, messages are accepted in the order in which they are sent ... *)
Theorem c37_order : forall A h (c : chan A), ch_waiting c = [] -> (forall m, In (Acts (Send m)) h -> ch_cap c = None) ->
  exists new, ch_accepted (chan_run c h) = ch_accepted c ++ new /\ subsequence new (sent c h).
Proof. exact @order_kept. Qed.
Print Assumptions c37_order.

(** ... and they are always received in the order in which they were accepted. *)
Theorem c37_received_in_order : forall A h (c : chan A), moved c (chan_run c h) (taken c h).
Proof. exact @run_moved. Qed.
Print Assumptions c37_received_in_order.

Theorem c37_queries : forall X cap h, let c := chan_run (chan_new (A := message X) cap) h in
  (is_queue_full c = true <-> cap = Some (length (ch_queue c)))
  /\ (is_queue_empty c = true <-> ch_queue c = [])
  /\ queue_size c = length (ch_queue c)
  /\ queue_capacity c = cap.
Proof. exact @queries. Qed.
Print Assumptions c37_queries.

(** What is created. *)
Theorem c37_created : forall X id name bounded use_send k c q tx (t : tele X) c',
  create id name bounded use_send k c = Ok (q, tx, t) c' ->
  q = chan_new bounded /\ tx_sender tx = id /\ tx_use_send tx = use_send /\ tp_receiver t = id
  /\ tp_name t = name /\ tp_disconnected t = false.
Proof. exact @created. Qed.
Print Assumptions c37_created.

(** Capacity 2, the third message is lost without blocking, and waits with blocking. *)
Example c37_case_nonblocking :
  let c := chan_run (chan_new (Some 2%nat))
             [Acts (TrySend 1); Acts (TrySend 2); Acts (TrySend 3); Receives; Acts (TrySend 4)] in
  ch_queue c = [2; 4] /\ ch_lost c = [3] /\ ch_accepted c = [1; 2; 4] /\ chan_full c = true.
Proof. repeat split. Qed.

Example c37_case_blocking :
  let c := chan_run (chan_new (Some 2%nat))
             [Acts (Send 1); Acts (Send 2); Acts (Send 3); Acts (Wake 0); Receives; Acts (Wake 0)] in
  ch_queue c = [2; 3] /\ ch_lost c = [] /\ ch_waiting c = [] /\ ch_accepted c = [1; 2; 3].
Proof. repeat split. Qed.

Example c37_case_transmitter : exists q tx (t : tele toy),
  new_pair_bounded 4 "p" 1 false debug (frozen 0) = Ok (q, tx, t) (frozen 0)
  /\ tx_use_send tx = false /\ ch_senders q <> O /\ ch_receiver q = true /\ ~ crowded q
  /\ crowded (chan_act q (observed_one tx la 3)).
Proof.
  eexists _, _, _. split; [reflexivity|]. cbn. repeat split; try discriminate.
  - intros (n & E & H). injection E as <-. cbn in H. lia.
  - exists 1%nat. split; [reflexivity|]. cbn. lia.
Qed.

(** ** C38 *)

(** Capacity 0 without blocking: the message is sent while nothing is queued and
    is lost, the next collection finds nothing. *)
Definition narrow_tx : transmitter := Transmitter 4 false.
Definition narrow_tele : tele toy := Tele (Some "p") no_descr [] [] 4 [] 0 None true false.
Definition narrow_world (cap : nat) : world toy toyp :=
  World (frozen 5) (fun _ => chan_act (chan_new (Some cap)) (observed_one narrow_tx la 3)) (fun _ => chan_new None) (fun _ => []).

Theorem c38_capacity_zero_refuted : exists (q : chan (message toy)) tx (t : tele toy) (w : world toy toyp) m,
  new_pair_bounded 4 "p" 0 false debug (frozen 0) = Ok (q, tx, t) (frozen 0)
  /\ is_queue_empty q = true /\ ch_receiver q = true
  /\ w_queues w 4 = chan_act q (tx_send tx m)
  /\ match tele_process t 1000 ProcessAll debug w with
     | Ok (_, o) w' => o = Outcome 0 0 0 0 /\ ch_lost (w_queues w' 4) = [m]
     | _ => False
     end.
Proof.
  exists (chan_new (Some 0%nat)), narrow_tx, narrow_tele, (narrow_world 0), (MObservation (ObservedOne la 3)).
  do 4 (split; [vm_compute; reflexivity|]). vm_compute. auto.
Qed.
Print Assumptions c38_capacity_zero_refuted.

(** With any other capacity, or none, the message is accepted and is the first
    one that the next collection handles. *)
Theorem c38_delivered_partial : forall X (tx : transmitter) (c : chan (message X)) m,
  ch_senders c <> O -> ch_receiver c = true -> ch_queue c = [] -> ch_cap c <> Some O ->
  ch_queue (chan_act c (tx_send tx m)) = [m] /\ ch_lost (chan_act c (tx_send tx m)) = ch_lost c.
Proof.
  intros X tx c m S0 R Q C. assert (N : ~ crowded c).
  { intros (n & E & H). rewrite Q in H. cbn in H. destruct n; [exact (C E) | lia]. }
  destruct (tx_use_send tx) eqn:T.
  - destruct (blocking_send tx c m T S0 R) as (H1 & H2 & _). destruct (H2 N) as [H3 _]. rewrite Q in H3. auto.
  - destruct (proj1 (nonblocking_send tx c m T S0) R N) as (H1 & _ & H2). rewrite Q in H1. auto.
Qed.
Print Assumptions c38_delivered_partial.

Theorem c38_handled_partial : forall X Y (t : tele X) (m : message X) max s k (w : world X Y) t' o w',
  tp_disconnected t = false -> ch_queue (w_queues w (tp_receiver t)) = [m] -> Z.of_nat (S max) <= u64_max ->
  tele_process t (S max) s k w = Ok (t', o) w' ->
  exists ms, collection k t s (w_clock w) (m :: ms) t' o.
Proof.
  intros X Y t m max s k w t' o w' D Q L E. destruct (process_spec _ _ _ _ _ _ _ _ E L) as (ms & H1 & _ & _ & _ & H2 & _).
  destruct (H2 D) as (rest & ->). rewrite Q in H1. cbn [firstn] in H1. rewrite firstn_nil in H1. eexists. exact H1.
Qed.
Print Assumptions c38_handled_partial.

Example c38_case :
  new_pair_bounded 4 "p" 1 false debug (frozen 0) = Ok (chan_new (A := message toy) (Some 1%nat), narrow_tx, narrow_tele) (frozen 0)
  /\ match tele_process narrow_tele 1000 ProcessAll debug (narrow_world 1) with
     | Ok (_, o) w' => o = Outcome 1 0 0 0 /\ ch_lost (w_queues w' 4) = []
     | _ => False
     end.
Proof. split; [reflexivity|]. vm_compute. auto. Qed.
