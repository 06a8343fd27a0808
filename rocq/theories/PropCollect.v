(** C35, C36: what a processor does with the messages in its queue. *)
From Coq Require Import ZArith Bool String List Lia.
From Verif Require Import Base SpecRun MonadFacts ModelObservation ModelLabelFilter ModelSnapshot ModelCounter
  ModelGauge ModelHistogram ModelSwitches ModelInstrument ModelTree ModelChannel ModelProcessor ModelTransmitter
  SpecQueue QueueProofs SpecCollect CollectProofs GroupProofs Toy.
Import ListNotations.
Open Scope string_scope.
Open Scope list_scope.
Open Scope Z_scope.

(** ** C35 *)

(** One collection, in any state of the queue. *)
Theorem c35_collection : forall X Y k (t : tele X) max s (w : world X Y) t' o w',
  tele_process t max s k w = Ok (t', o) w' -> Z.of_nat max <= u64_max ->
  let i := tp_receiver t in
  exists ms,
    collection k t s (w_clock w) ms t' o
    /\ moved (w_queues w i) (w_queues w' i) ms
    /\ (length ms <= max)%nat
    /\ oc_processed o + oc_dropped o = Z.of_nat (length ms)
    /\ (tp_disconnected t = false -> exists rest, ms = firstn max (ch_queue (w_queues w i)) ++ rest)
    /\ tp_receiver t' = i
    /\ (tp_disconnected t' = true -> tp_disconnected t = true
          \/ (chan_ok (w_queues w i) -> exhausted (w_queues w' i))).
Proof. exact @process_spec. Qed.
Print Assumptions c35_collection.

(** From the creation of the queue on. *)
Theorem c35_exactly_once : forall X Y k (t : tele X) (w : world X Y) h t' w' cap,
  tele_life k t w h t' w' -> maxima_fit h ->
  w_queues w (tp_receiver t) = chan_new cap -> tp_disconnected t = false ->
  exists mss,
    tele_story k t h mss t'
    /\ ch_accepted (w_queues w' (tp_receiver t)) = concat mss ++ ch_queue (w_queues w' (tp_receiver t))
    /\ (tp_disconnected t' = true -> exhausted (w_queues w' (tp_receiver t))).
Proof. exact @life_from_start. Qed.
Print Assumptions c35_exactly_once.

Theorem c35_counted : forall X k (t : tele X) h mss t', tele_story k t h mss t' ->
  sum (map (fun e => oc_processed (snd e) + oc_dropped (snd e)) h) = Z.of_nat (length (concat mss)).
Proof. exact @story_total. Qed.
Print Assumptions c35_counted.

(** Nobody else takes messages out of the queue: a processor that does not hold
    the receiver leaves the queue to its senders. *)
Theorem c35_others : forall X Y i k (p : processor X Y) max s w p' o w',
  collects k p max s w p' o w' -> ~ holds (QueueReceiver i) p -> foreign (QueueReceiver i) w ->
  foreign (QueueReceiver i) w' /\ ~ holds (QueueReceiver i) p'
  /\ exists l : list (action X Y), w_queues w' i = chan_run (w_queues w i) (on_queue i l).
Proof.
  intros X Y i k p max s w p' o w' E N F. destruct (collected_away _ _ _ _ _ _ _ _ _ E N F) as (H1 & H2 & H3). auto.
Qed.
Print Assumptions c35_others.

(** Two senders; the queue has room for two messages. One message is lost before
    the first collection, one arrives while the first collection is going on;
    the second collection drops observations older than 10 ns. *)
Definition busy_tele : tele toy := Tele (Some "p") no_descr [toy_cockpit] [] 4 [] 0 None true false.
Definition say (l : lab toy) (t : Z) : chan_action (message toy) := TrySend (MObservation (ObservedOne l t)).
Definition busy_world : world toy toyp :=
  World (frozen 100) (fun _ => chan_new (Some 2%nat)) (fun _ => chan_new None)
    (fun n => match n with
              | 0%nat => [OnQueue 4 (say la 1); OnQueue 4 (say lb 2); OnQueue 4 (say la 3)]
              | 1%nat => [OnQueue 4 (say la 50)]
              | 3%nat => [OnQueue 4 (say lb 95); OnQueue 4 DropSender]
              | _ => []
              end).

Example c35_case :
  match tele_process busy_tele 2 ProcessAll debug busy_world with
  | Ok (t1, o1) w1 =>
      match tele_process t1 5 (DropOlderThan 10 true) debug w1 with
      | Ok (t2, o2) w2 =>
          tele_life debug busy_tele busy_world [(2%nat, ProcessAll, o1); (5%nat, DropOlderThan 10 true, o2)] t2 w2
          /\ o1 = Outcome 2 0 (oc_instruments_updated o1) 1
          /\ o2 = Outcome 1 1 (oc_instruments_updated o2) 0
          /\ ch_lost (w_queues w2 4) = [MObservation (ObservedOne la 3)]
          /\ ch_accepted (w_queues w2 4) = map MObservation [ObservedOne la 1; ObservedOne lb 2; ObservedOne la 50; ObservedOne lb 95]
          /\ tp_disconnected t2 = true
      | _ => False
      end
  | _ => False
  end.
Proof.
  assert (F : match tele_process busy_tele 2 ProcessAll debug busy_world with
    | Ok (t1, o1) w1 =>
        match tele_process t1 5 (DropOlderThan 10 true) debug w1 with
        | Ok (t2, o2) w2 =>
            o1 = Outcome 2 0 (oc_instruments_updated o1) 1
            /\ o2 = Outcome 1 1 (oc_instruments_updated o2) 0
            /\ ch_lost (w_queues w2 4) = [MObservation (ObservedOne la 3)]
            /\ ch_accepted (w_queues w2 4) = map MObservation [ObservedOne la 1; ObservedOne lb 2; ObservedOne la 50; ObservedOne lb 95]
            /\ tp_disconnected t2 = true
        | _ => False
        end
    | _ => False
    end) by (vm_compute; auto 6).
  destruct (tele_process busy_tele 2 ProcessAll debug busy_world) as [[t1 o1] w1| |] eqn:E1; [|exact F..].
  destruct (tele_process t1 5 (DropOlderThan 10 true) debug w1) as [[t2 o2] w2| |] eqn:E2; [|exact F..].
  split; [|exact F]. exact (tl_collect _ _ _ _ _ _ _ _ _ _ _ E1 (tl_collect _ _ _ _ _ _ _ _ _ _ _ E2 (tl_nil _ _ _))).
Qed.

(** ** C36 *)

(** The end is noticed only if nothing is left (see also [c35_exactly_once]). *)
Theorem c36_noticed_at_the_end : forall X Y k (t : tele X) max s (w : world X Y) t' o w',
  tele_process t max s k w = Ok (t', o) w' -> Z.of_nat max <= u64_max ->
  tp_disconnected t = false -> tp_disconnected t' = true -> chan_ok (w_queues w (tp_receiver t)) ->
  exhausted (w_queues w' (tp_receiver t)).
Proof.
  intros X Y k t max s w t' o w' E L D D' C. destruct (process_spec _ _ _ _ _ _ _ _ E L) as (ms & _ & _ & _ & _ & _ & _ & H).
  destruct (H D') as [H1|H1]; [congruence | exact (H1 C)].
Qed.
Print Assumptions c36_noticed_at_the_end.

(** After the last transmitter is gone the collections handle what is left in
    order, [max] messages each at most. *)
Theorem c36_everything_handled : forall X Y k (t : tele X) (w : world X Y) h t' w',
  tele_life k t w h t' w' -> maxima_fit h ->
  tp_disconnected t = false -> closed (w_queues w (tp_receiver t)) ->
  exists mss, tele_story k t h mss t'
    /\ concat mss = firstn (fold_right (fun e n => fst (fst e) + n)%nat O h) (ch_queue (w_queues w (tp_receiver t))).
Proof. exact @closed_life. Qed.
Print Assumptions c36_everything_handled.

(** The first collection that has room for one message more than is queued notices the end. *)
Theorem c36_noticed : forall X Y k (t : tele X) max s (w : world X Y) t' o w',
  tele_process t max s k w = Ok (t', o) w' -> tp_disconnected t = false ->
  closed (w_queues w (tp_receiver t)) ->
  tp_disconnected t' = true <-> (length (ch_queue (w_queues w (tp_receiver t))) < max)%nat.
Proof. exact @process_closed. Qed.
Print Assumptions c36_noticed.

(** From then on nothing happens any more. *)
Theorem c36_afterwards : forall X Y k (t : tele X) max s (w : world X Y),
  tp_disconnected t = true -> tele_process t max s k w = Ok (t, Outcome 0 0 0 0) w.
Proof. intros X Y k t max s w D. unfold tele_process. rewrite D. reflexivity. Qed.
Print Assumptions c36_afterwards.

(** Three messages and no transmitter: two collections of at most two messages. *)
Definition closed_world : world toy toyp :=
  World (frozen 100)
    (fun _ => chan_run (chan_new None) [Acts (say la 1); Acts (say lb 2); Acts (say la 3); Acts DropSender])
    (fun _ => chan_new None) (fun _ => []).

Example c36_case :
  closed (w_queues closed_world 4) /\
  match tele_process busy_tele 2 ProcessAll debug closed_world with
  | Ok (t1, o1) w1 =>
      tp_disconnected t1 = false /\ o1 = Outcome 2 0 (oc_instruments_updated o1) 1 /\
      match tele_process t1 2 ProcessAll debug w1 with
      | Ok (t2, o2) w2 =>
          tp_disconnected t2 = true /\ o2 = Outcome 1 0 (oc_instruments_updated o2) 0
      | _ => False
      end
  | _ => False
  end.
Proof. split; [split; reflexivity|]. vm_compute. auto. Qed.
