(** Specification of what happens to a processor for telemetry data that is
    somewhere in a driver. *)
From Coq Require Import ZArith Bool String List.
From Verif Require Import Base SpecRun SpecClock ModelObservation ModelSnapshot ModelInstrument ModelTree
  ModelChannel ModelProcessor ModelDriver SpecQueue SpecCollect SpecDriver.
Import ListNotations.
Open Scope Z_scope.

(** A step of the way to a processor: a position in a list; a mount with its name
    and its inactivity limit *)
Inductive place := Position (i : nat) | Level (n : option string) (limit : option Z).

Section Chronicle.
  Context {X : ext} {Y : pext}.
  Variable k : cfg.

  (** A collection: when it was started, with which strategy, and the messages
      that were handled *)
  Record entry := Entry {
    en_start : Z;
    en_strategy : strategy;
    en_messages : list (message X)
  }.

  (** The life of a processor for telemetry data between [c] and [c']. Nothing
      but collections and snapshots happens to it. A collection takes its decision
      about old observations at its start and handles some messages; a processor
      without transmitters does not collect any more. *)
  Inductive chronicle : clock -> tele X -> list entry -> tele X -> clock -> Prop :=
  | cr_end : forall c t c', later c c' -> chronicle c t [] t c'
  | cr_collects : forall c c0 t s d c1 ms t1 n c2 t2 t3 es t4 c4,
      later c c0 ->
      tp_disconnected t = false ->
      strategy_decider s k c0 = Ok d c1 ->
      handles k d t (Counts 0 0 0) c1 ms t1 n c2 ->
      (t2 = t1 \/ t2 = tele_disconnect t1) ->
      (t3 = t2 \/ t3 = tele_touch t2 (c2 O)) ->
      chronicle c2 t3 es t4 c4 ->
      chronicle c t (Entry (c0 O) s ms :: es) t4 c4
  | cr_rests : forall c c0 t s es t1 c1,
      later c c0 ->
      tp_disconnected t = true ->
      chronicle c0 t es t1 c1 ->
      chronicle c t (Entry (c0 O) s [] :: es) t1 c1
  | cr_shown : forall c c0 t de into t1 into1 c1 es t2 c2,
      later c c0 ->
      tele_put t de into k c0 = Ok (t1, into1) c1 ->
      chronicle c1 t1 es t2 c2 ->
      chronicle c t es t2 c2.

  (** Where a processor is in a tree of mounts: the positions and the mounts on the way.
      Nobody else in the tree has its receiver [r]. *)
  Inductive located (r : receiver) : processor X Y -> list place -> tele X -> Prop :=
  | lo_here : forall t, r = QueueReceiver (tp_receiver t) -> located r (PTele t) [] t
  | lo_mount : forall d ps ss path t, among r ps path t -> located r (PMount (Mount d ps ss)) (Level (md_name d) (md_limit d) :: path) t
  | lo_attached : forall i d ps ss path t, among r ps path t -> located r (PAttached i (Mount d ps ss)) (Level (md_name d) (md_limit d) :: path) t
  with among (r : receiver) : list (processor X Y) -> list place -> tele X -> Prop :=
  | am_at : forall before p after path t,
      Forall (fun q => ~ holds r q) before -> located r p path t -> Forall (fun q => ~ holds r q) after ->
      among r (before ++ p :: after) (Position (length before) :: path) t.

  (** Nothing that is sent to the driver or to a mount has the receiver. *)
  Definition command_clean (r : receiver) (c : command X Y) : Prop :=
    match c with CAddProcessor p => ~ holds r p | _ => True end.
  Definition call_clean (r : receiver) (a : client_action X Y) : Prop :=
    match a with Call c => command_clean r c | _ => True end.
  Definition nobody_else (r : receiver) (w : dworld X Y) : Prop :=
    foreign r (dw_world w)
    /\ Forall (command_clean r) (ch_queue (dw_commands w))
    /\ (forall n, Forall (call_clean r) (dw_sched w n)).

  (** The strategies of the collections of a driver that receives the commands
      [css], those of one iteration after those of the other *)
  Fixpoint strategies (s : strategy) (paused : bool) (css : list (list (command X Y))) : list strategy :=
    match css with
    | [] => []
    | cs :: css =>
        let s := strategy_after s cs in
        let paused := paused_after paused cs in
        (if paused then [] else [s]) ++ strategies s paused css
    end.

  Definition queue_of (i : nat) (w : dworld X Y) : chan (message X) := w_queues (dw_world w) i.

  (** A processor gives up its queue only when there will be no more messages. *)
  Definition attentive (i : nat) (t : tele X) (w : world X Y) : Prop :=
    chan_ok (w_queues w i) /\ (tp_disconnected t = true -> exhausted (w_queues w i)).
End Chronicle.
Arguments entry : clear implicits.
Arguments Entry {X}.
