(** Specification of processors whose numbers stay far from the limits of their types. *)
From Coq Require Import ZArith Bool String List.
From Verif Require Import Base SpecRun ModelObservation ModelLabelFilter ModelSnapshot ModelInstrument ModelTree SpecTree SpecSafe SpecRoom
  ModelChannel ModelProcessor.
Import ListNotations.
Open Scope Z_scope.

Section Room.
  Context {X : ext} {Y : pext}.
  (** [V]: the largest number; [N]: the number of messages a processor for telemetry data
      handles during its life; [S]: the number of parts that come with one message;
      [P]: the number of parts of a processor for telemetry data, [Q]: the number of
      messages for one of them *)
  Variables (k : cfg) (lo hi V N S P Q : Z).

  Definition few_calm (L : list (leaf X)) : Prop := Forall (leaf_calm k lo hi V 0) L /\ Z.of_nat (length L) <= S.

  Definition message_calm (m : message X) : Prop :=
    match m with
    | MObservation o => fits V (snd (split_observation o))
    | MAddCockpit c => few_calm (cockpit_leaves c)
    | MAddHandler h => few_calm (handler_leaves h)
    | MAddPanelToCockpit _ p => few_calm (panel_leaves p)
    | MRemoveCockpit _ | MRemovePanelFromCockpit _ _ => True
    end.

  Definition tele_leaves (t : tele X) : list (leaf X) :=
    flat_map cockpit_leaves (tp_cockpits t) ++ flat_map handler_leaves (tp_handlers t)
    ++ flat_map snapshooter_leaves (tp_snapshooters t).

  (** After [n] messages, with room for the parts that may come *)
  Definition tele_room (n : Z) (t : tele X) : Prop :=
    Forall (leaf_calm k lo hi V n) (tele_leaves t) /\ Z.of_nat (length (tele_leaves t)) + (N - n) * S <= P.

  (** Mounts to which nothing can be added any more, and other drivers *)
  Inductive processor_room (n : Z) : processor X Y -> Prop :=
  | pr_tele : forall t, tele_room n t -> processor_room n (PTele t)
  | pr_mount : forall d ps ss, Forall (processor_room n) ps -> Forall (leaf_calm k lo hi V n) (flat_map snapshooter_leaves ss) ->
      processor_room n (PMount (Mount d ps ss))
  | pr_attached : forall d ps ss, Forall (processor_room n) ps -> Forall (leaf_calm k lo hi V n) (flat_map snapshooter_leaves ss) ->
      processor_room n (PAttached None (Mount d ps ss))
  | pr_driver : forall h, processor_room n (PDriver h).

  (** The processors for telemetry data in a processor *)
  Fixpoint processor_teles (p : processor X Y) {struct p} : list (tele X) :=
    match p with
    | PTele t => [t]
    | PMount m | PAttached _ m => mount_teles m
    | PDriver _ | PUser _ => []
    end
  with mount_teles (m : mount X Y) {struct m} : list (tele X) :=
    match m with Mount _ ps _ => flat_map processor_teles ps end.

  (** The messages an action of another thread sends to queue [i] *)
  Definition sent_to (i : nat) (a : action X Y) : list (message X) :=
    match a with
    | OnQueue j a => if Nat.eqb j i then action_messages a else []
    | OnMount _ _ => []
    end.

  (** All messages in the queues and all that other threads will ever send have room,
      and there are at most [Q] of them for each queue. *)
  Record world_room (w : world X Y) : Prop := WorldRoom {
    wr_clock : clock_within lo hi (w_clock w);
    wr_queues : forall i, Forall message_calm (chan_messages (w_queues w i));
    wr_sched : forall i n, Forall message_calm (flat_map (sent_to i) (w_sched w n));
    wr_total : forall i n, Z.of_nat (length (chan_messages (w_queues w i)) + length (flat_map (sent_to i) (flat_map (w_sched w) (seq 0 n)))) <= Q
  }.

  (** The messages that are handled at most *)
  Fixpoint handles (l : list request) : Z :=
    match l with
    | [] => 0
    | Collect max _ :: l => Z.of_nat max + handles l
    | Write _ _ :: l => handles l
    end.

  (** There is enough room for [T] processors for telemetry data. *)
  Record enough (T : Z) : Prop := Enough {
    en_value : 1 <= V <= i64_max;
    en_square : N * N * V <= i64_max;
    en_parts : 0 <= S /\ 0 <= P;
    en_counts : T * N <= u64_max;
    en_updates : T * (N * (P * V)) <= u64_max;
    en_queues : 0 <= Q /\ T * Q <= u64_max
  }.
End Room.
