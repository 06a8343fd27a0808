(** Specification of drivers whose numbers stay far from the limits of their types. *)
From Coq Require Import ZArith Bool String List.
From Verif Require Import Base SpecRun ModelObservation ModelLabelFilter ModelSnapshot ModelInstrument ModelTree SpecTree SpecSafe SpecRoom
  ModelChannel ModelProcessor ModelDriver SpecRoomWorld.
Import ListNotations.
Open Scope Z_scope.

Section Room.
  Context {X : ext} {Y : pext}.
  (** [V] to [Q]: as for processors; [T]: the number of processors for telemetry data
      the driver ever has; [R]: the number of iterations; [W]: the largest number the
      driver's own metrics observe *)
  Variables (k : cfg) (lo hi V N S P Q T R W : Z).

  (** One iteration handles up to 1000 messages for each processor. *)
  Record plenty : Prop := Plenty {
    pl_enough : enough V N S P Q T;
    pl_messages : 1000 * R <= N;
    pl_teles : 0 <= T;
    pl_value : 1000 <= W <= i64_max /\ V <= W;
    pl_square : R * R * W <= i64_max;
    pl_processed : T * 1000 <= W;
    pl_updates : T * (1000 * (P * V)) <= W;
    pl_queues : T * Q <= W
  }.

  (** After [n] iterations, with room for [C] processors for telemetry data that may come *)
  Record driver_room (n C : Z) (d : driver X Y) : Prop := DriverRoom {
    dm_processors : Forall (processor_room k lo hi V N S P (1000 * n)) (dr_processors d);
    dm_teles : Z.of_nat (length (flat_map processor_teles (dr_processors d))) + C <= T;
    dm_snapshooters : Forall (leaf_calm k lo hi V (1000 * n)) (flat_map snapshooter_leaves (dr_snapshooters d));
    dm_strategy : strategy_sound k lo hi (dr_strategy d);
    dm_dropped : 0 <= dr_dropped_since_last_logged d <= n * (T * 1000);
    dm_metrics : match dr_metrics d with
                 | Some i => Forall (calm k lo hi W n) (metrics_instruments i)
                 | None => True
                 end
  }.

  Definition command_room (c : command X Y) : Prop :=
    match c with
    | CAddProcessor p => processor_room k lo hi V N S P 0 p
    | CAddSnapshooter s => Forall (leaf_calm k lo hi V 0) (snapshooter_leaves s)
    | CSetProcessingStrategy s => strategy_sound k lo hi s
    | _ => True
    end.

  (** The processors for telemetry data that come with a command *)
  Definition command_teles (c : command X Y) : list (tele X) :=
    match c with CAddProcessor p => processor_teles p | _ => [] end.
  Definition called (a : client_action X Y) : list (command X Y) :=
    match a with Call c => [c] | _ => [] end.

  (** The commands in the queue and all that will ever be given bring at most [C]
      processors for telemetry data. The clock does not go back, as it is the case
      for [Instant]. *)
  Record dworld_room (C : Z) (w : dworld X Y) : Prop := DWorldRoom {
    wd_world : world_room k lo hi V S Q (dw_world w);
    wd_clock : monotone (w_clock (dw_world w));
    wd_commands : forall c, In c (chan_messages (dw_commands w)) -> command_room c;
    wd_actions : forall n c, In (Call c) (dw_sched w n) -> command_room c;
    wd_total : forall n, Z.of_nat (length (flat_map command_teles (chan_messages (dw_commands w)))
                                   + length (flat_map command_teles (flat_map called (flat_map (dw_sched w) (seq 0 n))))) <= C
  }.
End Room.
