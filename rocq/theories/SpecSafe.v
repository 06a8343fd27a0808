(** Specification of computations that do not panic. *)
From Coq Require Import ZArith Bool String List.
From Verif Require Import Base SpecRun ModelObservation ModelSnapshot ModelCounter ModelBuckets ModelGauge
  ModelMeter ModelHistogram ModelSwitches ModelInstrument ModelTree ModelChannel ModelProcessor ModelDriver SpecTree.
Import ListNotations.
Open Scope Z_scope.

(** All readings of the clock are between [lo] and [hi]. *)
Definition clock_within (lo hi : Z) (c : clock) : Prop := forall n, lo <= c n <= hi.

(** A duration that can be subtracted from and added to the current time. *)
Definition manageable (k : cfg) (lo hi d : Z) : Prop := min_instant k <= lo - d /\ hi + d <= max_instant k.

(** A computation that neither panics nor runs out of fuel. *)
Definition safe (k : cfg) (lo hi : Z) {A} (m : M A) (post : A -> Prop) : Prop :=
  forall c, clock_within lo hi c -> exists a c', m k c = Ok a c' /\ clock_within lo hi c' /\ post a.

(** The parts that do not belong to the library do not panic. *)
Record parts_safe (k : cfg) (lo hi : Z) (X : ext) : Prop := PartsSafe {
  ps_histo_new : safe k lo hi (histo_new (ex_histo X)) (fun _ => True);
  ps_histo_update : forall h v, safe k lo hi (histo_update (ex_histo X) h v) (fun _ => True);
  ps_instr_update : forall i u, safe k lo hi (user_instr_update X i u) (fun _ => True);
  ps_instr_put : forall i d s, safe k lo hi (user_instr_put X i d s) (fun _ => True);
  ps_handler_handle : forall h o, safe k lo hi (user_handler_handle X h o) (fun _ => True);
  ps_handler_put : forall h d s, safe k lo hi (user_handler_put X h d s) (fun _ => True);
  ps_snap_put : forall u d s, safe k lo hi (user_snap_put X u d s) (fun _ => True)
}.

Record processors_safe (k : cfg) (lo hi : Z) (Y : pext) : Prop := ProcessorsSafe {
  ps_proc_process : forall u n s, safe k lo hi (user_proc_process Y u n s) (fun _ => True);
  ps_proc_put : forall u d s, safe k lo hi (user_proc_put Y u d s) (fun _ => True);
  ps_driver_snapshot : forall h d, safe k lo hi (driver_snapshot Y h d) (fun _ => True)
}.

Section Durations.
  Context {X : ext} {Y : pext}.

  (** The durations an instrument adds to or subtracts from the current time. *)
  Definition instrument_durations (i : instrument X) : list Z :=
    match i with
    | IMeter _ | IValueMeter _ => [5 * nanos_per_sec]
    | IStaircase t => [st_switch_off_after t]
    | IOccurrence o => [oi_if_happened_within o]
    | INonOccurrence o => [ni_if_not_happened_within o]
    | IDisplay t => opt_list (dd_reset_after t)
    | _ => []
    end.

  (** The ring of a tracking gauge is not empty and its position is in bounds. *)
  Definition tracking_in_bounds (g : gauge) : Prop :=
    match g_tracking g with
    | None => True
    | Some b => (b_current_idx b < length (b_buckets b))%nat
    end.

  Definition sound (k : cfg) (lo hi : Z) (i : instrument X) : Prop :=
    Forall (manageable k lo hi) (instrument_durations i)
    /\ match i with IGauge g => tracking_in_bounds g | _ => True end.

  (** ** All instruments of a tree, also those that only are asked for snapshots *)

  Definition slots_instruments (sl : slots X) : list (instrument X) :=
    map (fun a => ICounter (ad_instrument a)) (opt_list (sl_counter sl))
    ++ map (fun a => IGauge (ga_gauge a)) (opt_list (sl_gauge sl))
    ++ map (fun a => IMeter (ad_instrument a)) (opt_list (sl_meter sl))
    ++ map (fun a => IHistogram (ad_instrument a)) (opt_list (sl_histogram sl)).

  Fixpoint panel_instruments (p : panel X) {struct p} : list (instrument X) :=
    match p with
    | Panel _ sl ps hs ss =>
        slots_instruments sl ++ flat_map panel_instruments ps ++ flat_map handler_instruments hs
        ++ flat_map snapshooter_instruments ss
    end
  with handler_instruments (h : handler X) {struct h} : list (instrument X) :=
    match h with
    | HInstrument a => [ad_instrument a]
    | HGauge a => [IGauge (ga_gauge a)]
    | HPanel p => panel_instruments p
    | HCockpit c => cockpit_instruments c
    | HUser _ => []
    end
  with cockpit_instruments (c : cockpit X) {struct c} : list (instrument X) :=
    match c with
    | Cockpit _ ps hs ss =>
        flat_map panel_instruments ps ++ flat_map handler_instruments hs ++ flat_map snapshooter_instruments ss
    end
  with snapshooter_instruments (s : snapshooter X) {struct s} : list (instrument X) :=
    match s with
    | SConstant _ | SUser _ => []
    | SPolled _ _ _ poll => snapshooter_instruments poll
    | SInstrument i => [i]
    | SHandler h => handler_instruments h
    end.

  Definition tele_instruments (t : tele X) : list (instrument X) :=
    flat_map cockpit_instruments (tp_cockpits t) ++ flat_map handler_instruments (tp_handlers t)
    ++ flat_map snapshooter_instruments (tp_snapshooters t).

  Fixpoint processor_instruments (p : processor X Y) {struct p} : list (instrument X) :=
    match p with
    | PTele t => tele_instruments t
    | PMount m | PAttached _ m => mount_instruments m
    | PDriver _ | PUser _ => []
    end
  with mount_instruments (m : mount X Y) {struct m} : list (instrument X) :=
    match m with
    | Mount _ ps ss => flat_map processor_instruments ps ++ flat_map snapshooter_instruments ss
    end.

  (** The instruments that come with a message. *)
  Definition message_instruments (m : message X) : list (instrument X) :=
    match m with
    | MObservation _ | MRemoveCockpit _ | MRemovePanelFromCockpit _ _ => []
    | MAddCockpit c => cockpit_instruments c
    | MAddHandler h => handler_instruments h
    | MAddPanelToCockpit _ p => panel_instruments p
    end.
  Definition mount_message_instruments (m : mount_message X Y) : list (instrument X) :=
    match m with
    | MProcessor p => processor_instruments p
    | MSnapshooter s => snapshooter_instruments s
    end.

  Definition chan_messages {A} (c : chan A) : list A := ch_queue c ++ ch_waiting c.
  Definition action_messages {A} (a : chan_action A) : list A :=
    match a with Send m | TrySend m => [m] | _ => [] end.

  Variables (k : cfg) (lo hi : Z).

  (** The time is in the range and all instruments that are on their way to a
      processor are sound. *)
  Record world_sound (w : world X Y) : Prop := WorldSound {
    wd_clock : clock_within lo hi (w_clock w);
    wd_queues : forall i m, In m (chan_messages (w_queues w i)) -> Forall (sound k lo hi) (message_instruments m);
    wd_mounts : forall i m, In m (chan_messages (w_mounts w i)) ->
      Forall (sound k lo hi) (mount_message_instruments m);
    wd_queue_actions : forall n i a m, In (OnQueue i a) (w_sched w n) -> In m (action_messages a) ->
      Forall (sound k lo hi) (message_instruments m);
    wd_mount_actions : forall n i a m, In (OnMount i a) (w_sched w n) -> In m (action_messages a) ->
      Forall (sound k lo hi) (mount_message_instruments m)
  }.

  Definition strategy_sound (s : strategy) : Prop :=
    match s with DropOlderThan age _ => manageable k lo hi age | _ => True end.

  (** A collection or a snapshot. *)
  Inductive request :=
  | Collect (max : nat) (s : strategy)
  | Write (descriptive : bool) (into : snapshot).
  Definition request_sound (r : request) : Prop :=
    match r with Collect _ s => strategy_sound s | Write _ _ => True end.

  (** A processor serves the requests one after the other. *)
  Fixpoint serve (depth : nat) (p : processor X Y) (l : list request) : St (world X Y) (processor X Y) :=
    match l with
    | [] => ret p
    | Collect max s :: l => let* '(p, _) := processor_process depth p max s in serve depth p l
    | Write de into :: l => let* '(p, _) := lift (processor_put p de into) in serve depth p l
    end.

  (** ** Drivers *)

  Definition metrics_instruments (i : driver_instruments X) : list (instrument X) :=
    [IMeter (di_collections_per_second i); IHistogram (di_collection_times_us i);
     IMeter (di_observations_processed_per_second i); IHistogram (di_observations_processed_per_collection i);
     IMeter (di_observations_dropped_per_second i); IHistogram (di_observations_dropped_per_collection i);
     IGauge (di_observations_enqueued i); IMeter (di_instruments_updated_per_second i);
     IMeter (di_snapshots_per_second i); IHistogram (di_snapshots_times_us i);
     IStaircase (di_dropped_observations_alarm i); INonOccurrence (di_inactivity_alarm i);
     IHistogram (di_per_mille_ratio_histo i); IGauge (di_per_mille_ratio i)].

  Definition driver_all_instruments (d : driver X Y) : list (instrument X) :=
    flat_map processor_instruments (dr_processors d) ++ flat_map snapshooter_instruments (dr_snapshooters d)
    ++ match dr_metrics d with Some i => metrics_instruments i | None => [] end.

  Definition driver_sound (d : driver X Y) : Prop :=
    Forall (sound k lo hi) (driver_all_instruments d) /\ strategy_sound (dr_strategy d).

  Definition command_sound (c : command X Y) : Prop :=
    match c with
    | CAddProcessor p => Forall (sound k lo hi) (processor_instruments p)
    | CAddSnapshooter s => Forall (sound k lo hi) (snapshooter_instruments s)
    | CSetProcessingStrategy s => strategy_sound s
    | _ => True
    end.

  Record dworld_sound (w : dworld X Y) : Prop := DWorldSound {
    ws_world : world_sound (dw_world w);
    ws_commands : forall c, In c (chan_messages (dw_commands w)) -> command_sound c;
    ws_actions : forall n c, In (Call c) (dw_sched w n) -> command_sound c
  }.
End Durations.
