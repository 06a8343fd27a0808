(** Model of src/driver.rs: the thread of a [TelemetryDriver], its commands and
    its own metrics. *)
From Coq Require Import ZArith Bool String List Floats.SpecFloat.
From Verif Require Import Base ModelObservation ModelSnapshot ModelGauge ModelMeter ModelHistogram
  ModelSwitches ModelInstrument ModelTree ModelChannel ModelProcessor.
Import ListNotations.
Open Scope Z_scope.

(** ** Floats *)

(** [Duration::as_secs_f64]: [(secs as f64) + (nanos as f64) / 1e9] *)
Definition as_secs_f64 (d : Z) : f64 :=
  f64_add (f64_of_Z (as_secs d)) (f64_div (f64_of_Z (subsec_nanos d)) (f64_of_Z nanos_per_sec)).

(** [f as u64]: towards zero, saturating; NaN gives 0 *)
Definition f64_as_u64 (f : f64) : Z :=
  match f with
  | S754_finite false m e =>
      clamp 0 u64_max (if 0 <=? e then Zpos m * 2 ^ e else Zpos m / 2 ^ (- e))
  | S754_infinity false => u64_max
  | _ => 0
  end.

Section Driver.
  Context {X : ext} {Y : pext}.

  (** ** The driver's own metrics *)

  (** driver.rs 631-646 *)
  Record driver_instruments := DriverInstruments {
    di_collections_per_second : meter;
    di_collection_times_us : histogram (ex_histo X);
    di_observations_processed_per_second : meter;
    di_observations_processed_per_collection : histogram (ex_histo X);
    di_observations_dropped_per_second : meter;
    di_observations_dropped_per_collection : histogram (ex_histo X);
    di_observations_enqueued : gauge;
    di_instruments_updated_per_second : meter;
    di_snapshots_per_second : meter;
    di_snapshots_times_us : histogram (ex_histo X);
    di_dropped_observations_alarm : staircase_timer;
    di_inactivity_alarm : non_occurrence_indicator;
    di_per_mille_ratio_histo : histogram (ex_histo X);
    di_per_mille_ratio : gauge
  }.

  (** [Gauge::new_with_defaults(name).tracking(60).group_values(true)] *)
  Definition tracking_gauge (name : string) : M gauge :=
    let* g := gauge_set_tracking (gauge_new name) 60 in
    ret (Gauge (g_name g) (g_descr g) (g_value g) (g_tracking g) (g_display_time_unit g) true).

  (** driver.rs 648-687 *)
  Definition driver_instruments_default : M driver_instruments :=
    let* a1 := meter_new (ex_alphas X) "collections_per_second" in
    let* a2 := histogram_new (ex_histo X) "collection_times_us" in
    let* a3 := meter_new (ex_alphas X) "observations_processed_per_second" in
    let* a4 := histogram_new (ex_histo X) "observations_processed_per_collection" in
    let* a5 := meter_new (ex_alphas X) "observations_dropped_per_second" in
    let* a6 := histogram_new (ex_histo X) "observations_dropped_per_collection" in
    let* a7 := tracking_gauge "observations_enqueued" in
    let* a8 := meter_new (ex_alphas X) "instruments_updated_per_second" in
    let* a9 := meter_new (ex_alphas X) "snapshots_per_second" in
    let* a10 := histogram_new (ex_histo X) "snapshots_times_us" in
    let a11 := staircase_new "dropped_observations_alarm" in
    let* a12 := non_occurrence_new "inactivity_alarm" in
    let* a13 := histogram_new (ex_histo X) "iteration_update_ratio_per_mille_histo" in
    let* a14 := tracking_gauge "iteration_update_ratio_per_mille" in
    ret (DriverInstruments a1 a2 a3 a4 a5 a6 a7 a8 a9 a10 a11 a12 a13 a14).

  (** The result of [Updates::update] is ignored. *)
  Definition updated {A} (m : M (A * Z)) : M A := let* '(a, _) := m in ret a.
  Definition updated_if {A} (b : bool) (m : A -> M (A * Z)) (a : A) : M A :=
    if b then updated (m a) else ret a.

  (** driver.rs 690-730; [usize as u64] keeps the value. The order of the updates
      is that of the source; the updates under one condition are separated. *)
  Definition update_post_collection (i : driver_instruments) (o : outcome) (collection_started : Z)
    : M driver_instruments :=
    let* t := now in
    let* a1 := updated (meter_update (di_collections_per_second i) (OneObservation t)) in
    let* time := value_of_duration (Z.max 0 (t - collection_started)) in
    let* a2 := updated (histogram_update (di_collection_times_us i) (ObservationWithValue time t)) in
    let processed := 0 <? oc_processed o in
    let* a3 := updated_if processed (fun a => meter_update a (Observations (oc_processed o) t))
                 (di_observations_processed_per_second i) in
    let* a4 := updated_if processed
                 (fun a => histogram_update a (ObservationWithValue (UnsignedInteger (oc_processed o)) t))
                 (di_observations_processed_per_collection i) in
    let* a7 := updated (gauge_update (di_observations_enqueued i)
                          (ObservationWithValue (UnsignedInteger (oc_enqueued o)) t)) in
    let dropped := 0 <? oc_dropped o in
    let* a5 := updated_if dropped (fun a => meter_update a (Observations (oc_dropped o) t))
                 (di_observations_dropped_per_second i) in
    let* a6 := updated_if dropped
                 (fun a => histogram_update a (ObservationWithValue (UnsignedInteger (oc_dropped o)) t))
                 (di_observations_dropped_per_collection i) in
    let* a11 := updated_if dropped (fun a => staircase_update a (OneObservation t))
                  (di_dropped_observations_alarm i) in
    let* a8 := updated_if (0 <? oc_instruments_updated o)
                 (fun a => meter_update a (Observations (oc_instruments_updated o) t))
                 (di_instruments_updated_per_second i) in
    let* a12 := updated (non_occurrence_update (di_inactivity_alarm i) (OneObservation t)) in
    ret (DriverInstruments a1 a2 a3 a4 a5 a6 a7 a8 (di_snapshots_per_second i) (di_snapshots_times_us i)
           a11 a12 (di_per_mille_ratio_histo i) (di_per_mille_ratio i)).

  (** driver.rs 732-740 *)
  Definition update_post_snapshot (i : driver_instruments) (snapshot_started : Z) : M driver_instruments :=
    let* t := now in
    let* a9 := updated (meter_update (di_snapshots_per_second i) (OneObservation t)) in
    let* time := value_of_duration (Z.max 0 (t - snapshot_started)) in
    let* a10 := updated (histogram_update (di_snapshots_times_us i) (ObservationWithValue time t)) in
    ret (DriverInstruments (di_collections_per_second i) (di_collection_times_us i)
           (di_observations_processed_per_second i) (di_observations_processed_per_collection i)
           (di_observations_dropped_per_second i) (di_observations_dropped_per_collection i)
           (di_observations_enqueued i) (di_instruments_updated_per_second i) a9 a10
           (di_dropped_observations_alarm i) (di_inactivity_alarm i)
           (di_per_mille_ratio_histo i) (di_per_mille_ratio i)).

  (** driver.rs 742-775 *)
  Definition instruments_put (i : driver_instruments) (descriptive : bool) (into : snapshot)
    : M (driver_instruments * snapshot) :=
    let c := snapshot_default in
    let* '(a1, c) := meter_put (di_collections_per_second i) descriptive c in
    let* c := histogram_put (di_collection_times_us i) descriptive c in
    let* '(a3, c) := meter_put (di_observations_processed_per_second i) descriptive c in
    let* c := histogram_put (di_observations_processed_per_collection i) descriptive c in
    let* '(a5, c) := meter_put (di_observations_dropped_per_second i) descriptive c in
    let* c := histogram_put (di_observations_dropped_per_collection i) descriptive c in
    let* '(a7, c) := gauge_put (di_observations_enqueued i) descriptive c in
    let* '(a8, c) := meter_put (di_instruments_updated_per_second i) descriptive c in
    let* '(a9, c) := meter_put (di_snapshots_per_second i) descriptive c in
    let* c := histogram_put (di_snapshots_times_us i) descriptive c in
    let* c := staircase_put (di_dropped_observations_alarm i) descriptive c in
    let* c := non_occurrence_put (di_inactivity_alarm i) descriptive c in
    let* '(a14, c) := gauge_put (di_per_mille_ratio i) descriptive c in
    let* c := histogram_put (di_per_mille_ratio_histo i) descriptive c in
    ret (DriverInstruments a1 (di_collection_times_us i) a3 (di_observations_processed_per_collection i) a5
           (di_observations_dropped_per_collection i) a7 a8 a9 (di_snapshots_times_us i)
           (di_dropped_observations_alarm i) (di_inactivity_alarm i) (di_per_mille_ratio_histo i) a14,
         push into "_metrix" (ItemSnapshot c)).

  (** driver.rs 618-628 *)
  Definition update_run_ratio (i : driver_instruments) (ratio : f64) : M driver_instruments :=
    let* t := now in
    let per_mille := f64_as_u64 (f64_mul ratio (f64_of_Z 1000)) in
    let* a13 := updated (histogram_update (di_per_mille_ratio_histo i)
                           (ObservationWithValue (UnsignedInteger per_mille) t)) in
    let* a14 := updated (gauge_update (di_per_mille_ratio i)
                           (ObservationWithValue (UnsignedInteger per_mille) t)) in
    ret (DriverInstruments (di_collections_per_second i) (di_collection_times_us i)
           (di_observations_processed_per_second i) (di_observations_processed_per_collection i)
           (di_observations_dropped_per_second i) (di_observations_dropped_per_collection i)
           (di_observations_enqueued i) (di_instruments_updated_per_second i)
           (di_snapshots_per_second i) (di_snapshots_times_us i)
           (di_dropped_observations_alarm i) (di_inactivity_alarm i) a13 a14).

  (** driver.rs 484-498 *)
  Definition report_elapsed_stats (iteration_started run_time : Z) (m : option driver_instruments)
    : M (option driver_instruments) :=
    match m with
    | None => ret None
    | Some i =>
        let* e := elapsed iteration_started in
        let iteration_time := as_secs_f64 e in
        let run_time := as_secs_f64 run_time in
        if f64_ltb f64_zero iteration_time then
          let* i := update_run_ratio i (f64_div run_time iteration_time) in
          ret (Some i)
        else ret (Some i)
    end.

  (** ** The state of the thread *)

  (** driver.rs 360-375: the locals of [telemetry_loop] *)
  Record driver := Driver {
    dr_name : option string;
    dr_descr : descr;
    dr_processors : list (processor X Y);
    dr_snapshooters : list (snapshooter X);
    dr_strategy : strategy;
    dr_paused : bool;
    dr_metrics : option driver_instruments;
    dr_last_outcome_logged : Z;
    dr_dropped_since_last_logged : Z
  }.

  Definition driver_with (d : driver) (ps : list (processor X Y)) (ss : list (snapshooter X))
    (m : option driver_instruments) : driver :=
    Driver (dr_name d) (dr_descr d) ps ss (dr_strategy d) (dr_paused d) m
      (dr_last_outcome_logged d) (dr_dropped_since_last_logged d).
  Definition driver_add_processor (d : driver) (p : processor X Y) : driver :=
    driver_with d (dr_processors d ++ [p]) (dr_snapshooters d) (dr_metrics d).
  Definition driver_add_snapshooter (d : driver) (s : snapshooter X) : driver :=
    driver_with d (dr_processors d) (dr_snapshooters d ++ [s]) (dr_metrics d).
  Definition driver_set_strategy (d : driver) (s : strategy) : driver :=
    Driver (dr_name d) (dr_descr d) (dr_processors d) (dr_snapshooters d) s (dr_paused d) (dr_metrics d)
      (dr_last_outcome_logged d) (dr_dropped_since_last_logged d).
  Definition driver_set_paused (d : driver) (b : bool) : driver :=
    Driver (dr_name d) (dr_descr d) (dr_processors d) (dr_snapshooters d) (dr_strategy d) b (dr_metrics d)
      (dr_last_outcome_logged d) (dr_dropped_since_last_logged d).
  Definition driver_set_log (d : driver) (last dropped : Z) : driver :=
    Driver (dr_name d) (dr_descr d) (dr_processors d) (dr_snapshooters d) (dr_strategy d) (dr_paused d)
      (dr_metrics d) last dropped.

  (** driver.rs 184-190, 367-375: the start of the thread *)
  Definition driver_start (name : option string) (ds : descr) (s : strategy) (with_driver_metrics : bool)
    : M driver :=
    let* m := if with_driver_metrics
              then (let* i := driver_instruments_default in ret (Some i)) else ret None in
    let* t := now in
    let* last := instant_sub t (60 * nanos_per_sec) in
    ret (Driver name ds [] [] s false m last 0).

  (** ** Snapshots *)

  (** driver.rs 536-558 *)
  Definition add_snapshot_values (d : driver) (descriptive : bool) (started : Z) (into : snapshot)
    : M (driver * snapshot) :=
    let into := put_default_descriptives (dr_descr d) into descriptive in
    let* '(ps, into) := traverse (fun p => processor_put p descriptive) (dr_processors d) into in
    let* '(ss, into) := traverse (fun s => snapshooter_put s descriptive) (dr_snapshooters d) into in
    match dr_metrics d with
    | Some i =>
        let* i := update_post_snapshot i started in
        let* '(i, into) := instruments_put i descriptive into in
        ret (driver_with d ps ss (Some i), into)
    | None => ret (driver_with d ps ss None, into)
    end.

  (** driver.rs 500-534 *)
  Definition put_values_into_snapshot (d : driver) (descriptive : bool) (into : snapshot)
    : M (driver * snapshot) :=
    let* started := now in
    match dr_name d with
    | Some name =>
        let* '(d, new_level) := add_snapshot_values d descriptive started snapshot_default in
        ret (d, push into name (ItemSnapshot new_level))
    | None => add_snapshot_values d descriptive started into
    end.

  (** ** Commands *)

  (** driver.rs 350-358; the back channel of a request is given by a number *)
  Inductive command :=
  | CAddProcessor (p : processor X Y)
  | CAddSnapshooter (s : snapshooter X)
  | CGetSnapshotSync (into : snapshot) (back_channel : nat) (descriptive : bool)
  | CGetSnapshotAsync (into : snapshot) (back_channel : nat) (descriptive : bool)
  | CSetProcessingStrategy (s : strategy)
  | CPause
  | CResume.

  (** driver.rs 224-228, 231-233, 236-238, 240-259, 306-316: what the methods of a
      handle send. [recv] of the answer is not modelled here. *)
  Definition call_change_processing_strategy (s : strategy) : command := CSetProcessingStrategy s.
  Definition call_pause : command := CPause.
  Definition call_resume : command := CResume.
  Definition call_snapshot (back_channel : nat) (descriptive : bool) : command :=
    CGetSnapshotSync snapshot_default back_channel descriptive.
  Definition call_snapshot_async (back_channel : nat) (descriptive : bool) : command :=
    CGetSnapshotAsync snapshot_default back_channel descriptive.
  Definition call_add_processor (p : processor X Y) : command := CAddProcessor p.
  Definition call_add_snapshooter (s : snapshooter X) : command := CAddSnapshooter s.

  (** What the threads with handles of the driver do. A handle consists of the
      guard (an [Arc]) and a sender and is dropped in this order (driver.rs
      152-156), methods need a handle which is not being dropped. *)
  Inductive client_action :=
  | Call (c : command)
  | CloneHandle
  | DropHandleGuard
  | DropHandleSender.

  (** [dw_world]: everything the processors need. [dw_running] is the flag
      [is_running]; a store is visible as soon as it takes place (the schedule
      may delay it). [dw_answers]: what was sent to back channels.
      [dw_unanswered]: the back channels that were dropped without an answer.
      [dw_sched]: what the threads with handles do before each of the following
      operations of the driver's thread on the flag or the channel. *)
  Record dworld := DWorld {
    dw_world : world X Y;
    dw_commands : chan command;
    dw_guards : nat;
    dw_running : bool;
    dw_answers : list (nat * snapshot);
    dw_unanswered : list nat;
    dw_sched : nat -> list client_action
  }.

  Definition dw_with (w : dworld) (c : chan command) (guards : nat) (running : bool) : dworld :=
    DWorld (dw_world w) c guards running (dw_answers w) (dw_unanswered w) (dw_sched w).

  (** driver.rs 162-166 [DropGuard]: dropped with the last [Arc] *)
  Definition client_act (w : dworld) (a : client_action) : dworld :=
    match a with
    | Call m =>
        match dw_guards w with
        | O => w
        | _ => dw_with w (chan_act (dw_commands w) (Send m)) (dw_guards w) (dw_running w)
        end
    | CloneHandle =>
        match dw_guards w with
        | O => w
        | S n => dw_with w (chan_act (dw_commands w) CloneSender) (S (S n)) (dw_running w)
        end
    | DropHandleGuard =>
        match dw_guards w with
        | O => w
        | S O => dw_with w (dw_commands w) O false
        | S n => dw_with w (dw_commands w) n (dw_running w)
        end
    | DropHandleSender =>
        if (dw_guards w <? ch_senders (dw_commands w))%nat
        then dw_with w (chan_act (dw_commands w) DropSender) (dw_guards w) (dw_running w)
        else w
    end.

  Definition clients : St dworld unit :=
    fun _ w =>
      let w := fold_left client_act (dw_sched w O) w in
      Ok tt (DWorld (dw_world w) (dw_commands w) (dw_guards w) (dw_running w) (dw_answers w)
               (dw_unanswered w) (fun i => dw_sched w (S i))).

  (** [is_running.load(Ordering::Relaxed)] *)
  Definition load_running : St dworld bool :=
    let* _ := clients in fun _ w => Ok (dw_running w) w.

  (** [receiver.try_recv()] *)
  Definition command_try_recv : St dworld (received command) :=
    let* _ := clients in
    fun _ w =>
      let '(c, r) := chan_try_recv (dw_commands w) in
      Ok r (dw_with w c (dw_guards w) (dw_running w)).

  Definition in_world {A} (m : St (world X Y) A) : St dworld A :=
    fun k w =>
      match m k (dw_world w) with
      | Ok a w' =>
          Ok a (DWorld w' (dw_commands w) (dw_guards w) (dw_running w) (dw_answers w) (dw_unanswered w)
                  (dw_sched w))
      | Panic => Panic
      | NoFuel => NoFuel
      end.
  Definition timed {A} (m : M A) : St dworld A := in_world (lift m).

  (** [back_channel.send(snapshot)] *)
  Definition answer (back_channel : nat) (s : snapshot) : St dworld unit :=
    fun _ w =>
      Ok tt (DWorld (dw_world w) (dw_commands w) (dw_guards w) (dw_running w)
               (dw_answers w ++ [(back_channel, s)]) (dw_unanswered w) (dw_sched w)).

  Definition back_channels (l : list command) : list nat :=
    flat_map (fun c => match c with
                       | CGetSnapshotSync _ b _ | CGetSnapshotAsync _ b _ => [b]
                       | _ => []
                       end) l.

  (** The end of [telemetry_loop]: the receiver is dropped. The commands left are
      dropped with the channel, at the latest when the last sender goes. *)
  Definition hang_up : St dworld unit :=
    fun _ w =>
      Ok tt (DWorld (dw_world w) (chan_act (dw_commands w) DropReceiver) (dw_guards w) (dw_running w)
               (dw_answers w) (dw_unanswered w ++ back_channels (ch_queue (dw_commands w))) (dw_sched w)).

  (** driver.rs 385-424 *)
  Definition driver_command (d : driver) (c : command) : St dworld driver :=
    match c with
    | CAddProcessor p => ret (driver_add_processor d p)
    | CAddSnapshooter s => ret (driver_add_snapshooter d s)
    | CGetSnapshotSync into b descriptive
    | CGetSnapshotAsync into b descriptive =>
        let* '(d, s) := timed (put_values_into_snapshot d descriptive into) in
        let* _ := answer b s in
        ret d
    | CSetProcessingStrategy s => ret (driver_set_strategy d s)
    | CPause => ret (driver_set_paused d true)
    | CResume => ret (driver_set_paused d false)
    end.

  (** driver.rs 470-482; nesting as in [processor_process] *)
  Definition do_a_run (ps : list (processor X Y)) (max : nat) (s : strategy)
    : St (world X Y) (list (processor X Y) * outcome) :=
    fun k => traverse (collect_one (fun p => processor_process (fuel k) p max s)) ps outcome_default k.

  (** driver.rs 439-464. Sleeping is not modelled: time passes anyway. *)
  Definition driver_run (d : driver) (iteration_started : Z) : St dworld driver :=
    let* run_started := timed now in
    let* '(ps, o) := in_world (do_a_run (dr_processors d) 1000 (dr_strategy d)) in
    let d := driver_with d ps (dr_snapshooters d) (dr_metrics d) in
    let* run_time := timed (elapsed run_started) in
    let* dropped := add_usize (dr_dropped_since_last_logged d) (oc_dropped o) in
    let* d :=
      if 0 <? dropped then
        let* e := timed (elapsed (dr_last_outcome_logged d)) in
        if 5 * nanos_per_sec <? e then
          let* t := timed now in ret (driver_set_log d t 0)
        else ret (driver_set_log d (dr_last_outcome_logged d) dropped)
      else ret (driver_set_log d (dr_last_outcome_logged d) dropped) in
    let* m :=
      match dr_metrics d with
      | Some i => let* i := timed (update_post_collection i o run_started) in ret (Some i)
      | None => ret None
      end in
    if (0 <? oc_dropped o) || (100 <? oc_processed o) then
      ret (driver_with d (dr_processors d) (dr_snapshooters d) m)
    else
      let* finished := timed now in
      let* m := timed (report_elapsed_stats iteration_started run_time m) in
      ret (driver_with d (dr_processors d) (dr_snapshooters d) m).

  (** driver.rs 377-465: one iteration of the loop; [false]: the thread is done *)
  Definition driver_iteration (d : driver) : St dworld (driver * bool) :=
    let* running := load_running in
    if negb running then
      let* _ := hang_up in ret (d, false)
    else
      let* iteration_started := timed now in
      let* r := command_try_recv in
      match r with
      | Disconnected => let* _ := hang_up in ret (d, false)
      | _ =>
          let* d := match r with Message c => driver_command d c | _ => ret d end in
          if dr_paused d then ret (d, true)
          else
            let* d := driver_run d iteration_started in
            ret (d, true)
      end.
End Driver.
Arguments driver : clear implicits.
Arguments driver_instruments : clear implicits.
Arguments command : clear implicits.
Arguments client_action : clear implicits.
Arguments dworld : clear implicits.
