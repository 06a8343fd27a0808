(** Model of the functions that configure the components: the setters and the
    builder functions of the same name ([x.title(t)] is [x.set_title(t); x]),
    and the functions that attach labels to an instrument. *)
From Coq Require Import ZArith Bool String List.
From Verif Require Import Base ModelObservation ModelLabelFilter ModelSnapshot ModelCounter ModelGauge
  ModelMeter ModelHistogram ModelSwitches ModelInstrument ModelTree ModelProcessor ModelDriver ModelValues.
Import ListNotations.
Open Scope Z_scope.

(** ** Setters *)

Definition descr_set_title (d : descr) (t : string) : descr := Descr (Some t) (d_description d).
Definition descr_set_description (d : descr) (t : string) : descr := Descr (d_title d) (Some t).

(** *** counter.rs *)

(** counter.rs 52-59 *)
Definition counter_set_name (x : counter) (n : string) : counter :=
  Counter n (c_descr x) (c_count x).
(** counter.rs 61-68 *)
Definition counter_set_title (x : counter) (t : string) : counter :=
  Counter (c_name x) (descr_set_title (c_descr x) t) (c_count x).
(** counter.rs 70-77 *)
Definition counter_set_description (x : counter) (t : string) : counter :=
  Counter (c_name x) (descr_set_description (c_descr x) t) (c_count x).

(** *** gauge/mod.rs *)

(** gauge/mod.rs 90-97 *)
Definition gauge_set_name (x : gauge) (n : string) : gauge :=
  Gauge n (g_descr x) (g_value x) (g_tracking x) (g_display_time_unit x) (g_group_values x).
(** gauge/mod.rs 116-123 *)
Definition gauge_set_title (x : gauge) (t : string) : gauge :=
  Gauge (g_name x) (descr_set_title (g_descr x) t) (g_value x) (g_tracking x)
    (g_display_time_unit x) (g_group_values x).
(** gauge/mod.rs 125-132 *)
Definition gauge_set_description (x : gauge) (t : string) : gauge :=
  Gauge (g_name x) (descr_set_description (g_descr x) t) (g_value x) (g_tracking x)
    (g_display_time_unit x) (g_group_values x).
(** gauge/mod.rs 111-114 *)
Definition gauge_group_values (x : gauge) (b : bool) : gauge :=
  Gauge (g_name x) (g_descr x) (g_value x) (g_tracking x) (g_display_time_unit x) b.
(** gauge/mod.rs 173-180 *)
Definition gauge_set_display_time_unit (x : gauge) (u : time_unit) : gauge :=
  Gauge (g_name x) (g_descr x) (g_value x) (g_tracking x) u (g_group_values x).

(** *** meter.rs *)

(** meter.rs 54-61 *)
Definition meter_set_name (x : meter) (n : string) : meter :=
  Meter n (m_descr x) (m_last_tick x) (m_inner x) (m_lower_cutoff x) (m_one_minute x)
    (m_five_minute x) (m_fifteen_minute x).
(** meter.rs 63-70 *)
Definition meter_set_title (x : meter) (t : string) : meter :=
  Meter (m_name x) (descr_set_title (m_descr x) t) (m_last_tick x) (m_inner x)
    (m_lower_cutoff x) (m_one_minute x) (m_five_minute x) (m_fifteen_minute x).
(** meter.rs 72-79 *)
Definition meter_set_description (x : meter) (t : string) : meter :=
  Meter (m_name x) (descr_set_description (m_descr x) t) (m_last_tick x) (m_inner x)
    (m_lower_cutoff x) (m_one_minute x) (m_five_minute x) (m_fifteen_minute x).
(** meter.rs 81-94 *)
Definition meter_set_lower_cutoff (x : meter) (f : f64) : meter :=
  Meter (m_name x) (m_descr x) (m_last_tick x) (m_inner x) f (m_one_minute x) (m_five_minute x)
    (m_fifteen_minute x).
(** meter.rs 96-109 *)
Definition meter_set_one_minute_rate_enabled (x : meter) (b : bool) : meter :=
  Meter (m_name x) (m_descr x) (m_last_tick x) (m_inner x) (m_lower_cutoff x) b
    (m_five_minute x) (m_fifteen_minute x).
(** meter.rs 111-124 *)
Definition meter_set_five_minute_rate_enabled (x : meter) (b : bool) : meter :=
  Meter (m_name x) (m_descr x) (m_last_tick x) (m_inner x) (m_lower_cutoff x) (m_one_minute x) b
    (m_fifteen_minute x).
(** meter.rs 126-139 *)
Definition meter_set_fifteen_minute_rate_enabled (x : meter) (b : bool) : meter :=
  Meter (m_name x) (m_descr x) (m_last_tick x) (m_inner x) (m_lower_cutoff x) (m_one_minute x)
    (m_five_minute x) b.

(** *** value_meter.rs: the same fields and setters as those of [Meter] *)

Definition value_meter_inner (f : meter -> meter) (x : value_meter) : value_meter :=
  ValueMeter (f (vm_meter x)) (vm_display_time_unit x).
(** value_meter.rs 51-58, 60-67, 69-76 *)
Definition value_meter_set_name (x : value_meter) (n : string) : value_meter :=
  value_meter_inner (fun m => meter_set_name m n) x.
Definition value_meter_set_title (x : value_meter) (t : string) : value_meter :=
  value_meter_inner (fun m => meter_set_title m t) x.
Definition value_meter_set_description (x : value_meter) (t : string) : value_meter :=
  value_meter_inner (fun m => meter_set_description m t) x.
(** value_meter.rs 78-91, 93-106, 108-121, 123-136 *)
Definition value_meter_set_lower_cutoff (x : value_meter) (f : f64) : value_meter :=
  value_meter_inner (fun m => meter_set_lower_cutoff m f) x.
Definition value_meter_set_one_minute_rate_enabled (x : value_meter) (b : bool) : value_meter :=
  value_meter_inner (fun m => meter_set_one_minute_rate_enabled m b) x.
Definition value_meter_set_five_minute_rate_enabled (x : value_meter) (b : bool) : value_meter :=
  value_meter_inner (fun m => meter_set_five_minute_rate_enabled m b) x.
Definition value_meter_set_fifteen_minute_rate_enabled (x : value_meter) (b : bool) : value_meter :=
  value_meter_inner (fun m => meter_set_fifteen_minute_rate_enabled m b) x.
(** value_meter.rs 138-144 *)
Definition value_meter_set_display_time_unit (x : value_meter) (u : time_unit) : value_meter :=
  ValueMeter (vm_meter x) u.

(** *** histogram.rs *)

(** histogram.rs 49-56 *)
Definition histogram_set_name {H} (x : histogram H) (n : string) : histogram H :=
  Histogram n (h_descr x) (h_inner x) (h_last_update x) (h_max_inactivity x)
    (h_reset_after_inactivity x) (h_show_activity_state x) (h_display_time_unit x).
(** histogram.rs 58-65 *)
Definition histogram_set_title {H} (x : histogram H) (t : string) : histogram H :=
  Histogram (h_name x) (descr_set_title (h_descr x) t) (h_inner x) (h_last_update x)
    (h_max_inactivity x) (h_reset_after_inactivity x) (h_show_activity_state x)
    (h_display_time_unit x).
(** histogram.rs 67-74 *)
Definition histogram_set_description {H} (x : histogram H) (t : string) : histogram H :=
  Histogram (h_name x) (descr_set_description (h_descr x) t) (h_inner x) (h_last_update x)
    (h_max_inactivity x) (h_reset_after_inactivity x) (h_show_activity_state x)
    (h_display_time_unit x).
(** histogram.rs 76-91 *)
Definition histogram_set_inactivity_limit {H} (x : histogram H) (d : Z) : histogram H :=
  Histogram (h_name x) (h_descr x) (h_inner x) (h_last_update x) (Some d)
    (h_reset_after_inactivity x) (h_show_activity_state x) (h_display_time_unit x).
(** histogram.rs 93-110 *)
Definition histogram_set_reset_after_inactivity {H} (x : histogram H) (b : bool) : histogram H :=
  Histogram (h_name x) (h_descr x) (h_inner x) (h_last_update x) (h_max_inactivity x) b
    (h_show_activity_state x) (h_display_time_unit x).
(** histogram.rs 112-129 *)
Definition histogram_set_show_activity_state {H} (x : histogram H) (b : bool) : histogram H :=
  Histogram (h_name x) (h_descr x) (h_inner x) (h_last_update x) (h_max_inactivity x)
    (h_reset_after_inactivity x) b (h_display_time_unit x).
(** histogram.rs 131-137 *)
Definition histogram_set_display_time_unit {H} (x : histogram H) (u : time_unit) : histogram H :=
  Histogram (h_name x) (h_descr x) (h_inner x) (h_last_update x) (h_max_inactivity x)
    (h_reset_after_inactivity x) (h_show_activity_state x) u.

(** *** switches/flag.rs *)

(** flag.rs 42-49 *)
Definition flag_set_name (x : flag) (n : string) : flag :=
  Flag n (f_descr x) (f_state x) (f_show_inverted x).
(** flag.rs 51-58 *)
Definition flag_set_title (x : flag) (t : string) : flag :=
  Flag (f_name x) (descr_set_title (f_descr x) t) (f_state x) (f_show_inverted x).
(** flag.rs 60-67 *)
Definition flag_set_description (x : flag) (t : string) : flag :=
  Flag (f_name x) (descr_set_description (f_descr x) t) (f_state x) (f_show_inverted x).
(** flag.rs 69-72 [state] *)
Definition flag_set_state (x : flag) (b : bool) : flag :=
  Flag (f_name x) (f_descr x) (Some b) (f_show_inverted x).
(** flag.rs 74-83 *)
Definition flag_set_show_inverted (x : flag) (a : name_alternation) : flag :=
  Flag (f_name x) (f_descr x) (f_state x) (Some a).

(** flag.rs 161-164 *)
Definition flag_get_state (x : flag) : option bool := f_state x.

(** *** switches/staircase_timer.rs *)

(** staircase_timer.rs 55-62 *)
Definition staircase_set_name (x : staircase_timer) (n : string) : staircase_timer :=
  StaircaseTimer n (st_descr x) (st_switch_off_after x) (st_invert x) (st_stay_on_until x)
    (st_show_inverted x).
(** staircase_timer.rs 64-71 *)
Definition staircase_set_title (x : staircase_timer) (t : string) : staircase_timer :=
  StaircaseTimer (st_name x) (descr_set_title (st_descr x) t) (st_switch_off_after x)
    (st_invert x) (st_stay_on_until x) (st_show_inverted x).
(** staircase_timer.rs 73-80 *)
Definition staircase_set_description (x : staircase_timer) (t : string) : staircase_timer :=
  StaircaseTimer (st_name x) (descr_set_description (st_descr x) t) (st_switch_off_after x)
    (st_invert x) (st_stay_on_until x) (st_show_inverted x).

(** *** switches/occurrence_indicator.rs *)

(** occurrence_indicator.rs 48-55 *)
Definition occurrence_set_name (x : occurrence_indicator) (n : string) : occurrence_indicator :=
  OccurrenceIndicator n (oi_descr x) (oi_if_happened_within x) (oi_happened_last x)
    (oi_invert x) (oi_show_inverted x).
(** occurrence_indicator.rs 57-64 *)
Definition occurrence_set_title (x : occurrence_indicator) (t : string) : occurrence_indicator :=
  OccurrenceIndicator (oi_name x) (descr_set_title (oi_descr x) t) (oi_if_happened_within x)
    (oi_happened_last x) (oi_invert x) (oi_show_inverted x).
(** occurrence_indicator.rs 66-73 *)
Definition occurrence_set_description (x : occurrence_indicator) (t : string)
  : occurrence_indicator :=
  OccurrenceIndicator (oi_name x) (descr_set_description (oi_descr x) t)
    (oi_if_happened_within x) (oi_happened_last x) (oi_invert x) (oi_show_inverted x).

(** *** switches/non_occurrence_indicator.rs *)

(** non_occurrence_indicator.rs 54-61 *)
Definition non_occurrence_set_name (x : non_occurrence_indicator) (n : string)
  : non_occurrence_indicator :=
  NonOccurrenceIndicator n (ni_descr x) (ni_if_not_happened_within x) (ni_happened_last x)
    (ni_invert x) (ni_show_inverted x).
(** non_occurrence_indicator.rs 63-70 *)
Definition non_occurrence_set_title (x : non_occurrence_indicator) (t : string)
  : non_occurrence_indicator :=
  NonOccurrenceIndicator (ni_name x) (descr_set_title (ni_descr x) t)
    (ni_if_not_happened_within x) (ni_happened_last x) (ni_invert x) (ni_show_inverted x).
(** non_occurrence_indicator.rs 72-79 *)
Definition non_occurrence_set_description (x : non_occurrence_indicator) (t : string)
  : non_occurrence_indicator :=
  NonOccurrenceIndicator (ni_name x) (descr_set_description (ni_descr x) t)
    (ni_if_not_happened_within x) (ni_happened_last x) (ni_invert x) (ni_show_inverted x).

(** *** other_instruments/last_occurrence_tracker.rs *)

(** last_occurrence_tracker.rs 40-47 *)
Definition last_occurrence_set_name (x : last_occurrence_tracker) (n : string)
  : last_occurrence_tracker :=
  LastOccurrenceTracker n (lt_descr x) (lt_happened_last x) (lt_invert x) (lt_make_none_zero x).
(** last_occurrence_tracker.rs 49-56 *)
Definition last_occurrence_set_title (x : last_occurrence_tracker) (t : string)
  : last_occurrence_tracker :=
  LastOccurrenceTracker (lt_name x) (descr_set_title (lt_descr x) t) (lt_happened_last x)
    (lt_invert x) (lt_make_none_zero x).
(** last_occurrence_tracker.rs 58-65 *)
Definition last_occurrence_set_description (x : last_occurrence_tracker) (t : string)
  : last_occurrence_tracker :=
  LastOccurrenceTracker (lt_name x) (descr_set_description (lt_descr x) t) (lt_happened_last x)
    (lt_invert x) (lt_make_none_zero x).
(** last_occurrence_tracker.rs 67-88 [set_invert_enabled, invert_enabled, inverted] *)
Definition last_occurrence_set_invert (x : last_occurrence_tracker) (b : bool)
  : last_occurrence_tracker :=
  LastOccurrenceTracker (lt_name x) (lt_descr x) (lt_happened_last x) b (lt_make_none_zero x).
(** last_occurrence_tracker.rs 95-112 *)
Definition last_occurrence_set_make_none_zero (x : last_occurrence_tracker) (b : bool)
  : last_occurrence_tracker :=
  LastOccurrenceTracker (lt_name x) (lt_descr x) (lt_happened_last x) (lt_invert x) b.

(** *** other_instruments/display.rs *)

(** display.rs 49-56 *)
Definition display_set_name (x : data_display) (n : string) : data_display :=
  DataDisplay n (dd_descr x) (dd_value x) (dd_reset_after x) (dd_stay_on_until x)
    (dd_reset_value x).
(** display.rs 58-65 *)
Definition display_set_title (x : data_display) (t : string) : data_display :=
  DataDisplay (dd_name x) (descr_set_title (dd_descr x) t) (dd_value x) (dd_reset_after x)
    (dd_stay_on_until x) (dd_reset_value x).
(** display.rs 67-74 *)
Definition display_set_description (x : data_display) (t : string) : data_display :=
  DataDisplay (dd_name x) (descr_set_description (dd_descr x) t) (dd_value x) (dd_reset_after x)
    (dd_stay_on_until x) (dd_reset_value x).

(** *** polled.rs *)

(** polled.rs 128-134 *)
Definition constant_value_set_name (x : constant_value) (n : string) : constant_value :=
  ConstantValue n (cv_descr x) (cv_value x).
(** polled.rs 141-146 *)
Definition constant_value_set_title (x : constant_value) (t : string) : constant_value :=
  ConstantValue (cv_name x) (descr_set_title (cv_descr x) t) (cv_value x).
(** polled.rs 148-153 *)
Definition constant_value_set_description (x : constant_value) (t : string) : constant_value :=
  ConstantValue (cv_name x) (descr_set_description (cv_descr x) t) (cv_value x).

(** polled.rs 15-23; the fields of a [PollingInstrument], see [SPolled] *)
Record polling := Polling { pl_name : string; pl_descr : descr; pl_group : bool }.
(** polled.rs 29-37 *)
Definition polling_new (name : string) : polling := Polling name no_descr false.

(** polled.rs 44-50 *)
Definition polling_set_name (x : polling) (n : string) : polling :=
  Polling n (pl_descr x) (pl_group x).
(** polled.rs 65-70 *)
Definition polling_set_title (x : polling) (t : string) : polling :=
  Polling (pl_name x) (descr_set_title (pl_descr x) t) (pl_group x).
(** polled.rs 72-77 *)
Definition polling_set_description (x : polling) (t : string) : polling :=
  Polling (pl_name x) (descr_set_description (pl_descr x) t) (pl_group x).
(** polled.rs 58-63 *)
Definition polling_set_create_group_with_name (x : polling) (b : bool) : polling :=
  Polling (pl_name x) (pl_descr x) b.

(** polled.rs 98-108 *)
Definition polling_put {P} (poll : bool -> snapshot -> M (P * snapshot)) (x : polling)
  (descriptive : bool) (into : snapshot) : M (P * snapshot) :=
  polled_put poll (pl_name x) (pl_descr x) (pl_group x) descriptive into.

(** *** panel.rs, cockpit.rs, processor.rs *)

Section Components.
  Context {X : ext} {Y : pext}.

  Definition panel_data_with (f : panel_data X -> panel_data X) (x : panel X) : panel X :=
    let '(Panel d sl ps hs ss) := x in Panel (f d) sl ps hs ss.
  (** panel.rs 225-230, 232-237 *)
  Definition panel_set_title (x : panel X) (t : string) : panel X :=
    panel_data_with (fun d => PanelData (pd_filter d) (pd_name d) (descr_set_title (pd_descr d) t)
                                (pd_last_update d) (pd_limit d) (pd_show_activity d)) x.
  Definition panel_set_description (x : panel X) (t : string) : panel X :=
    panel_data_with (fun d => PanelData (pd_filter d) (pd_name d) (descr_set_description (pd_descr d) t)
                                (pd_last_update d) (pd_limit d) (pd_show_activity d)) x.

  Definition cockpit_data_with (f : cockpit_data -> cockpit_data) (x : cockpit X) : cockpit X :=
    let '(Cockpit d ps hs ss) := x in Cockpit (f d) ps hs ss.
  (** cockpit.rs 63-67, 69-73 *)
  Definition cockpit_set_title (x : cockpit X) (t : string) : cockpit X :=
    cockpit_data_with (fun d => CockpitData (cd_name d) (descr_set_title (cd_descr d) t)
                                  (cd_last_activity d) (cd_limit d) (cd_show_activity d)) x.
  Definition cockpit_set_description (x : cockpit X) (t : string) : cockpit X :=
    cockpit_data_with (fun d => CockpitData (cd_name d) (descr_set_description (cd_descr d) t)
                                  (cd_last_activity d) (cd_limit d) (cd_show_activity d)) x.

  (** processor.rs 422-425. Title and description have no setters. *)
  Definition tele_set_name (x : tele X) (n : string) : tele X :=
    Tele (Some n) (tp_descr x) (tp_cockpits x) (tp_handlers x) (tp_receiver x)
      (tp_snapshooters x) (tp_last_activity x) (tp_limit x) (tp_show_activity x) (tp_disconnected x).

  (** processor.rs 643-646. Title and description have no setters. *)
  Definition mount_set_name (x : mount X Y) (n : string) : mount X Y :=
    let '(Mount d ps ss) := x in
    Mount (MountData (Some n) (md_descr d) (md_last_activity d) (md_limit d)) ps ss.

  (** processor.rs 664-670: as [add_processor], [add_snapshooter] *)
  Definition mount_add_processor_dyn (x : mount X Y) (p : processor X Y) : mount X Y :=
    mount_add_processor x p.
  Definition mount_add_snapshooter_dyn (x : mount X Y) (s : snapshooter X) : mount X Y :=
    mount_add_snapshooter x s.
End Components.

(** ** Calls of the setters *)

(** One call of a setter or builder function. [SetShowInverted] stands for
    [show_inverted] and its shorthands, see [show_inverted_prefixed] and so on. *)
Inductive setting :=
| SetName (n : string)
| SetTitle (t : string)
| SetDescription (t : string)
| SetGroup (b : bool)
| SetUnit (u : time_unit)
| SetTracking (for_seconds : nat)
| SetValue (v : Z)
| SetCutoff (f : f64)
| SetOneMinute (b : bool)
| SetFiveMinutes (b : bool)
| SetFifteenMinutes (b : bool)
| SetLimit (d : Z)
| SetReset (b : bool)
| SetShowActivity (b : bool)
| SetState (b : bool)
| SetShowInverted (a : name_alternation)
| SetInvert (b : bool)
| SetSwitchOffAfter (d : Z)
| SetWithin (d : Z)
| SetNoneZero (b : bool)
| SetResetAfter (d : Z)
| SetResetValue (v : item_kind).

(** flag.rs 85-116, staircase_timer.rs 131-162, occurrence_indicator.rs 128-159,
    non_occurrence_indicator.rs 133-164 *)
Definition show_inverted_prefixed (prefix : string) : setting := SetShowInverted (Prefix prefix).
Definition show_inverted_postfixed (postfix : string) : setting := SetShowInverted (Postfix postfix).
Definition show_inverted_renamed (new_name : string) : setting := SetShowInverted (Rename new_name).

(** staircase_timer.rs 88-93, occurrence_indicator.rs 90-96,
    non_occurrence_indicator.rs 96-102, last_occurrence_tracker.rs 82-88:
    [enable_invert], [inverted] *)
Definition inverted : setting := SetInvert true.

(** A type without the called function: such a call cannot be written. *)
Definition no_such_function {W A} (x : A) : St W A := ret x.

Definition counter_config (x : counter) (s : setting) : M counter :=
  match s with
  | SetName n => ret (counter_set_name x n)
  | SetTitle t => ret (counter_set_title x t)
  | SetDescription t => ret (counter_set_description x t)
  | _ => no_such_function x
  end.

(** [SetValue]: [value], gauge/mod.rs 99-104 *)
Definition gauge_config (x : gauge) (s : setting) : M gauge :=
  match s with
  | SetName n => ret (gauge_set_name x n)
  | SetTitle t => ret (gauge_set_title x t)
  | SetDescription t => ret (gauge_set_description x t)
  | SetGroup b => ret (gauge_group_values x b)
  | SetUnit u => ret (gauge_set_display_time_unit x u)
  | SetTracking n => gauge_set_tracking x n
  | SetValue v => gauge_value x v
  | _ => no_such_function x
  end.

Definition meter_config (x : meter) (s : setting) : M meter :=
  match s with
  | SetName n => ret (meter_set_name x n)
  | SetTitle t => ret (meter_set_title x t)
  | SetDescription t => ret (meter_set_description x t)
  | SetCutoff f => ret (meter_set_lower_cutoff x f)
  | SetOneMinute b => ret (meter_set_one_minute_rate_enabled x b)
  | SetFiveMinutes b => ret (meter_set_five_minute_rate_enabled x b)
  | SetFifteenMinutes b => ret (meter_set_fifteen_minute_rate_enabled x b)
  | _ => no_such_function x
  end.

Definition value_meter_config (x : value_meter) (s : setting) : M value_meter :=
  match s with
  | SetName n => ret (value_meter_set_name x n)
  | SetTitle t => ret (value_meter_set_title x t)
  | SetDescription t => ret (value_meter_set_description x t)
  | SetCutoff f => ret (value_meter_set_lower_cutoff x f)
  | SetOneMinute b => ret (value_meter_set_one_minute_rate_enabled x b)
  | SetFiveMinutes b => ret (value_meter_set_five_minute_rate_enabled x b)
  | SetFifteenMinutes b => ret (value_meter_set_fifteen_minute_rate_enabled x b)
  | SetUnit u => ret (value_meter_set_display_time_unit x u)
  | _ => no_such_function x
  end.

Definition histogram_config {H} (x : histogram H) (s : setting) : M (histogram H) :=
  match s with
  | SetName n => ret (histogram_set_name x n)
  | SetTitle t => ret (histogram_set_title x t)
  | SetDescription t => ret (histogram_set_description x t)
  | SetLimit d => ret (histogram_set_inactivity_limit x d)
  | SetReset b => ret (histogram_set_reset_after_inactivity x b)
  | SetShowActivity b => ret (histogram_set_show_activity_state x b)
  | SetUnit u => ret (histogram_set_display_time_unit x u)
  | _ => no_such_function x
  end.

Definition flag_config (x : flag) (s : setting) : M flag :=
  match s with
  | SetName n => ret (flag_set_name x n)
  | SetTitle t => ret (flag_set_title x t)
  | SetDescription t => ret (flag_set_description x t)
  | SetState b => ret (flag_set_state x b)
  | SetShowInverted a => ret (flag_set_show_inverted x a)
  | _ => no_such_function x
  end.

Definition staircase_config (x : staircase_timer) (s : setting) : M staircase_timer :=
  match s with
  | SetName n => ret (staircase_set_name x n)
  | SetTitle t => ret (staircase_set_title x t)
  | SetDescription t => ret (staircase_set_description x t)
  | SetInvert b => ret (staircase_set_invert x b)
  | SetSwitchOffAfter d => ret (staircase_set_switch_off_after x d)
  | SetShowInverted a => ret (staircase_set_show_inverted x a)
  | _ => no_such_function x
  end.

Definition occurrence_config (x : occurrence_indicator) (s : setting) : M occurrence_indicator :=
  match s with
  | SetName n => ret (occurrence_set_name x n)
  | SetTitle t => ret (occurrence_set_title x t)
  | SetDescription t => ret (occurrence_set_description x t)
  | SetInvert b => ret (occurrence_set_invert x b)
  | SetWithin d => occurrence_set_if_happened_within x d
  | SetShowInverted a => ret (occurrence_set_show_inverted x a)
  | _ => no_such_function x
  end.

Definition non_occurrence_config (x : non_occurrence_indicator) (s : setting)
  : M non_occurrence_indicator :=
  match s with
  | SetName n => ret (non_occurrence_set_name x n)
  | SetTitle t => ret (non_occurrence_set_title x t)
  | SetDescription t => ret (non_occurrence_set_description x t)
  | SetInvert b => ret (non_occurrence_set_invert x b)
  | SetWithin d => ret (non_occurrence_set_if_not_happened_within x d)
  | SetShowInverted a => ret (non_occurrence_set_show_inverted x a)
  | _ => no_such_function x
  end.

Definition last_occurrence_config (x : last_occurrence_tracker) (s : setting)
  : M last_occurrence_tracker :=
  match s with
  | SetName n => ret (last_occurrence_set_name x n)
  | SetTitle t => ret (last_occurrence_set_title x t)
  | SetDescription t => ret (last_occurrence_set_description x t)
  | SetInvert b => ret (last_occurrence_set_invert x b)
  | SetNoneZero b => ret (last_occurrence_set_make_none_zero x b)
  | _ => no_such_function x
  end.

Definition display_config (x : data_display) (s : setting) : M data_display :=
  match s with
  | SetName n => ret (display_set_name x n)
  | SetTitle t => ret (display_set_title x t)
  | SetDescription t => ret (display_set_description x t)
  | SetResetAfter d => ret (display_set_reset_after x d)
  | SetResetValue v => ret (display_set_reset_value x v)
  | _ => no_such_function x
  end.

Definition constant_value_config (x : constant_value) (s : setting) : M constant_value :=
  match s with
  | SetName n => ret (constant_value_set_name x n)
  | SetTitle t => ret (constant_value_set_title x t)
  | SetDescription t => ret (constant_value_set_description x t)
  | _ => no_such_function x
  end.

(** [SetGroup]: [set_create_group_with_name] *)
Definition polling_config (x : polling) (s : setting) : M polling :=
  match s with
  | SetName n => ret (polling_set_name x n)
  | SetTitle t => ret (polling_set_title x t)
  | SetDescription t => ret (polling_set_description x t)
  | SetGroup b => ret (polling_set_create_group_with_name x b)
  | _ => no_such_function x
  end.

Definition panel_config {X} (x : panel X) (s : setting) : M (panel X) :=
  match s with
  | SetName n => ret (panel_set_name x n)
  | SetTitle t => ret (panel_set_title x t)
  | SetDescription t => ret (panel_set_description x t)
  | SetLimit d => ret (panel_set_inactivity_limit x d)
  | SetShowActivity b => ret (panel_set_show_activity_state x b)
  | _ => no_such_function x
  end.

Definition cockpit_config {X} (x : cockpit X) (s : setting) : M (cockpit X) :=
  match s with
  | SetName n => ret (cockpit_set_name x n)
  | SetTitle t => ret (cockpit_set_title x t)
  | SetDescription t => ret (cockpit_set_description x t)
  | SetLimit d => ret (cockpit_set_inactivity_limit x d)
  | SetShowActivity b => ret (cockpit_set_show_activity_state x b)
  | _ => no_such_function x
  end.

Definition tele_config {X} (x : tele X) (s : setting) : M (tele X) :=
  match s with
  | SetName n => ret (tele_set_name x n)
  | SetLimit d => ret (tele_set_inactivity_limit x d)
  | SetShowActivity b => ret (tele_set_show_activity_state x b)
  | _ => no_such_function x
  end.

Definition mount_config {X Y} (x : mount X Y) (s : setting) : M (mount X Y) :=
  match s with
  | SetName n => ret (mount_set_name x n)
  | SetLimit d => ret (mount_set_inactivity_limit x d)
  | _ => no_such_function x
  end.

(** ** Attaching labels to instruments *)

Section Attach.
  Context {X : ext} {I : Type}.

  (** instrument_adapter.rs 47-49, 51-53, 55-60 *)
  Definition adapter_for_label (l : lab X) (i : I) : adapter X I :=
    adapter_accept (from_label (lab_eqb X) l) i.
  Definition adapter_for_labels (ls : list (lab X)) (i : I) : adapter X I :=
    adapter_accept (from_vec (lab_eqb X) ls) i.
  Definition adapter_by_predicate (p : lab X -> bool) (i : I) : adapter X I :=
    adapter_accept (predicate p) i.

  (** instrument_adapter.rs 122-130 [From<I>] *)
  Definition adapter_from (i : I) : adapter X I := adapter_new i.

  (** The functions of the instruments. They are the same in counter.rs 94-135,
      meter.rs 141-182, value_meter.rs 146-187, histogram.rs 139-180, flag.rs
      118-159, staircase_timer.rs 164-205, occurrence_indicator.rs 161-202,
      non_occurrence_indicator.rs 166-207, last_occurrence_tracker.rs 119-160,
      display.rs 121-162. *)
  Definition instr_accept (i : I) (f : label_filter (lab X)) : adapter X I := adapter_accept f i.
  Definition instr_for_label (i : I) (l : lab X) : adapter X I :=
    instr_accept i (from_label (lab_eqb X) l).
  Definition instr_for_labels (i : I) (ls : list (lab X)) : adapter X I :=
    instr_accept i (from_vec (lab_eqb X) ls).
  Definition instr_for_all_labels (i : I) : adapter X I := instr_accept i accept_all.
  Definition instr_for_labels_by_predicate (i : I) (p : lab X -> bool) : adapter X I :=
    instr_accept i (predicate p).
  Definition instr_adapter (i : I) : adapter X I := adapter_deaf i.
End Attach.

Section AttachGauge.
  Context {L : Type} (eqb : L -> L -> bool).

  (** gauge_adapter.rs 36-38, 44-46, 50-55 *)
  Definition ga_for_label (l : L) (g : gauge) : gauge_adapter L := ga_accept (from_label eqb l) g.
  Definition ga_for_labels (ls : list L) (g : gauge) : gauge_adapter L := ga_accept (from_vec eqb ls) g.
  Definition ga_for_labels_by_predicate (p : L -> bool) (g : gauge) : gauge_adapter L :=
    ga_accept (predicate p) g.
  (** gauge_adapter.rs 70-72, 81-83, 87-92 *)
  Definition ga_for_label_deltas_only (l : L) (g : gauge) : gauge_adapter L :=
    ga_deltas_only (from_label eqb l) g.
  Definition ga_for_labels_deltas_only (ls : list L) (g : gauge) : gauge_adapter L :=
    ga_deltas_only (from_vec eqb ls) g.
  Definition ga_for_labels_deltas_only_by_predicate (p : L -> bool) (g : gauge) : gauge_adapter L :=
    ga_deltas_only (predicate p) g.
  (** gauge_adapter.rs 124-126, 130-144 *)
  Definition ga_inc_dec_on_many (inc dec : list L) (g : gauge) : gauge_adapter L :=
    ga_inc_dec_on (from_vec eqb inc) (from_vec eqb dec) g.
  Definition ga_inc_dec_by_predicates (inc dec : L -> bool) (g : gauge) : gauge_adapter L :=
    ga_inc_dec_on (predicate inc) (predicate dec) g.
  (** gauge_adapter.rs 228-235 [From<Gauge>] *)
  Definition ga_from (g : gauge) : gauge_adapter L := ga_new g.

  (** gauge/mod.rs 182-187, 191-193, 199-201, 205-207, 211-217, 221-223 *)
  Definition gauge_accept (g : gauge) (f : label_filter L) : gauge_adapter L := ga_accept f g.
  Definition gauge_for_label (g : gauge) (l : L) : gauge_adapter L := gauge_accept g (from_label eqb l).
  Definition gauge_for_labels (g : gauge) (ls : list L) : gauge_adapter L := gauge_accept g (from_vec eqb ls).
  Definition gauge_for_all_labels (g : gauge) : gauge_adapter L := gauge_accept g accept_all.
  Definition gauge_for_labels_by_predicate (g : gauge) (p : L -> bool) : gauge_adapter L :=
    gauge_accept g (predicate p).
  Definition gauge_adapter_of (g : gauge) : gauge_adapter L := ga_deaf g.
  (** gauge/mod.rs 225-230, 237-239, 248-250, 252-258 *)
  Definition gauge_deltas_only (g : gauge) (f : label_filter L) : gauge_adapter L := ga_deltas_only f g.
  Definition gauge_for_label_deltas_only (g : gauge) (l : L) : gauge_adapter L :=
    gauge_deltas_only g (from_label eqb l).
  Definition gauge_for_labels_deltas_only (g : gauge) (ls : list L) : gauge_adapter L :=
    gauge_deltas_only g (from_vec eqb ls).
  Definition gauge_for_labels_deltas_only_by_predicate (g : gauge) (p : L -> bool) : gauge_adapter L :=
    gauge_deltas_only g (predicate p).
  (** gauge/mod.rs 269-279, 290-296, 298-312 *)
  Definition gauge_inc_dec_on (g : gauge) (inc dec : label_filter L) : gauge_adapter L :=
    ga_inc_dec_on inc dec g.
  Definition gauge_inc_dec_on_many (g : gauge) (inc dec : list L) : gauge_adapter L :=
    gauge_inc_dec_on g (from_vec eqb inc) (from_vec eqb dec).
  Definition gauge_inc_dec_by_predicates (g : gauge) (inc dec : L -> bool) : gauge_adapter L :=
    gauge_inc_dec_on g (predicate inc) (predicate dec).
End AttachGauge.

(** ** DriverBuilder *)

Section Builder.
  Context {X : ext} {Y : pext}.

  (** driver.rs 24-46 *)
  Record builder := Builder {
    db_name : option string;
    db_title : option string;
    db_description : option string;
    db_strategy : strategy;
    db_metrics : bool
  }.

  (** driver.rs 91-101, 55-58, 49-53 *)
  Definition builder_default : builder := Builder None None None strategy_default true.
  Definition builder_set_name (b : builder) (n : string) : builder :=
    Builder (Some n) (db_title b) (db_description b) (db_strategy b) (db_metrics b).
  Definition builder_new (n : string) : builder := builder_set_name builder_default n.

  (** driver.rs 60-63, 65-68, 70-73, 75-78 *)
  Definition builder_set_title (b : builder) (t : string) : builder :=
    Builder (db_name b) (Some t) (db_description b) (db_strategy b) (db_metrics b).
  Definition builder_set_description (b : builder) (t : string) : builder :=
    Builder (db_name b) (db_title b) (Some t) (db_strategy b) (db_metrics b).
  Definition builder_set_processing_strategy (b : builder) (s : strategy) : builder :=
    Builder (db_name b) (db_title b) (db_description b) s (db_metrics b).
  Definition builder_set_driver_metrics (b : builder) (enabled : bool) : builder :=
    Builder (db_name b) (db_title b) (db_description b) (db_strategy b) enabled.

  (** driver.rs 80-88 and 175-216, 299-303. The thread is started, the handle
      and the loop get the same descriptives. *)
  Definition telemetry_driver_new (name title description : option string) (s : strategy)
    (with_driver_metrics : bool) : M (driver X Y) :=
    driver_start name (Descr title description) s with_driver_metrics.
  Definition builder_build (b : builder) : M (driver X Y) :=
    telemetry_driver_new (db_name b) (db_title b) (db_description b) (db_strategy b) (db_metrics b).
  Definition telemetry_driver_default : M (driver X Y) :=
    telemetry_driver_new None None None strategy_default true.

  (** One call of a function of the builder *)
  Inductive builder_call :=
  | BName (n : string)
  | BTitle (t : string)
  | BDescription (t : string)
  | BStrategy (s : strategy)
  | BMetrics (enabled : bool).

  Definition builder_config (b : builder) (c : builder_call) : builder :=
    match c with
    | BName n => builder_set_name b n
    | BTitle t => builder_set_title b t
    | BDescription t => builder_set_description b t
    | BStrategy s => builder_set_processing_strategy b s
    | BMetrics e => builder_set_driver_metrics b e
    end.
End Builder.
