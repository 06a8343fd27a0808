(** Model of src/instruments/instrument_adapter.rs, src/instruments/polled.rs and
    of the trait [Instrument] (src/instruments/mod.rs 111-120). *)
From Coq Require Import ZArith Bool String List.
From Verif Require Import Base ModelObservation ModelLabelFilter ModelSnapshot ModelCounter
  ModelGauge ModelMeter ModelHistogram ModelSwitches.
Import ListNotations.
Open Scope Z_scope.

(** Everything the library gets from outside: the label type with its [Eq], the
    smoothing factors (libm's [exp]), the reservoir of the histograms and the
    user's own instruments, handlers and snapshooters. The user's functions may
    do anything a function of the clock can do, even panic. A
    [TelemetryDriver] that is used as a snapshooter belongs to [user_snap].
    One label type is used for a whole tree; processors with different label
    types are covered by taking their disjoint union. *)
Record ext := Ext {
  lab : Type;
  lab_eqb : lab -> lab -> bool;
  ex_alphas : alphas;
  ex_histo : histo_ops;
  user_instr : Type;
  user_instr_update : user_instr -> update -> M (user_instr * Z);
  user_instr_put : user_instr -> bool -> snapshot -> M (user_instr * snapshot);
  user_handler : Type;
  user_handler_handle : user_handler -> observation lab -> M (user_handler * Z);
  user_handler_put : user_handler -> bool -> snapshot -> M (user_handler * snapshot);
  user_snap : Type;
  user_snap_put : user_snap -> bool -> snapshot -> M (user_snap * snapshot)
}.

(** The two activity fields are pushed by histogram.rs, panel.rs, cockpit.rs and
    processor.rs in the same way, see [push_activity]. *)

Section Instrument.
  Context (X : ext).

  (** The implementors of [Instrument]: counter.rs 138, gauge/mod.rs 381,
      meter.rs 239, value_meter.rs 244, histogram.rs 237, flag.rs 167,
      staircase_timer.rs 223, occurrence_indicator.rs 217,
      non_occurrence_indicator.rs 222, last_occurrence_tracker.rs 168,
      display.rs 178, and the user's. *)
  Inductive instrument :=
  | ICounter (i : counter)
  | IGauge (i : gauge)
  | IMeter (i : meter)
  | IValueMeter (i : value_meter)
  | IHistogram (i : histogram (ex_histo X))
  | IFlag (i : flag)
  | IStaircase (i : staircase_timer)
  | IOccurrence (i : occurrence_indicator)
  | INonOccurrence (i : non_occurrence_indicator)
  | ILastOccurrence (i : last_occurrence_tracker)
  | IDisplay (i : data_display)
  | IUser (i : user_instr X).

  (** Applies a constructor to the updated component. *)
  Definition wrap {A B C} (f : A -> B) (m : M (A * C)) : M (B * C) :=
    let* '(a, c) := m in ret (f a, c).

  (** A component without interior mutability is not changed by a snapshot. *)
  Definition keep {A C} (a : A) (m : M C) : M (A * C) := let* c := m in ret (a, c).

  (** [Updates::update], src/instruments/mod.rs 111-120 *)
  Definition instrument_update (i : instrument) (u : update) : M (instrument * Z) :=
    match i with
    | ICounter i => wrap ICounter (counter_update i u)
    | IGauge i => wrap IGauge (gauge_update i u)
    | IMeter i => wrap IMeter (meter_update i u)
    | IValueMeter i => wrap IValueMeter (value_meter_update i u)
    | IHistogram i => wrap IHistogram (histogram_update i u)
    | IFlag i => wrap IFlag (ret (flag_update i u))
    | IStaircase i => wrap IStaircase (staircase_update i u)
    | IOccurrence i => wrap IOccurrence (occurrence_update i u)
    | INonOccurrence i => wrap INonOccurrence (non_occurrence_update i u)
    | ILastOccurrence i => wrap ILastOccurrence (last_occurrence_update i u)
    | IDisplay i => wrap IDisplay (display_update i u)
    | IUser i => wrap IUser (user_instr_update X i u)
    end.

  (** [PutsSnapshot::put_snapshot] of the instruments *)
  Definition instrument_put (i : instrument) (descriptive : bool) (into : snapshot)
    : M (instrument * snapshot) :=
    match i with
    | ICounter i => keep (ICounter i) (ret (counter_put i descriptive into))
    | IGauge i => wrap IGauge (gauge_put i descriptive into)
    | IMeter i => wrap IMeter (meter_put i descriptive into)
    | IValueMeter i => wrap IValueMeter (value_meter_put i descriptive into)
    | IHistogram i => keep (IHistogram i) (histogram_put i descriptive into)
    | IFlag i => keep (IFlag i) (ret (flag_put i descriptive into))
    | IStaircase i => keep (IStaircase i) (staircase_put i descriptive into)
    | IOccurrence i => keep (IOccurrence i) (occurrence_put i descriptive into)
    | INonOccurrence i => keep (INonOccurrence i) (non_occurrence_put i descriptive into)
    | ILastOccurrence i => keep (ILastOccurrence i) (last_occurrence_put i descriptive into)
    | IDisplay i => keep (IDisplay i) (display_put i descriptive into)
    | IUser i => wrap IUser (user_instr_put X i descriptive into)
    end.

  (** instrument_adapter.rs 20-24 *)
  Record adapter (I : Type) := Adapter {
    ad_filter : label_filter (lab X);
    ad_instrument : I;
    ad_modify : update_modifier (lab X)
  }.
  Arguments Adapter {I}.
  Arguments ad_filter {I}.
  Arguments ad_instrument {I}.
  Arguments ad_modify {I}.

  (** instrument_adapter.rs 31-37, 39-45, 62-68, 70-78, 80-86 *)
  Definition adapter_new {I} (i : I) : adapter I := Adapter AcceptAll i None.
  Definition adapter_accept {I} (f : label_filter (lab X)) (i : I) : adapter I := Adapter f i None.
  Definition adapter_deaf {I} (i : I) : adapter I := Adapter AcceptNone i None.
  Definition adapter_accept_no_labels {I} (a : adapter I) : adapter I :=
    Adapter AcceptNone (ad_instrument a) (ad_modify a).
  Definition adapter_accept_all_labels {I} (a : adapter I) : adapter I :=
    Adapter AcceptAll (ad_instrument a) (ad_modify a).
  Definition adapter_modify_with {I} (a : adapter I) (f : lab X -> update -> update) : adapter I :=
    Adapter (ad_filter a) (ad_instrument a) (Some f).

  Definition adapter_with {I J} (a : adapter I) (i : J) : adapter J :=
    Adapter (ad_filter a) i (ad_modify a).

  (** instrument_adapter.rs 100-110 *)
  Definition adapter_handle {I} (upd : I -> update -> M (I * Z)) (a : adapter I)
    (o : observation (lab X)) : M (adapter I * Z) :=
    if negb (accepts (lab_eqb X) (ad_filter a) (obs_label o)) then ret (a, 0)
    else
      let '(label, u) := split_observation o in
      let u := modify (ad_modify a) label u in
      let* '(i, n) := upd (ad_instrument a) u in
      ret (adapter_with a i, n).

  (** instrument_adapter.rs 118-120 *)
  Definition adapter_put {I} (put : I -> bool -> snapshot -> M (I * snapshot)) (a : adapter I)
    (descriptive : bool) (into : snapshot) : M (adapter I * snapshot) :=
    let* '(i, into) := put (ad_instrument a) descriptive into in
    ret (adapter_with a i, into).

  (** polled.rs 111-116 *)
  Record constant_value := ConstantValue {
    cv_name : string;
    cv_descr : descr;
    cv_value : item_kind
  }.

  (** polled.rs 156-161 *)
  Definition constant_value_put (v : constant_value) (descriptive : bool) (into : snapshot)
    : snapshot :=
    push (put_postfixed_descriptives (cv_descr v) (cv_name v) into descriptive)
      (cv_name v) (cv_value v).

  (** The grouping of panel.rs 330-339, cockpit.rs 253-262, processor.rs 593-602
      and 741-750: a named component writes its values into a new level. *)
  Definition put_named {A} (name : option string) (values : snapshot -> M (A * snapshot))
    (into : snapshot) : M (A * snapshot) :=
    match name with
    | Some n =>
        let* '(a, new_level) := values snapshot_default in
        ret (a, push into n (ItemSnapshot new_level))
    | None => values into
    end.

  (** polled.rs 98-108 *)
  Definition polled_put {P} (poll : bool -> snapshot -> M (P * snapshot)) (name : string) (d : descr)
    (create_group : bool) (descriptive : bool) (into : snapshot) : M (P * snapshot) :=
    let into := put_postfixed_descriptives d name into descriptive in
    if create_group then
      let* '(p, new_level) := poll descriptive snapshot_default in
      ret (p, push into name (ItemSnapshot new_level))
    else poll descriptive into.

  (** The inactivity check of panel.rs 282-298, cockpit.rs 218-234 and processor.rs
      462-478: only made if the activity state is shown. [rest] writes the values. *)
  Definition check_activity {A} (limit : option Z) (show : bool) (last : Z) (a : A)
    (rest : snapshot -> M (A * snapshot)) (into : snapshot) : M (A * snapshot) :=
    match limit with
    | Some d =>
        if show then
          let* e := elapsed last in
          if d <? e then ret (a, push_activity into false)
          else rest (push_activity into true)
        else rest into
    | None => rest into
    end.
End Instrument.
Arguments ICounter {X}.
Arguments IGauge {X}.
Arguments IMeter {X}.
Arguments IValueMeter {X}.
Arguments IHistogram {X}.
Arguments IFlag {X}.
Arguments IStaircase {X}.
Arguments IOccurrence {X}.
Arguments INonOccurrence {X}.
Arguments ILastOccurrence {X}.
Arguments IDisplay {X}.
Arguments IUser {X}.
Arguments instrument_update {X}.
Arguments instrument_put {X}.
Arguments Adapter {X I}.
Arguments ad_filter {X I}.
Arguments ad_instrument {X I}.
Arguments ad_modify {X I}.
Arguments adapter_new {X I}.
Arguments adapter_accept {X I}.
Arguments adapter_deaf {X I}.
Arguments adapter_accept_no_labels {X I}.
Arguments adapter_accept_all_labels {X I}.
Arguments adapter_modify_with {X I}.
Arguments adapter_with {X I J}.
Arguments adapter_handle {X I}.
Arguments adapter_put {X I}.
