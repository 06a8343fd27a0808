(** Model of src/instruments/histogram.rs over an abstract reservoir (crate
    exponential_decay_histogram). *)
From Coq Require Import ZArith Bool List String.
From Verif Require Import Base ModelObservation ModelSnapshot.
Import ListNotations.
Open Scope Z_scope.

(** What a snapshot of the reservoir offers. [hs_value] takes the quantile in
    per mille ([snapshot.value(0.25)] is [hs_value s 250]). *)
Record histo_snap := HistoSnap {
  hs_count : Z;
  hs_min : Z;
  hs_max : Z;
  hs_mean : f64;
  hs_stddev : f64;
  hs_value : Z -> Z
}.

(** The operations of [ExponentialDecayHistogram] that are used. They may read
    the clock and, being external, may do anything else, even panic. *)
Record histo_ops := HistoOps {
  histo : Type;
  histo_new : M histo;
  histo_update : histo -> Z -> M histo;
  histo_snapshot : histo -> histo_snap
}.

Section Histogram.
  Context (H : histo_ops).

  (** histogram.rs 13-23 *)
  Record histogram := Histogram {
    h_name : string;
    h_descr : descr;
    h_inner : histo H;
    h_last_update : Z;
    h_max_inactivity : option Z;
    h_reset_after_inactivity : bool;
    h_show_activity_state : bool;
    h_display_time_unit : time_unit
  }.

  (** histogram.rs 26-39 *)
  Definition histogram_new (name : string) : M histogram :=
    let* inner := histo_new H in
    let* t := now in
    ret (Histogram name no_descr inner t None true true time_unit_default).

  Definition histogram_with (h : histogram) (inner : histo H) (last : Z) : histogram :=
    Histogram (h_name h) (h_descr h) inner last (h_max_inactivity h)
      (h_reset_after_inactivity h) (h_show_activity_state h) (h_display_time_unit h).

  (** histogram.rs 249-254: [&&] only reads the clock if resetting is enabled *)
  Definition histogram_maybe_reset (h : histogram) : M histogram :=
    match h_max_inactivity h with
    | None => ret h
    | Some d =>
        if h_reset_after_inactivity h then
          let* e := elapsed (h_last_update h) in
          if d <? e then
            let* inner := histo_new H in
            ret (histogram_with h inner (h_last_update h))
          else ret h
        else ret h
    end.

  (** histogram.rs 259-260 and 266-267 *)
  Definition histogram_record (h : histogram) (v : Z) : M histogram :=
    let* inner := histo_update H (h_inner h) v in
    let* t := now in
    ret (histogram_with h inner t).

  (** histogram.rs 248-276; [d as i64] wraps *)
  Definition histogram_update (h : histogram) (u : update) : M (histogram * Z) :=
    let* h := histogram_maybe_reset h in
    match u with
    | ObservationWithValue (DurationValue time unit) _ =>
        let* d := duration_to_display_value time unit (h_display_time_unit h) in
        let* h := histogram_record h (wrap_i64 d) in
        ret (h, 1)
    | ObservationWithValue v _ =>
        match convert_to_i64 v with
        | Some v => let* h := histogram_record h v in ret (h, 1)
        | None => ret (h, 0)
        end
    | _ => ret (h, 0)
    end.

  Definition quantile_labels : list (string * Z) :=
    [("p25", 250); ("p50", 500); ("p75", 750); ("p95", 950); ("p98", 980); ("p99", 990);
     ("p999", 999)]%string.

  (** histogram.rs 207-234 and 311-337 *)
  Definition histogram_put_histo_values (h : histogram) (into : snapshot) : snapshot :=
    let s := histo_snapshot H (h_inner h) in
    if 0 <? hs_count s then
      let into := push into "count" (UInt (hs_count s)) in
      let into := push into "max" (Int (hs_max s)) in
      let into := push into "min" (Int (hs_min s)) in
      let into := push into "mean" (Float (hs_mean s)) in
      let into := push into "stddev" (Float (hs_stddev s)) in
      push into "quantiles"
        (ItemSnapshot (map (fun '(l, q) => (l, Int (hs_value s q))) quantile_labels))
    else push into "count" (UInt 0).

  (** The two activity fields; used by several components. *)
  Definition push_activity (into : snapshot) (active : bool) : snapshot :=
    push (push into "_inactive" (Boolean (negb active))) "_active" (Boolean active).

  (** histogram.rs 182-205 *)
  Definition histogram_put_values (h : histogram) (into : snapshot) : M snapshot :=
    let* is_active :=
      match h_max_inactivity h with
      | None => ret true
      | Some d => let* e := elapsed (h_last_update h) in ret (e <? d)
      end in
    let into :=
      match h_max_inactivity h with
      | Some _ => if h_show_activity_state h then push_activity into is_active else into
      | None => into
      end in
    if is_active : bool then ret (histogram_put_histo_values h into) else ret into.

  (** histogram.rs 239-246 *)
  Definition histogram_put (h : histogram) (descriptive : bool) (into : snapshot)
    : M snapshot :=
    let into := put_postfixed_descriptives (h_descr h) (h_name h) into descriptive in
    let* new_level := histogram_put_values h snapshot_default in
    ret (push into (h_name h) (ItemSnapshot new_level)).
End Histogram.
Arguments Histogram {H}.
Arguments h_name {H}.
Arguments h_descr {H}.
Arguments h_inner {H}.
Arguments h_last_update {H}.
Arguments h_max_inactivity {H}.
Arguments h_reset_after_inactivity {H}.
Arguments h_show_activity_state {H}.
Arguments h_display_time_unit {H}.
Arguments histogram_with {H}.
Arguments histogram_update {H}.
Arguments histogram_maybe_reset {H}.
Arguments histogram_record {H}.
Arguments histogram_put_histo_values {H}.
Arguments histogram_put_values {H}.
Arguments histogram_put {H}.
