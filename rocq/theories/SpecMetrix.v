(** Specification of the driver's own metrics: instruments that are told about every
    collection and every snapshot. *)
From Coq Require Import ZArith Bool String List.
From Verif Require Import Base SpecRun SpecClock ModelObservation ModelLabelFilter ModelSnapshot ModelGauge ModelMeter ModelHistogram
  ModelSwitches ModelInstrument ModelTree ModelChannel ModelProcessor ModelDriver SpecTree SpecQueue SpecCollect SpecDriver SpecSite
  SpecWriting SpecCounting SpecGauge SpecMeter SpecHistogram SpecLife.
From Verif Require SpecConfig.
Import ListNotations.
Open Scope string_scope.
Open Scope list_scope.
Open Scope Z_scope.

Section Metrix.
  Context (X : ext).

  (** One label and nothing of a user; meters and histograms as in [X] *)
  Definition own : ext :=
    Ext unit (fun _ _ => true) (ex_alphas X) (ex_histo X)
      Empty_set (fun u => match u with end) (fun u => match u with end)
      Empty_set (fun u => match u with end) (fun u => match u with end)
      Empty_set (fun u => match u with end).

  Definition own_meter (m : meter) : leaf own := LInstrument (IMeter m : instrument own) None.
  Definition own_histogram (h : histogram (ex_histo X)) : leaf own := LInstrument (IHistogram (h : histogram (ex_histo own)) : instrument own) None.
  Definition own_staircase (t : staircase_timer) : leaf own := LInstrument (IStaircase t : instrument own) None.
  Definition own_absence (t : non_occurrence_indicator) : leaf own := LInstrument (INonOccurrence t : instrument own) None.
  Definition own_gauge (g : gauge) : leaf own := LGauge (GaugeAdapter (GFilter AcceptAll) g None : gauge_adapter (lab own)).

  (** In the order of [metrix_names] *)
  Definition metrics_of (i : driver_instruments X) : list (leaf own) :=
    [own_meter (di_collections_per_second i); own_histogram (di_collection_times_us i);
     own_meter (di_observations_processed_per_second i); own_histogram (di_observations_processed_per_collection i);
     own_meter (di_observations_dropped_per_second i); own_histogram (di_observations_dropped_per_collection i);
     own_gauge (di_observations_enqueued i); own_meter (di_instruments_updated_per_second i);
     own_meter (di_snapshots_per_second i); own_histogram (di_snapshots_times_us i);
     own_staircase (di_dropped_observations_alarm i); own_absence (di_inactivity_alarm i);
     own_gauge (di_per_mille_ratio i); own_histogram (di_per_mille_ratio_histo i)].

  (** ** What they are told *)

  (** A collection: when its iteration began, when it began and ended itself, when
      it was recorded; if the iteration was not busy, also when the time of the
      iteration was taken and when the ratio was recorded *)
  Record run := Run {
    ru_iteration : Z;
    ru_started : Z;
    ru_finished : Z;
    ru_outcome : outcome;
    ru_at : Z;
    ru_ratio : option (Z * Z)
  }.

  (** A snapshot: when it was begun and when it was recorded *)
  Definition shot := (Z * Z)%type.

  (** A length of time in nanoseconds *)
  Definition took (d : Z) : observed_value := DurationValue (Z.max 0 d mod two64) Nanoseconds.

  (** The share of [time] in [whole], in parts of thousand *)
  Definition per_mille (time whole : Z) : Z :=
    f64_as_u64 (f64_mul (f64_div (as_secs_f64 (Z.max 0 time)) (as_secs_f64 (Z.max 0 whole))) (f64_of_Z 1000)).

  (** Every collection *)
  Definition each (say : run -> observation unit) (rs : list run) : list (observation unit) := map say rs.
  (** Every collection in which there were some *)
  Definition some (amount : outcome -> Z) (say : Z -> Z -> observation unit) (rs : list run) : list (observation unit) :=
    flat_map (fun r => if 0 <? amount (ru_outcome r) then [say (amount (ru_outcome r)) (ru_at r)] else []) rs.
  (** Every collection with a ratio *)
  Definition ratios (rs : list run) : list (observation unit) :=
    flat_map (fun r => match ru_ratio r with
                       | Some (y, z) => [ObservedOneValue tt (UnsignedInteger (per_mille (ru_finished r - ru_started r) (y - ru_iteration r))) z]
                       | None => []
                       end) rs.

  Definition told (rs : list run) (ss : list shot) : list (list (observation unit)) :=
    [each (fun r => ObservedOne tt (ru_at r)) rs;
     each (fun r => ObservedOneValue tt (took (ru_at r - ru_started r)) (ru_at r)) rs;
     some oc_processed (fun n t => Observed tt n t) rs;
     some oc_processed (fun n t => ObservedOneValue tt (UnsignedInteger n) t) rs;
     some oc_dropped (fun n t => Observed tt n t) rs;
     some oc_dropped (fun n t => ObservedOneValue tt (UnsignedInteger n) t) rs;
     each (fun r => ObservedOneValue tt (UnsignedInteger (oc_enqueued (ru_outcome r))) (ru_at r)) rs;
     some oc_instruments_updated (fun n t => Observed tt n t) rs;
     map (fun s => ObservedOne tt (snd s)) ss;
     map (fun s => ObservedOneValue tt (took (snd s - fst s)) (snd s)) ss;
     some oc_dropped (fun n t => ObservedOne tt t) rs;
     each (fun r => ObservedOne tt (ru_at r)) rs;
     ratios rs;
     ratios rs].

  (** Every one of them lives through its own observations. *)
  Inductive live (k : cfg) (c c' : clock) : list (leaf own) -> list (list (observation unit)) -> list (leaf own) -> Prop :=
  | lv_nil : live k c c' [] [] []
  | lv_cons : forall x os x' xs oss xs',
      leaf_life k c x os x' c' -> live k c c' xs oss xs' -> live k c c' (x :: xs) (os :: oss) (x' :: xs').

  (** Every one of them writes some of the fields, one after the other. *)
  Inductive display (k : cfg) (de : bool) : clock -> list (leaf own) -> snapshot -> snapshot -> clock -> Prop :=
  | dp_nil : forall c c' before, later c c' -> display k de c [] before [] c'
  | dp_cons : forall c c0 x x' before fields c1 xs rest c',
      later c c0 -> leaf_put x de before k c0 = Ok (x', before ++ fields) c1 ->
      display k de c1 xs (before ++ fields) rest c' -> display k de c (x :: xs) before (fields ++ rest) c'.

  (** ** When *)

  (** Iterations with many observations or with losses are followed by the next
      one without a pause. *)
  Definition busy (o : outcome) : Prop := 0 < oc_dropped o \/ 100 < oc_processed o.

  Definition timed_ratio (r : run) (over : Z) : Prop :=
    match ru_ratio r with
    | Some (y, z) => ~ busy (ru_outcome r) /\ ru_at r <= y /\ ru_iteration r < y /\ y <= z /\ z <= over
    | None => busy (ru_outcome r) \/ exists y, ru_at r <= y <= over /\ f64_ltb f64_zero (as_secs_f64 (y - ru_iteration r)) = false
    end.

  Inductive timeline (b : Z) : Z -> list run -> list (Z * outcome * Z) -> Prop :=
  | tl_nil : forall a, a <= b -> timeline b a [] []
  | tl_run : forall a r over rs log,
      a <= ru_iteration r -> ru_iteration r <= ru_started r -> ru_started r <= ru_finished r -> ru_finished r <= ru_at r -> ru_at r <= over ->
      timed_ratio r over -> timeline b over rs log ->
      timeline b a (r :: rs) ((ru_finished r, ru_outcome r, over) :: log).

  Inductive shots (b : Z) : Z -> list shot -> Prop :=
  | sh_nil : forall a, a <= b -> shots b a []
  | sh_shot : forall a x y ss, a <= x -> x <= y -> shots b y ss -> shots b a ((x, y) :: ss).

  (** ** What they show *)

  (** No collection deals with more than [i64::MAX] of anything. *)
  Definition modest (log : list (Z * outcome * Z)) : Prop :=
    Forall (fun e => oc_processed (snd (fst e)) <= i64_max /\ oc_dropped (snd (fst e)) <= i64_max
                     /\ oc_instruments_updated (snd (fst e)) <= i64_max /\ oc_enqueued (snd (fst e)) <= i64_max) log.

  (** The amounts of the collections that had some *)
  Definition amounts (f : outcome -> Z) (log : list (Z * outcome * Z)) : list Z :=
    filter (fun n => 0 <? n) (map (fun e => f (snd (fst e))) log).

  Definition shows (inner : snapshot) (name : string) (P : item_kind -> Prop) : Prop :=
    exists v, lookup name inner = Some v /\ P v.

  (** The sum of the amounts and their rate; between [b] and [e] everything *)
  Definition rate_of (b e : Z) (ns : list Z) (v : item_kind) : Prop :=
    exists start l t, map snd l = ns /\ b <= start /\ between start t l /\ t <= e
      /\ v = ItemSnapshot (("count", UInt (sum ns mod two64))
                           :: window_item true "one_minute" (shown_rate SpecConfig.one_thousandth (rate_at (alpha1 (ex_alphas X)) start l t))).

  (** The statistics of the samples *)
  Definition statistics_of (contents : histo (ex_histo X) -> list Z) (ns : list Z) (v : item_kind) : Prop :=
    exists h, contents h = ns /\ v = ItemSnapshot (statistics (histo_snapshot (ex_histo X) h) (List.length ns)).

  (** The last one *)
  Definition last_one (ns : list Z) (v : item_kind) : Prop :=
    match rev ns with
    | [] => v = ItemSnapshot []
    | z :: _ => exists rest, v = ItemSnapshot (("current", Int z) :: rest)
    end.

  Definition micros (d : Z) : Z := (d mod two64) / 1000.

  Record figures (contents : histo (ex_histo X) -> list Z) (b e : Z) (rs : list run) (ss : list shot) (log : list (Z * outcome * Z))
    (inner : snapshot) : Prop := Figures {
    fi_names : keys inner = metrix_names;
    fi_collections : shows inner "collections_per_second" (rate_of b e (map (fun _ => 1) log));
    fi_collection_times : shows inner "collection_times_us" (statistics_of contents (map (fun r => micros (ru_at r - ru_started r)) rs));
    fi_processed : shows inner "observations_processed_per_second" (rate_of b e (amounts oc_processed log));
    fi_processed_per_collection : shows inner "observations_processed_per_collection" (statistics_of contents (amounts oc_processed log));
    fi_dropped : shows inner "observations_dropped_per_second" (rate_of b e (amounts oc_dropped log));
    fi_dropped_per_collection : shows inner "observations_dropped_per_collection" (statistics_of contents (amounts oc_dropped log));
    fi_enqueued : shows inner "observations_enqueued" (last_one (map (fun x => oc_enqueued (snd (fst x))) log));
    fi_updated : shows inner "instruments_updated_per_second" (rate_of b e (amounts oc_instruments_updated log));
    fi_snapshots : shows inner "snapshots_per_second" (rate_of b e (map (fun _ => 1) ss));
    fi_snapshot_times : shows inner "snapshots_times_us" (statistics_of contents (map (fun s => micros (snd s - fst s)) ss))
  }.
End Metrix.

(** A gauge without a value that tracks the values of the last minute, second by
    second, and shows its figures in a group *)
Definition tracks_a_minute (g : gauge) : Prop :=
  g_value g = None /\ g_group_values g = true
  /\ exists b, g_tracking g = Some b /\ ModelBuckets.b_buckets b = repeat bucket_default 60.
