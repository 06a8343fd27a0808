(** Model of src/instruments/gauge/{mod,tracking,gauge_adapter}.rs. *)
From Coq Require Import ZArith Bool List String.
From Verif Require Import Base ModelObservation ModelLabelFilter ModelSnapshot ModelBuckets.
Import ListNotations.
Open Scope Z_scope.

(** ** tracking.rs *)

(** tracking.rs 4-9 *)
Record bucket := Bucket {
  bk_sum : Z;
  bk_count : Z;
  bk_min : Z;
  bk_max : Z
}.

(** tracking.rs 4 [derive(Default)] *)
Definition bucket_default : bucket := Bucket 0 0 0 0.

(** tracking.rs 12-21 *)
Definition bucket_update {W} (b : bucket) (v : Z) : St W bucket :=
  let '(mn, mx) :=
    if negb (bk_count b =? 0)
    then (Z.min (bk_min b) v, Z.max (bk_max b) v)
    else (v, v) in
  let* s := add_i64 (bk_sum b) v in
  let* c := add_u64 (bk_count b) 1 in
  ret (Bucket s c mn mx).

(** tracking.rs 24-33 *)
Record buckets_stats := BucketsStats {
  bs_peak : Z;
  bs_peak_min : Z;
  bs_peak_avg : f64;
  bs_bottom : Z;
  bs_bottom_max : Z;
  bs_bottom_avg : f64;
  bs_avg : f64
}.

(** The local variables of [from_buckets], tracking.rs 40-47 *)
Record stats_acc := StatsAcc {
  sa_peak : Z; sa_peak_min : Z; sa_bottom : Z; sa_bottom_max : Z;
  sa_sum_bottom : Z; sa_sum_peak : Z; sa_total_sum : Z; sa_total_count : Z
}.

Definition stats_init : stats_acc := StatsAcc i64_min i64_max i64_max i64_min 0 0 0 0.

(** tracking.rs 49-68, the closure *)
Definition stats_step {W} (a : stats_acc) (b : bucket) : St W stats_acc :=
  if negb (bk_count b =? 0) then
    let* total_sum := add_i64 (sa_total_sum a) (bk_sum b) in
    let* total_count := add_u64 (sa_total_count a) (bk_count b) in
    let peak := Z.max (sa_peak a) (bk_max b) in
    let peak_min := Z.min (sa_peak_min a) (bk_max b) in
    let bottom := Z.min (sa_bottom a) (bk_min b) in
    let bottom_max := Z.max (sa_bottom_max a) (bk_min b) in
    let* sum_bottom := add_i64 (sa_sum_bottom a) (bk_min b) in
    let* sum_peak := add_i64 (sa_sum_peak a) (bk_max b) in
    ret (StatsAcc peak peak_min bottom bottom_max sum_bottom sum_peak total_sum total_count)
  else ret a.

Fixpoint stats_fold {W} (l : list bucket) (a : stats_acc) : St W stats_acc :=
  match l with
  | [] => ret a
  | b :: t => let* a' := stats_step a b in stats_fold t a'
  end.

(** tracking.rs 36-99 *)
Definition from_buckets (bs : buckets bucket) (current_value : option Z)
  : M (buckets bucket * option buckets_stats) :=
  let* '(bs, l) := iter bucket_default bs in
  let* a := stats_fold l stats_init in
  if negb (sa_total_count a =? 0) then
    let avg := f64_div (f64_of_Z (sa_total_sum a)) (f64_of_Z (sa_total_count a)) in
    let bottom_avg := f64_div (f64_of_Z (sa_sum_bottom a)) (f64_of_Z (buckets_len bs)) in
    let peak_avg := f64_div (f64_of_Z (sa_sum_peak a)) (f64_of_Z (buckets_len bs)) in
    ret (bs, Some (BucketsStats (sa_peak a) (sa_peak_min a) peak_avg
                     (sa_bottom a) (sa_bottom_max a) bottom_avg avg))
  else
    match current_value with
    | Some v =>
        ret (bs, Some (BucketsStats v v (f64_of_Z v) v v (f64_of_Z v) (f64_of_Z v)))
    | None => ret (bs, None)
    end.

(** tracking.rs 101-126 *)
Definition stats_add_to_snapshot (s : buckets_stats) (into : snapshot) (prefix : option string)
  : snapshot :=
  let prefix := match prefix with Some p => (p ++ "_")%string | None => ""%string end in
  let into := push into (prefix ++ "peak") (Int (bs_peak s)) in
  let into := push into (prefix ++ "peak_min") (Int (bs_peak_min s)) in
  let into := push into (prefix ++ "peak_avg") (Float (bs_peak_avg s)) in
  let into := push into (prefix ++ "bottom") (Int (bs_bottom s)) in
  let into := push into (prefix ++ "bottom_max") (Int (bs_bottom_max s)) in
  let into := push into (prefix ++ "bottom_avg") (Float (bs_bottom_avg s)) in
  push into (prefix ++ "avg") (Float (bs_avg s)).

(** ** mod.rs *)

(** gauge/mod.rs 58-66. [RefCell::try_borrow_mut] always succeeds: the gauge is
    only used from one thread and never re-entered. *)
Record gauge := Gauge {
  g_name : string;
  g_descr : descr;
  g_value : option Z;
  g_tracking : option (buckets bucket);
  g_display_time_unit : time_unit;
  g_group_values : bool
}.

(** gauge/mod.rs 70-80 *)
Definition gauge_new (name : string) : gauge :=
  Gauge name no_descr None None time_unit_default false.

(** gauge/mod.rs 167-171 *)
Definition gauge_set_tracking (g : gauge) (for_seconds : nat) : M gauge :=
  match for_seconds with
  | O => ret g
  | _ =>
      let* b := buckets_new bucket_default for_seconds in
      ret (Gauge (g_name g) (g_descr g) (g_value g) (Some b) (g_display_time_unit g)
                 (g_group_values g))
  end.

(** gauge/mod.rs 347-356; [value as i64] wraps *)
Definition gauge_next_value {W} (g : gauge) (current : option Z) (observed : observed_value)
  : St W (option Z) :=
  match observed with
  | ChangedBy d =>
      match current with
      | Some c => let* v := add_i64 c d in ret (Some v)
      | None => ret (Some d)
      end
  | DurationValue time unit =>
      let* value := duration_to_display_value time unit (g_display_time_unit g) in
      ret (Some (wrap_i64 value))
  | x =>
      match convert_to_i64 x with
      | Some v => ret (Some v)
      | None => ret current
      end
  end.

(** gauge/mod.rs 317-322 and 330-335: record a value when tracking *)
Definition gauge_track (t : option (buckets bucket)) (v : Z) : M (option (buckets bucket)) :=
  match t with
  | None => ret None
  | Some b =>
      let* b' := current_mut bucket_default b (fun x => bucket_update x v) in
      ret (Some b')
  end.

Definition gauge_with (g : gauge) (v : option Z) (t : option (buckets bucket)) : gauge :=
  Gauge (g_name g) (g_descr g) v t (g_display_time_unit g) (g_group_values g).

(** gauge/mod.rs 314-341 *)
Definition gauge_set (g : gauge) (observed : observed_value) : M gauge :=
  match g_value g with
  | Some value =>
      let* nv := gauge_next_value g (Some value) observed in
      match nv with
      | Some next_value =>
          let* t := gauge_track (g_tracking g) next_value in
          ret (gauge_with g (Some next_value) t)
      | None => ret (gauge_with g (Some value) (g_tracking g))
      end
  | None =>
      let* nv := gauge_next_value g None observed in
      match nv with
      | Some next_value =>
          let* t := gauge_track (g_tracking g) next_value in
          ret (gauge_with g (Some next_value) t)
      | None => ret (gauge_with g None (g_tracking g))
      end
  end.

(** gauge/mod.rs 99-104 [value]: set an initial value *)
Definition gauge_value (g : gauge) (v : Z) : M gauge := gauge_set g (SignedInteger v).

(** gauge/mod.rs 343-345 *)
Definition gauge_get (g : gauge) : option Z := g_value g.

(** gauge/mod.rs 397-405 *)
Definition gauge_update (g : gauge) (u : update) : M (gauge * Z) :=
  match u with
  | ObservationWithValue v _ => let* g' := gauge_set g v in ret (g', 1)
  | _ => ret (g, 0)
  end.

(** gauge/mod.rs 358-378 *)
Definition gauge_put_values (g : gauge) (into : snapshot) : M (gauge * snapshot) :=
  match g_value g with
  | None => ret (g, into)
  | Some value =>
      let '(into, prefix) :=
        if g_group_values g
        then (push into "current" (Int value), None)
        else (push into (g_name g) (Int value), Some (g_name g)) in
      match g_tracking g with
      | None => ret (g, into)
      | Some b =>
          let* '(b', stats) := from_buckets b (Some value) in
          let g' := gauge_with g (g_value g) (Some b') in
          match stats with
          | Some s => ret (g', stats_add_to_snapshot s into prefix)
          | None => ret (g', into)
          end
      end
  end.

(** gauge/mod.rs 383-394 *)
Definition gauge_put (g : gauge) (descriptive : bool) (into : snapshot)
  : M (gauge * snapshot) :=
  let into := put_postfixed_descriptives (g_descr g) (g_name g) into descriptive in
  if g_group_values g then
    let* '(g', new_level) := gauge_put_values g snapshot_default in
    ret (g', push into (g_name g) (ItemSnapshot new_level))
  else gauge_put_values g into.

(** ** gauge_adapter.rs *)

Section Adapter.
  Context {L : Type} (eqb : L -> L -> bool).

  (** gauge_adapter.rs 237-241 *)
  Inductive gauge_update_strategy :=
  | GFilter (f : label_filter L)
  | GDeltasOnly (f : label_filter L)
  | GIncDecOnLabels (inc dec : label_filter L).

  (** instrument_adapter.rs 6-17 [UpdateModifier] and its [modify] *)
  Definition update_modifier := option (L -> update -> update).
  Definition modify (m : update_modifier) (l : L) (u : update) : update :=
    match m with
    | None => u
    | Some f => f l u
    end.

  (** gauge_adapter.rs 10-14 *)
  Record gauge_adapter := GaugeAdapter {
    ga_strategy : gauge_update_strategy;
    ga_gauge : gauge;
    ga_modify_update : update_modifier
  }.

  Definition ga_with (a : gauge_adapter) (g : gauge) : gauge_adapter :=
    GaugeAdapter (ga_strategy a) g (ga_modify_update a).

  (** gauge_adapter.rs 22-35, 57-63, 103-113, 148-154 *)
  Definition ga_new (g : gauge) := GaugeAdapter (GFilter AcceptAll) g None.
  Definition ga_accept (f : label_filter L) (g : gauge) := GaugeAdapter (GFilter f) g None.
  Definition ga_deltas_only (f : label_filter L) (g : gauge) :=
    GaugeAdapter (GDeltasOnly f) g None.
  Definition ga_inc_dec_on (inc dec : label_filter L) (g : gauge) :=
    GaugeAdapter (GIncDecOnLabels inc dec) g None.
  Definition ga_deaf (g : gauge) := GaugeAdapter (GFilter AcceptNone) g None.

  (** gauge_adapter.rs 175-216 *)
  Definition ga_handle (a : gauge_adapter) (o : observation L) : M (gauge_adapter * Z) :=
    let '(label, upd) := split_observation o in
    match ga_strategy a with
    | GFilter f =>
        if negb (accepts eqb f label) then ret (a, 0)
        else
          let upd := modify (ga_modify_update a) label upd in
          let* '(g, n) := gauge_update (ga_gauge a) upd in
          ret (ga_with a g, n)
    | GDeltasOnly f =>
        if negb (accepts eqb f label) then ret (a, 0)
        else
          let upd := modify (ga_modify_update a) label upd in
          match upd with
          | ObservationWithValue (ChangedBy _) _ =>
              let* '(g, n) := gauge_update (ga_gauge a) upd in
              ret (ga_with a g, n)
          | _ => ret (a, 0)
          end
    | GIncDecOnLabels inc dec =>
        let timestamp := obs_timestamp o in
        if accepts eqb inc label then
          let* '(g, n) :=
            gauge_update (ga_gauge a) (ObservationWithValue (ChangedBy 1) timestamp) in
          ret (ga_with a g, n)
        else if accepts eqb dec label then
          let* '(g, n) :=
            gauge_update (ga_gauge a) (ObservationWithValue (ChangedBy (-1)) timestamp) in
          ret (ga_with a g, n)
        else ret (a, 0)
    end.

  (** gauge_adapter.rs 219-226 *)
  Definition ga_put (a : gauge_adapter) (descriptive : bool) (into : snapshot)
    : M (gauge_adapter * snapshot) :=
    let* '(g, into) := gauge_put (ga_gauge a) descriptive into in
    ret (ga_with a g, into).
End Adapter.
Arguments gauge_update_strategy : clear implicits.
Arguments gauge_adapter : clear implicits.
Arguments update_modifier : clear implicits.
