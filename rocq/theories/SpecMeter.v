(** Specification of meters: exponentially weighted averages of the rates of
    five-second intervals. *)
From Coq Require Import ZArith Bool String List Floats.SpecFloat.
From Verif Require Import Base SpecRun SpecCounting SpecGauge ModelObservation ModelSnapshot ModelMeter.
Import ListNotations.
Open Scope Z_scope.

(** Amounts marked, with the time, oldest first. *)
Definition marks := list (Z * Z).

(** Number of the five-second interval of [t], counted from [start]. *)
Definition interval5 (start t : Z) : Z := (t - start) / 5000000000.

(** What was marked in interval [i]. *)
Definition marked_in (start : Z) (l : marks) (i : Z) : Z :=
  sum (map snd (filter (fun e => interval5 start (fst e) =? i) l)).

(** Events per nanosecond of an interval with [n] events. *)
Definition interval_rate (n : Z) : f64 := f64_div (f64_of_Z n) (f64_of_Z 5000000000).

(** Exponential smoothing. *)
Definition smooth (alpha rate x : f64) : f64 :=
  f64_add rate (f64_mul alpha (f64_sub x rate)).

Definition smoothed (alpha : f64) (counts : list Z) : f64 :=
  match counts with
  | [] => f64_zero
  | n :: rest => fold_left (fun r n => smooth alpha r (interval_rate n)) rest (interval_rate n)
  end.

(** The amounts of all intervals that are complete at time [t]; amounts are
    collected in a usize. *)
Definition complete_intervals (start : Z) (l : marks) (t : Z) : list Z :=
  map (fun i => marked_in start l (Z.of_nat i) mod two64)
      (seq 0 (Z.to_nat (interval5 start t))).

(** The rate per second at time [t]. *)
Definition rate_at (alpha : f64) (start : Z) (l : marks) (t : Z) : f64 :=
  f64_mul (smoothed alpha (complete_intervals start l t)) (f64_of_Z 1000000000).

(** A rate below the cutoff is shown as zero. *)
Definition shown_rate (cutoff rate : f64) : f64 :=
  if SFltb rate cutoff then f64_zero else rate.

(** The rate per second of an interval with [n] events. *)
Definition interval_per_second (n : Z) : f64 := f64_mul (interval_rate n) (f64_of_Z 1000000000).

(** Neither infinite nor NaN. *)
Definition finite (f : f64) : bool :=
  match f with S754_zero _ | S754_finite _ _ _ => true | _ => false end.

(** A double between 0 and 1/2. *)
Definition smoothing_factor (alpha : f64) : Prop :=
  f64_valid alpha = true /\ SFleb f64_zero alpha = true
  /\ SFleb alpha (S754_finite false 4503599627370496 (-53)) = true.

Definition smoothing_factors (al : alphas) : Prop :=
  smoothing_factor (alpha1 al) /\ smoothing_factor (alpha5 al) /\ smoothing_factor (alpha15 al).

(** A rate is a number between zero and the rate of an interval with [hi] events. *)
Definition acceptable (hi : Z) (r : f64) : Prop :=
  finite r = true /\ SFleb f64_zero r = true /\ SFleb r (interval_per_second hi) = true.

(** The content of a meter in a snapshot. *)
Definition window_item (enabled : bool) (label : string) (rate : f64) : snapshot :=
  if enabled then [(label, ItemSnapshot [("rate"%string, Float rate)])] else [].

Definition meter_items (name : string) (count : Z) (one five fifteen : snapshot) : snapshot :=
  [(name, ItemSnapshot (("count"%string, UInt count) :: one ++ five ++ fifteen))].

(** What a snapshot shows at time [t], after the marks [l]. *)
Definition meter_shows (m : meter) (al : alphas) (start : Z) (l : marks) (t : Z) : snapshot :=
  let shown a := shown_rate (m_lower_cutoff m) (rate_at a start l t) in
  meter_items (m_name m) (sum (map snd l) mod two64)
    (window_item (m_one_minute m) "one_minute" (shown (alpha1 al)))
    (window_item (m_five_minute m) "five_minutes" (shown (alpha5 al)))
    (window_item (m_fifteen_minute m) "fifteen_minutes" (shown (alpha15 al))).

(** ** Histories *)

Inductive meter_op :=
| MUpdate (u : update)
| MSnapshot (descriptive : bool).

(** [t] is one of the clock readings taken while the clock went from [c] to [c']. *)
Definition read_during (c c' : clock) (t : Z) : Prop :=
  exists i j, (i < j)%nat /\ c' = Nat.iter j clock_tail c /\ t = c i.

Section Histories.
  Context {X : Type} (upd : X -> update -> M (X * Z))
          (put : X -> bool -> snapshot -> M (X * snapshot))
          (amount : update -> option Z).

  (** Some operations in a row. *)
  Fixpoint meter_run (x : X) (ops : list meter_op) : M X :=
    match ops with
    | [] => ret x
    | MUpdate u :: rest => let* '(x1, _) := upd x u in meter_run x1 rest
    | MSnapshot d :: rest => let* '(x1, _) := put x d [] in meter_run x1 rest
    end.

  (** Such a run and what it marked: every update that stands for an amount is
      marked once, at a time read while it was handled. *)
  Inductive metering (k : cfg) : X -> clock -> list meter_op -> marks -> X -> clock -> Prop :=
  | metering_nil : forall x c, metering k x c [] [] x c
  | metering_mark : forall x c u x1 r c1 n t ops l x' c',
      upd x u k c = Ok (x1, r) c1 -> amount u = Some n -> read_during c c1 t ->
      metering k x1 c1 ops l x' c' ->
      metering k x c (MUpdate u :: ops) ((t, n) :: l) x' c'
  | metering_ignore : forall x c u x1 r c1 ops l x' c',
      upd x u k c = Ok (x1, r) c1 -> amount u = None ->
      metering k x1 c1 ops l x' c' ->
      metering k x c (MUpdate u :: ops) l x' c'
  | metering_snapshot : forall x c d x1 s c1 ops l x' c',
      put x d [] k c = Ok (x1, s) c1 ->
      metering k x1 c1 ops l x' c' ->
      metering k x c (MSnapshot d :: ops) l x' c'.

  (** A history in which every operation takes no time. *)
  Fixpoint instant_run (k : cfg) (x : X) (h : list (Z * meter_op)) : option X :=
    match h with
    | [] => Some x
    | (t, o) :: rest =>
        match meter_run x [o] k (frozen t) with
        | Ok x' _ => instant_run k x' rest
        | _ => None
        end
    end.

  Definition instant_marks (h : list (Z * meter_op)) : marks :=
    flat_map (fun to => match snd to with
                        | MUpdate u => match amount u with
                                       | Some n => [(fst to, n)]
                                       | None => []
                                       end
                        | MSnapshot _ => []
                        end) h.
End Histories.

(** What an update stands for: a [Meter] counts occurrences (not more than
    i64::MAX at once), *)
Definition meter_amount (u : update) : option Z :=
  match u with
  | Observations n _ => if (0 <? n) && (n <=? i64_max) then Some n else None
  | _ => Some 1
  end.

(** The times do not decrease. *)
Inductive times_ordered : Z -> list (Z * meter_op) -> Z -> Prop :=
| tordered_nil : forall t q, t <= q -> times_ordered t [] q
| tordered_cons : forall t t' o h q, t <= t' -> times_ordered t' h q -> times_ordered t ((t', o) :: h) q.

(** ... and a [ValueMeter] with display unit [u] sums up values; changes and
    everything else without a number are ignored. *)
Inductive value_counts (u : time_unit) : update -> option Z -> Prop :=
| vc_number : forall v t z, value_effect u v (Sets z) ->
    value_counts u (ObservationWithValue v t) (Some z)
| vc_nothing : forall v t, value_effect u v Nothing ->
    value_counts u (ObservationWithValue v t) None
| vc_change : forall d t, value_counts u (ObservationWithValue (ChangedBy d) t) None
| vc_one : forall t, value_counts u (OneObservation t) None
| vc_many : forall n t, value_counts u (Observations n t) None.

(** Marks of a list of updates, without times. *)
Definition amounts (amount : update -> option Z) (ops : list meter_op) : list Z :=
  flat_map (fun o => match o with
                     | MUpdate u => match amount u with Some n => [n] | None => [] end
                     | MSnapshot _ => []
                     end) ops.

(** The numbers in the updates are numbers of their types. *)
Definition ops_ok (ops : list meter_op) : Prop :=
  Forall (fun o => match o with MUpdate u => update_ok u | MSnapshot _ => True end) ops.

(** [amount] gives the amounts a value meter with display unit [u] sums up. *)
Definition vm_ops_counted (u : time_unit) (amount : update -> option Z) (o : meter_op) : Prop :=
  match o with MUpdate up => update_ok up /\ value_counts u up (amount up) | MSnapshot _ => True end.

Definition is_update (to : Z * meter_op) : bool :=
  match snd to with MUpdate _ => true | MSnapshot _ => false end.
