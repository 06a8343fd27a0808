(** Specification of the tracking of a gauge: a sliding window of one-second
    records. *)
From Coq Require Import ZArith Bool String List.
From Verif Require Import Base SpecRun ModelObservation ModelSnapshot ModelBuckets ModelGauge.
Import ListNotations.
Open Scope Z_scope.

(** A log of what was recorded: (time, value), oldest first. *)
Definition log := list (Z * Z).

(** Number of the one-second interval of [t], counted from [t0]. *)
Definition interval (t0 t : Z) : Z := (t - t0) / 1000000000.

(** The values recorded in interval [p]. *)
Definition values_in {A} (t0 : Z) (l : list (Z * A)) (p : Z) : list A :=
  map snd (filter (fun e => interval t0 (fst e) =? p) l).

(** The [n] most recent intervals at time [q], newest first. *)
Definition window {A} (t0 : Z) (n : nat) (q : Z) (l : list (Z * A)) : list (list A) :=
  map (fun j => values_in t0 l (interval t0 q - Z.of_nat j)) (seq 0 n).

(** [x] is the largest/smallest element of [l]. *)
Definition is_max (l : list Z) (x : Z) : Prop := In x l /\ Forall (fun y => y <= x) l.
Definition is_min (l : list Z) (x : Z) : Prop := In x l /\ Forall (fun y => x <= y) l.

(** [xs] are the maxima/minima of the non-empty lists among [ws]. *)
Inductive each (rel : list Z -> Z -> Prop) : list (list Z) -> list Z -> Prop :=
| each_nil : each rel [] []
| each_empty : forall ws xs, each rel ws xs -> each rel ([] :: ws) xs
| each_cons : forall w ws x xs,
    w <> [] -> rel w x -> each rel ws xs -> each rel (w :: ws) (x :: xs).

(** The number of values. *)
Definition how_many_values (ws : list (list Z)) : Z := Z.of_nat (length (concat ws)).

(** What the statistics of a window have to be. The sums of all values, of the
    maxima and of the minima have to be i64. *)
Definition stats_of (ws : list (list Z)) (s : buckets_stats) : Prop :=
  exists maxima minima,
    each is_max ws maxima /\ each is_min ws minima
    /\ is_max (concat ws) (bs_peak s)
    /\ is_min maxima (bs_peak_min s)
    /\ is_min (concat ws) (bs_bottom s)
    /\ is_max minima (bs_bottom_max s)
    /\ (in_i64 (sum (concat ws)) ->
        bs_avg s = f64_div (f64_of_Z (sum (concat ws))) (f64_of_Z (how_many_values ws)))
    (* the averages of peaks and bottoms divide by the number of all records,
       also of the empty ones: see C07 *)
    /\ (in_i64 (sum maxima) ->
        bs_peak_avg s = f64_div (f64_of_Z (sum maxima)) (f64_of_Z (Z.of_nat (length ws))))
    /\ (in_i64 (sum minima) ->
        bs_bottom_avg s = f64_div (f64_of_Z (sum minima)) (f64_of_Z (Z.of_nat (length ws)))).

(** ... and when nothing was recorded in the window. *)
Definition stats_of_nothing (current : Z) (s : buckets_stats) : Prop :=
  s = BucketsStats current current (f64_of_Z current) current current (f64_of_Z current)
        (f64_of_Z current).

(** ** Histories of a gauge *)

Inductive gauge_op :=
| GObserve (u : update)
| GSnapshot (descriptive : bool).

(** Runs a history, every operation with its own clock, and keeps the log of the
    values which the gauge took: one entry for every observation with a value,
    with the first reading of its clock. *)
Fixpoint gauge_history (k : cfg) (g : gauge) (h : list (clock * gauge_op))
  : option (gauge * log) :=
  match h with
  | [] => Some (g, [])
  | (c, GObserve u) :: rest =>
      match gauge_update g u k c with
      | Ok (g1, _) _ =>
          let entry := match u, gauge_get g1 with
                       | ObservationWithValue _ _, Some v => [(c O, v)]
                       | _, _ => []
                       end in
          match gauge_history k g1 rest with
          | Some (g2, l) => Some (g2, entry ++ l)
          | None => None
          end
      | _ => None
      end
  | (c, GSnapshot d) :: rest =>
      match gauge_put g d [] k c with
      | Ok (g1, _) _ => gauge_history k g1 rest
      | _ => None
      end
  end.

(** The times do not decrease. *)
Inductive ordered : Z -> list (clock * gauge_op) -> Z -> Prop :=
| ordered_nil : forall t q, t <= q -> ordered t [] q
| ordered_cons : forall t c o h q, t <= c O -> ordered (c O) h q -> ordered t ((c, o) :: h) q.

(** ** Histories of records of any type [T], updated by [upd] *)

Inductive record_op (A : Type) :=
| RRecord (a : A)
| RRead.
Arguments RRecord {A} a.
Arguments RRead {A}.

Section Records.
  Context {T A : Type} (default : T) (upd : T -> A -> T).

  Fixpoint record_history (k : cfg) (b : buckets T) (h : list (clock * record_op A))
    : option (buckets T) :=
    match h with
    | [] => Some b
    | (c, RRecord a) :: rest =>
        match current_mut default b (fun x => ret (upd x a)) k c with
        | Ok b1 _ => record_history k b1 rest
        | _ => None
        end
    | (c, RRead) :: rest =>
        match iter default b k c with
        | Ok (b1, _) _ => record_history k b1 rest
        | _ => None
        end
    end.

  (** What was recorded, and when. *)
  Definition recorded (h : list (clock * record_op A)) : list (Z * A) :=
    flat_map (fun co => match snd co with RRecord a => [(fst co O, a)] | RRead => [] end) h.

  Inductive records_ordered : Z -> list (clock * record_op A) -> Z -> Prop :=
  | rordered_nil : forall t q, t <= q -> records_ordered t [] q
  | rordered_cons : forall t c o h q,
      t <= c O -> records_ordered (c O) h q -> records_ordered t ((c, o) :: h) q.
End Records.

(** The items of the statistics. *)
Definition stats_items (prefix : string) (s : buckets_stats) : snapshot :=
  [ (prefix ++ "peak", Int (bs_peak s));
    (prefix ++ "peak_min", Int (bs_peak_min s));
    (prefix ++ "peak_avg", Float (bs_peak_avg s));
    (prefix ++ "bottom", Int (bs_bottom s));
    (prefix ++ "bottom_max", Int (bs_bottom_max s));
    (prefix ++ "bottom_avg", Float (bs_bottom_avg s));
    (prefix ++ "avg", Float (bs_avg s)) ]%string.
