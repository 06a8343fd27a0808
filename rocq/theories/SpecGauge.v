(** Specification of the value shown by a gauge. *)
From Coq Require Import ZArith QArith Bool List Floats.SpecFloat.
From Verif Require Import Base SpecRun SpecObservation ModelObservation.
Import ListNotations.
Open Scope Z_scope.

Inductive effect :=
| Sets (z : Z)
| Changes (d : Z)
| Nothing.

(** The effect an observed value is supposed to have on a gauge that displays
    durations in unit [u]. Numbers outside of the range of i64 which saturate
    (C25) and durations that do not fit i64 are left out. *)
Inductive value_effect (u : time_unit) : observed_value -> effect -> Prop :=
| eff_number : forall v q z,
    number v = Some q -> nearest_half_away q z -> in_i64 z -> value_effect u v (Sets z)
| eff_too_large : forall v q,
    number v = Some q -> (inject_Z two63 < q)%Q -> value_effect u v Nothing
| eff_bool : forall b, value_effect u (BoolValue b) Nothing
| eff_nan : value_effect u (FloatValue S754_nan) Nothing
| eff_infinity : value_effect u (FloatValue (S754_infinity false)) Nothing
| eff_duration : forall t a,
    t * nanos_in a / nanos_in u <= i64_max ->
    value_effect u (DurationValue t a) (Sets (t * nanos_in a / nanos_in u))
| eff_change : forall d, value_effect u (ChangedBy d) (Changes d).

(** The same for updates: only those with a value have an effect. *)
Inductive update_effect (u : time_unit) : update -> effect -> Prop :=
| eff_with_value : forall v t e,
    value_effect u v e -> update_effect u (ObservationWithValue v t) e
| eff_one : forall t, update_effect u (OneObservation t) Nothing
| eff_many : forall n t, update_effect u (Observations n t) Nothing.

(** The changes among some effects. *)
Fixpoint changes (es : list effect) : list Z :=
  match es with
  | [] => []
  | Changes d :: rest => d :: changes rest
  | _ :: rest => changes rest
  end.

Definition is_set (e : effect) : Prop := exists z, e = Sets z.
Definition no_sets (es : list effect) : Prop := Forall (fun e => ~ is_set e) es.

(** The exact value: the last one set (zero if none) plus all later changes;
    nothing if there was neither. *)
Inductive exact_value : list effect -> option Z -> Prop :=
| exact_set : forall pre z post,
    no_sets post -> exact_value (pre ++ Sets z :: post) (Some (z + sum (changes post)))
| exact_changes_only : forall es,
    no_sets es -> changes es <> [] -> exact_value es (Some (sum (changes es)))
| exact_nothing : forall es,
    no_sets es -> changes es = [] -> exact_value es None.

(** ** Gauges that react on labels *)

Section Labels.
  Context {L : Type}.

  (** The changes a deltas-only gauge has to follow: those of accepted labels.
      [m] is what the user's update modifier makes of an update. *)
  Definition accepted_change (acc : L -> bool) (m : L -> update -> update)
    (o : observation L) : list Z :=
    let '(l, u) := split_observation o in
    if acc l then
      match m l u with
      | ObservationWithValue (ChangedBy d) _ => [d]
      | _ => []
      end
    else [].

  Definition accepted_changes acc m (os : list (observation L)) : list Z :=
    flat_map (accepted_change acc m) os.

  (** How many observations have a label with property [p]. *)
  Definition how_many (p : L -> bool) (os : list (observation L)) : Z :=
    Z.of_nat (length (filter (fun o => p (fst (split_observation o))) os)).
End Labels.

(** A gauge value after some changes. *)
Definition changed_by (ds : list Z) (v : option Z) : option Z :=
  match ds, v with
  | [], _ => v
  | _, None => Some (sum ds)
  | _, Some z => Some (z + sum ds)
  end.
