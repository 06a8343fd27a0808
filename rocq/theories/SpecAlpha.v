(** Specification of the windows of a meter, in exact arithmetic. *)
From Coq Require Import ZArith List Reals.
From Verif Require Import Base SpecMeter FloatReal.
Open Scope R_scope.

(** An exponential function for doubles with an error of at most one unit in the
    last place below 1 *)
Definition accurate_exp (exp64 : f64 -> f64) : Prop := forall x, good x -> -1 <= real x <= 0 ->
  good (exp64 x) /\ Rabs (real (exp64 x) - exp (real x)) <= / 2 ^ 52.

(** A weight that leaves [1 / e] after the given number of minutes if it is applied
    every five seconds *)
Definition window_factor (minutes : nat) : R := 1 - exp (- (5 / 60) / INR minutes).

(** Nanoseconds *)
Definition minute : Z := 60000000000.

(** The same number of events in each interval of the last minutes *)
Definition steady (start : Z) (l : marks) (t : Z) (minutes : nat) (c : Z) : Prop :=
  (12 * Z.of_nat minutes < interval5 start t)%Z
  /\ forall i, (interval5 start t - 12 * Z.of_nat minutes <= i < interval5 start t)%Z -> marked_in start l i = c.
