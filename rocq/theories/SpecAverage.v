(** Specification of the exponentially weighted moving average, in exact
    arithmetic. *)
From Coq Require Import ZArith List Reals Floats.SpecFloat.
From Verif Require Import Base ModelMeter SpecMeter.
Import ListNotations.
Open Scope R_scope.

(** The average of some values, the newest one first: the newest one counts
    with the weight [alpha], all older ones with the rest. *)
Fixpoint averaged (alpha : R) (newest_first : list R) : R :=
  match newest_first with
  | [] => 0
  | [x] => x
  | x :: older => alpha * x + (1 - alpha) * averaged alpha older
  end.

(** Events per second in the intervals of five seconds that are complete at
    time [t], the newest one first. *)
Definition loads (start : Z) (l : marks) (t : Z) : list R :=
  map (fun i => IZR (marked_in start l (Z.of_nat i)) / 5) (rev (seq 0 (Z.to_nat (interval5 start t)))).

(** How far off a rate may be if no interval has more than [hi] events *)
Definition tolerance (alpha : R) (hi : Z) : R := IZR hi / 5 / 2 ^ 50 / alpha.

(** No smoothing factor is zero. *)
Definition positive_factors (al : alphas) : Prop :=
  SFltb f64_zero (alpha1 al) = true /\ SFltb f64_zero (alpha5 al) = true /\ SFltb f64_zero (alpha15 al) = true.
