(** What an update counts for. *)
From Coq Require Import ZArith List.
From Verif Require Import Base SpecRun ModelObservation.
Import ListNotations.
Open Scope Z_scope.

(** Number of occurrences an update stands for. *)
Definition occurrences (u : update) : Z :=
  match u with
  | Observations n _ => n
  | OneObservation _ => 1
  | ObservationWithValue _ _ => 1
  end.

Definition total (us : list update) : Z := sum (map occurrences us).

(** Updates that can exist: the count of [Observations] is a u64. *)
Definition update_ok (u : update) : Prop :=
  match u with
  | Observations n _ => in_u64 n
  | OneObservation _ => True
  | ObservationWithValue v _ => observed_value_ok v
  end.
