(** Configuring in another order. *)
From Coq Require Import ZArith List Permutation.
From Verif Require Import Base SpecRun ModelConfig SpecConfig.
Import ListNotations.

(** Which option a setting is about *)
Definition option_of (s : setting) : nat :=
  match s with
  | SetName _ => 0 | SetTitle _ => 1 | SetDescription _ => 2 | SetGroup _ => 3 | SetUnit _ => 4 | SetTracking _ => 5
  | SetValue _ => 6 | SetCutoff _ => 7 | SetOneMinute _ => 8 | SetFiveMinutes _ => 9 | SetFifteenMinutes _ => 10
  | SetLimit _ => 11 | SetReset _ => 12 | SetShowActivity _ => 13 | SetState _ => 14 | SetShowInverted _ => 15
  | SetInvert _ => 16 | SetSwitchOffAfter _ => 17 | SetWithin _ => 18 | SetNoneZero _ => 19 | SetResetAfter _ => 20
  | SetResetValue _ => 21
  end.

(** At any given time, settings of different options for [x] can be exchanged. *)
Definition order_irrelevant {A} (config : A -> setting -> M A) (ok : list setting -> Prop) : Prop :=
  forall x l l' k t, NoDup (map option_of l) -> Permutation l l' -> ok l ->
  configured config x l k (frozen t) = configured config x l' k (frozen t).

Definition any (_ : list setting) : Prop := True.

(** A value and tracking are not both set. *)
Definition not_value_and_tracking (l : list setting) : Prop :=
  ~ exists v n, In (SetValue v) l /\ In (SetTracking n) l.
