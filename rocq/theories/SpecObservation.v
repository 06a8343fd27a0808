(** Specification of units of time and of the numbers which observed values
    stand for. *)
From Coq Require Import ZArith QArith Qabs Bool List Floats.SpecFloat.
From Verif Require Import Base ModelObservation.
Import ListNotations.
Open Scope Z_scope.

(** Nanoseconds of one unit *)
Definition nanos_in (u : time_unit) : Z :=
  match u with
  | Nanoseconds => 1
  | Microseconds => 1000
  | Milliseconds => 1000000
  | Seconds => 1000000000
  end.

(** The rational number a finite float stands for. *)
Definition float_number (f : f64) : option Q :=
  match f with
  | S754_zero _ => Some 0%Q
  | S754_finite s m e =>
      let v := if 0 <=? e then inject_Z (Zpos m * 2 ^ e)
               else (Zpos m # Z.to_pos (2 ^ (- e))) in
      Some (if s then (- v)%Q else v)
  | _ => None
  end.

(** [z] is the integer nearest to [q]; of two equally near ones it is the one
    further away from zero. *)
Definition nearest_half_away (q : Q) (z : Z) : Prop :=
  (Qabs (inject_Z z - q) < 1 # 2)%Q
  \/ ((Qabs (inject_Z z - q) == 1 # 2)%Q /\ (Qabs q < Qabs (inject_Z z))%Q).

(** The number an observed value stands for; durations and changes are not
    plain numbers. *)
Definition number (v : observed_value) : option Q :=
  match v with
  | SignedInteger z => Some (inject_Z z)
  | UnsignedInteger z => Some (inject_Z z)
  | FloatValue f => float_number f
  | BoolValue _ => None
  | DurationValue _ _ => None
  | ChangedBy _ => None
  end.
