(** Model of src/observation.rs, the increments of src/lib.rs and the
    conversions of src/instruments/mod.rs. *)
From Coq Require Import ZArith Bool List String Floats.SpecFloat.
From Verif Require Import Base.
Import ListNotations.
Open Scope Z_scope.

(** src/observation.rs 6-11 *)
Inductive time_unit := Nanoseconds | Microseconds | Milliseconds | Seconds.

(** src/observation.rs 13-17 *)
Definition time_unit_default : time_unit := Microseconds.

(** src/observation.rs 83-90. The payloads of the integer variants are kept in
    the range of their Rust type by the callers ([observed_value_ok]). *)
Inductive observed_value :=
| SignedInteger (v : Z)
| UnsignedInteger (v : Z)
| FloatValue (v : f64)
| BoolValue (v : bool)
| DurationValue (v : Z) (u : time_unit)
| ChangedBy (v : Z).

(** The values that can exist in the Rust program. *)
Definition observed_value_ok (v : observed_value) : Prop :=
  match v with
  | SignedInteger z => in_i64 z
  | UnsignedInteger z => in_u64 z
  | FloatValue f => f64_valid f = true
  | BoolValue _ => True
  | DurationValue z _ => in_u64 z
  | ChangedBy z => in_i64 z
  end.

(** src/observation.rs 105-114 *)
Definition value_is_delta (v : observed_value) : bool :=
  match v with
  | SignedInteger _ => false
  | UnsignedInteger _ => false
  | FloatValue _ => false
  | BoolValue _ => false
  | DurationValue _ _ => false
  | ChangedBy _ => true
  end.

(** src/observation.rs 27-42 *)
Inductive observation (L : Type) :=
| Observed (label : L) (count : Z) (timestamp : Z)
| ObservedOne (label : L) (timestamp : Z)
| ObservedOneValue (label : L) (value : observed_value) (timestamp : Z).
Arguments Observed {L}.
Arguments ObservedOne {L}.
Arguments ObservedOneValue {L}.

(** src/observation.rs 309-318 *)
Definition obs_label {L} (o : observation L) : L :=
  match o with
  | Observed l _ _ => l
  | ObservedOne l _ => l
  | ObservedOneValue l _ _ => l
  end.

(** src/observation.rs 320-328 and 337-343 *)
Definition obs_timestamp {L} (o : observation L) : Z :=
  match o with
  | Observed _ _ t => t
  | ObservedOne _ t => t
  | ObservedOneValue _ _ t => t
  end.

(** src/observation.rs 345-351 *)
Definition obs_is_delta {L} (o : observation L) : bool :=
  match o with
  | ObservedOneValue _ v _ => value_is_delta v
  | Observed _ _ _ => false
  | ObservedOne _ _ => false
  end.

(** src/observation.rs 183-188 [From<Duration>]: the duration is given in
    nanoseconds. *)
Definition value_of_duration {W} (d : Z) : St W observed_value :=
  let* s := mul_u64 (as_secs d) 1000000000 in
  let* nanos := add_u64 s (subsec_nanos d) in
  ret (DurationValue nanos Nanoseconds).

(** src/observation.rs 190-194 [From<(u64,TimeUnit)>] *)
Definition value_of_u64_unit (v : Z) (u : time_unit) : observed_value :=
  DurationValue v u.

(** src/observation.rs 196-215 [From<(Duration,TimeUnit)>] *)
Definition value_of_duration_unit {W} (d : Z) (u : time_unit) : St W observed_value :=
  match u with
  | Nanoseconds =>
      let* s := mul_u64 (as_secs d) 1000000000 in
      let* nanos := add_u64 s (subsec_nanos d) in
      ret (value_of_u64_unit nanos u)
  | Microseconds =>
      let* s := mul_u64 (as_secs d) 1000000 in
      let* micros := add_u64 s (subsec_nanos d / 1000) in
      ret (value_of_u64_unit micros u)
  | Milliseconds =>
      let* s := mul_u64 (as_secs d) 1000 in
      let* millis := add_u64 s (subsec_nanos d / 1000000) in
      ret (value_of_u64_unit millis u)
  | Seconds => ret (value_of_u64_unit (as_secs d) u)
  end.

(** src/lib.rs 147-161 *)
Inductive delta :=
| Increment
| IncrementBy (n : Z)     (* u32 *)
| Decrement
| DecrementBy (n : Z)     (* u32 *)
| ChangeBy (n : Z).       (* i64 *)

(** src/observation.rs 217-246 *)
Definition value_of_delta (d : delta) : observed_value :=
  match d with
  | Increment => ChangedBy 1
  | Decrement => ChangedBy (-1)
  | IncrementBy n => ChangedBy n
  | DecrementBy n => ChangedBy (- n)
  | ChangeBy n => ChangedBy n
  end.

(** ** Float to integer

    [f64::round]: to the nearest integer, half away from zero. The integer
    value of the (exactly representable) rounded float for a finite float. *)
Definition round_half_away (m : Z) (e : Z) : Z :=
  if 0 <=? e then m * 2 ^ e
  else (m + 2 ^ (- e - 1)) / 2 ^ (- e).

(** [as i64] / [as u64] on floats saturates; NaN gives 0. *)
Definition clamp (lo hi z : Z) : Z := Z.max lo (Z.min hi z).

(** [v.round() as <int>] *)
Definition round_as (lo hi : Z) (f : f64) : Z :=
  match f with
  | S754_zero _ => 0
  | S754_infinity true => lo
  | S754_infinity false => hi
  | S754_nan => 0
  | S754_finite s m e =>
      let r := round_half_away (Zpos m) e in
      clamp lo hi (if s then - r else r)
  end.

(** [std::i64::MAX as f64], [std::u64::MAX as f64] *)
Definition f64_i64_max : f64 := f64_of_Z i64_max.
Definition f64_u64_max : f64 := f64_of_Z u64_max.

(** src/observation.rs 249-271 *)
Definition convert_to_i64 (v : observed_value) : option Z :=
  match v with
  | SignedInteger v => Some v
  | UnsignedInteger v => if v <=? i64_max then Some v else None
  | FloatValue v => if f64_leb v f64_i64_max then Some (round_as i64_min i64_max v) else None
  | BoolValue _ => None
  | DurationValue _ _ => None
  | ChangedBy _ => None
  end.

(** src/observation.rs 273-295 *)
Definition convert_to_u64 (v : observed_value) : option Z :=
  match v with
  | SignedInteger v => if 0 <=? v then Some v else None
  | UnsignedInteger v => Some v
  | FloatValue v => if f64_leb v f64_u64_max then Some (round_as 0 u64_max v) else None
  | BoolValue _ => None
  | DurationValue _ _ => None
  | ChangedBy _ => None
  end.

(** src/observation.rs 297-306 *)
Definition convert_to_bool (v : observed_value) : option bool :=
  match v with
  | SignedInteger v => Some (negb (v =? 0))
  | UnsignedInteger v => Some (negb (v =? 0))
  | FloatValue _ => None
  | BoolValue v => Some v
  | DurationValue _ _ => None
  | ChangedBy _ => None
  end.

(** ** src/instruments/mod.rs *)

(** src/instruments/mod.rs 35-42 *)
Inductive update :=
| Observations (n : Z) (t : Z)
| OneObservation (t : Z)
| ObservationWithValue (v : observed_value) (t : Z).

(** src/instruments/mod.rs 45-50 *)
Definition upd_observed_value (u : update) : option observed_value :=
  match u with
  | ObservationWithValue v _ => Some v
  | OneObservation _ => None
  | Observations _ _ => None
  end.

(** src/instruments/mod.rs 58-79 and 85-105 [From<Observation>] *)
Definition split_observation {L} (o : observation L) : L * update :=
  match o with
  | Observed l n t => (l, Observations n t)
  | ObservedOne l t => (l, OneObservation t)
  | ObservedOneValue l v t => (l, ObservationWithValue v t)
  end.

(** src/instruments/mod.rs 125-145; [*] is a u64 multiplication *)
Definition duration_to_display_value {W} (time : Z) (current target : time_unit) : St W Z :=
  match current, target with
  | Nanoseconds, Nanoseconds => ret time
  | Nanoseconds, Microseconds => ret (time / 1000)
  | Nanoseconds, Milliseconds => ret (time / 1000000)
  | Nanoseconds, Seconds => ret (time / 1000000000)
  | Microseconds, Nanoseconds => mul_u64 time 1000
  | Microseconds, Microseconds => ret time
  | Microseconds, Milliseconds => ret (time / 1000)
  | Microseconds, Seconds => ret (time / 1000000)
  | Milliseconds, Nanoseconds => mul_u64 time 1000000
  | Milliseconds, Microseconds => mul_u64 time 1000
  | Milliseconds, Milliseconds => ret time
  | Milliseconds, Seconds => ret (time / 1000)
  | Seconds, Nanoseconds => mul_u64 time 1000000000
  | Seconds, Microseconds => mul_u64 time 1000000
  | Seconds, Milliseconds => mul_u64 time 1000
  | Seconds, Seconds => ret time
  end.
