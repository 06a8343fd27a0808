(** C24, C25, C26: conversion of observed values. *)
From Coq Require Import ZArith QArith Bool List Floats.SpecFloat.
From Verif Require Import Base SpecRun SpecObservation ModelObservation ObservationProofs FloatProofs.
Import ListNotations.
Open Scope Z_scope.

(** ** C24: time units *)

(** The displayed number is the exact quotient, rounded down, whenever it fits
    u64; this is always so when converting to a coarser or equal unit. *)
Theorem c24_display_exact : forall W t a b k (w : W),
  in_u64 t -> t * nanos_in a / nanos_in b <= u64_max ->
  duration_to_display_value t a b k w = Ok (t * nanos_in a / nanos_in b) w.
Proof. exact display_fits. Qed.
Print Assumptions c24_display_exact.

Example c24_display_exact_case :
  duration_to_display_value 1999999999 Nanoseconds Milliseconds debug tt = Ok 1999 tt
  /\ duration_to_display_value 18446744073 Seconds Nanoseconds debug tt
     = Ok 18446744073000000000 tt.
Proof. split; reflexivity. Qed.

Theorem c24_display_coarser_never_fails : forall W t a b k (w : W),
  in_u64 t -> nanos_in a <= nanos_in b ->
  duration_to_display_value t a b k w = Ok (t * nanos_in a / nanos_in b) w.
Proof. exact display_coarser. Qed.
Print Assumptions c24_display_coarser_never_fails.

Example c24_display_coarser_case :
  duration_to_display_value u64_max Microseconds Seconds debug tt = Ok 18446744073709 tt.
Proof. reflexivity. Qed.

(** Otherwise: panic with overflow checks, the number modulo 2^64 without. *)
Theorem c24_display_too_large : forall W t a b k (w : W),
  in_u64 t -> t * nanos_in a / nanos_in b > u64_max ->
  duration_to_display_value t a b k w
  = if overflow_checks k then Panic else Ok ((t * nanos_in a / nanos_in b) mod two64) w.
Proof. exact display_too_large. Qed.
Print Assumptions c24_display_too_large.

Example c24_display_too_large_case :
  duration_to_display_value 18446744074 Seconds Nanoseconds debug tt = Panic
  /\ duration_to_display_value 18446744074 Seconds Nanoseconds release tt = Ok 290448384 tt.
Proof. split; reflexivity. Qed.

(** To a finer unit and back: the identity. *)
Theorem c24_display_finer_and_back : forall W t a b k (w : W),
  in_u64 t -> nanos_in b <= nanos_in a -> t * nanos_in a / nanos_in b <= u64_max ->
  exists d, duration_to_display_value t a b k w = Ok d w
            /\ duration_to_display_value d b a k w = Ok t w.
Proof. exact display_finer_and_back. Qed.
Print Assumptions c24_display_finer_and_back.

Example c24_display_finer_and_back_case :
  duration_to_display_value 77 Seconds Microseconds debug tt = Ok 77000000 tt
  /\ duration_to_display_value 77000000 Microseconds Seconds debug tt = Ok 77 tt.
Proof. split; reflexivity. Qed.

(** To a coarser unit and back: never more, and less than one coarse unit
    lost. *)
Theorem c24_display_coarser_and_back : forall W t a b k (w : W),
  in_u64 t -> nanos_in a <= nanos_in b ->
  exists d r, duration_to_display_value t a b k w = Ok d w
              /\ duration_to_display_value d b a k w = Ok r w
              /\ r <= t /\ (t - r) * nanos_in a < nanos_in b.
Proof. exact display_coarser_and_back. Qed.
Print Assumptions c24_display_coarser_and_back.

Example c24_display_coarser_and_back_case :
  duration_to_display_value 1999 Microseconds Milliseconds debug tt = Ok 1 tt
  /\ duration_to_display_value 1 Milliseconds Microseconds debug tt = Ok 1000 tt.
Proof. split; reflexivity. Qed.

(** A [Duration] observed without a unit is exactly its nanoseconds. *)
Theorem c24_duration_exact : forall W d k (w : W),
  0 <= d <= u64_max -> value_of_duration d k w = Ok (DurationValue d Nanoseconds) w.
Proof. exact duration_value_fits. Qed.
Print Assumptions c24_duration_exact.

Example c24_duration_exact_case :
  value_of_duration 12345678901 debug tt = Ok (DurationValue 12345678901 Nanoseconds) tt.
Proof. reflexivity. Qed.

Theorem c24_duration_too_large : forall W d k (w : W),
  u64_max < d ->
  value_of_duration d k w
  = if overflow_checks k then Panic else Ok (DurationValue (d mod two64) Nanoseconds) w.
Proof. exact duration_value_too_large. Qed.
Print Assumptions c24_duration_too_large.

Example c24_duration_too_large_case :
  value_of_duration 18446744073709551617 release tt = Ok (DurationValue 1 Nanoseconds) tt
  /\ value_of_duration 18446744073709551617 debug tt = Panic.
Proof. split; reflexivity. Qed.

(** A [Duration] observed with a unit is the truncated number of units. *)
Theorem c24_duration_with_unit : forall W d u k (w : W),
  0 <= d -> d / nanos_in u <= u64_max ->
  value_of_duration_unit d u k w = Ok (DurationValue (d / nanos_in u) u) w.
Proof. exact duration_unit_value_fits. Qed.
Print Assumptions c24_duration_with_unit.

Example c24_duration_with_unit_case :
  value_of_duration_unit 1234567891234 Microseconds debug tt
  = Ok (DurationValue 1234567891 Microseconds) tt.
Proof. reflexivity. Qed.

(** ** C25: numbers *)

(** Whatever the kind of the value (signed, unsigned, float): if the nearest
    integer to the number (half away from zero) is in range, it is the result. *)
Theorem c25_to_i64_keeps_the_number : forall v q z,
  observed_value_ok v -> number v = Some q -> nearest_half_away q z -> in_i64 z ->
  convert_to_i64 v = Some z.
Proof. exact to_i64_number. Qed.
Print Assumptions c25_to_i64_keeps_the_number.

(** -2.5 becomes -3; 2^62 stays. *)
Example c25_to_i64_case :
  convert_to_i64 (FloatValue (S754_finite true 5629499534213120 (-51))) = Some (-3)
  /\ nearest_half_away (-5 # 2) (-3)
  /\ (exists q, number (FloatValue (S754_finite true 5629499534213120 (-51))) = Some q
                /\ (q == -5 # 2)%Q)
  /\ convert_to_i64 (UnsignedInteger 4611686018427387904) = Some 4611686018427387904.
Proof.
  split; [reflexivity|split; [right; split; reflexivity|split; [|reflexivity]]].
  eexists. split; reflexivity.
Qed.

Theorem c25_to_u64_keeps_the_number : forall v q z,
  observed_value_ok v -> number v = Some q -> nearest_half_away q z -> in_u64 z ->
  convert_to_u64 v = Some z.
Proof. exact to_u64_number. Qed.
Print Assumptions c25_to_u64_keeps_the_number.

Example c25_to_u64_case :
  convert_to_u64 (FloatValue (S754_finite false 5629499534213120 (-51))) = Some 3
  /\ convert_to_u64 (SignedInteger 9) = Some 9.
Proof. split; reflexivity. Qed.

(** Too large numbers give nothing. *)
Theorem c25_too_large_gives_nothing : forall v q,
  observed_value_ok v -> number v = Some q ->
  ((inject_Z two63 < q)%Q -> convert_to_i64 v = None)
  /\ ((inject_Z two64 < q)%Q -> convert_to_u64 v = None).
Proof. exact to_int_too_large. Qed.
Print Assumptions c25_too_large_gives_nothing.

Example c25_too_large_case :
  convert_to_i64 (FloatValue (S754_finite false 4503599627370497 11)) = None
  /\ convert_to_u64 (FloatValue (S754_finite false 4503599627370497 11))
     = Some 9223372036854777856.
Proof. split; reflexivity. Qed.

(** Booleans, durations, changes, NaN and positive infinity give nothing. *)
Theorem c25_no_number_gives_nothing : forall v,
  number v = None -> v <> FloatValue (S754_infinity true) ->
  convert_to_i64 v = None /\ convert_to_u64 v = None.
Proof. exact to_int_not_a_number. Qed.
Print Assumptions c25_no_number_gives_nothing.

Example c25_no_number_case :
  number (DurationValue 5 Seconds) = None /\ number (FloatValue S754_nan) = None.
Proof. split; reflexivity. Qed.

Theorem c25_to_bool_is_non_zero : forall v q, number v = Some q ->
  (forall f, v <> FloatValue f) ->
  exists b, convert_to_bool v = Some b /\ (b = false <-> (q == 0)%Q).
Proof. exact to_bool_number. Qed.
Print Assumptions c25_to_bool_is_non_zero.

Example c25_to_bool_case :
  convert_to_bool (SignedInteger (-7)) = Some true
  /\ convert_to_bool (UnsignedInteger 0) = Some false.
Proof. split; reflexivity. Qed.

(** Below the range floats saturate instead of giving nothing: the largest
    negative i64 for everything from -2^63 down. *)
Theorem c25_below_range_saturates : forall f q,
  f64_valid f = true -> float_number f = Some q ->
  (q <= inject_Z i64_min)%Q ->
  convert_to_i64 (FloatValue f) = Some i64_min.
Proof. exact float_below_i64. Qed.
Print Assumptions c25_below_range_saturates.

Example c25_below_range_case :
  convert_to_i64 (FloatValue (S754_finite true 4503599627370496 12)) = Some i64_min.
Proof. reflexivity. Qed.

(** Hence "a conversion that gives something gives the nearest integer" does not
    hold for all values. *)
Theorem c25_always_nearest_refuted : exists v q z,
  observed_value_ok v /\ number v = Some q /\ convert_to_i64 v = Some z
  /\ ~ nearest_half_away q z.
Proof. exact to_i64_saturates. Qed.
Print Assumptions c25_always_nearest_refuted.

(** ** C26: negative numbers as unsigned *)

(** For signed integers it holds. *)
Theorem c26_negative_integers : forall z, z < 0 -> convert_to_u64 (SignedInteger z) = None.
Proof. exact negative_integer_to_u64. Qed.
Print Assumptions c26_negative_integers.

Example c26_negative_integers_case : convert_to_u64 (SignedInteger (-1)) = None.
Proof. reflexivity. Qed.

(** Every negative float becomes 0 instead of nothing. *)
Theorem c26_negative_floats_become_zero : forall f q,
  f64_valid f = true -> float_number f = Some q ->
  (q < 0)%Q -> convert_to_u64 (FloatValue f) = Some 0.
Proof. exact float_below_u64. Qed.
Print Assumptions c26_negative_floats_become_zero.

Example c26_negative_floats_case :
  convert_to_u64 (FloatValue (S754_finite true 4503599627370496 (-52))) = Some 0.
Proof. reflexivity. Qed.

(** The claim of C26 is therefore false of the code. *)
Theorem c26_negative_gives_nothing_refuted : exists v q,
  observed_value_ok v /\ number v = Some q /\ (q < 0)%Q /\ convert_to_u64 v <> None.
Proof. exact negative_float_to_u64. Qed.
Print Assumptions c26_negative_gives_nothing_refuted.
