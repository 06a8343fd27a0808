(** C58: measuring times. *)
From Coq Require Import ZArith Bool String List Lia.
From Verif Require Import Base SpecRun ModelObservation ModelInstrument ModelTree ModelChannel
  ModelProcessor ModelTransmitter TransmitterProofs Toy.
Import ListNotations.
Open Scope Z_scope.

(** Up to 584 years. *)
Theorem c58_measure_time_partial : forall X tx (l : lab X) from k c,
  (from <= c O -> c O - from <= u64_max ->
     measure_time tx l from k c
     = Ok [tx_send tx (MObservation (ObservedOneValue l (DurationValue (c O - from) Nanoseconds) (c O)))]
         (fun n => c (S n)))
  /\ (c O < from -> measure_time tx l from k c = Ok [] (fun n => c (S n))).
Proof. exact @time_measured. Qed.
Print Assumptions c58_measure_time_partial.

(** Beyond that the conversion to nanoseconds overflows. *)
Theorem c58_overflow : forall X tx (l : lab X) from k c, u64_max < c O - from ->
  measure_time tx l from k c
  = if overflow_checks k then Panic
    else Ok [tx_send tx (MObservation (ObservedOneValue l (DurationValue ((c O - from) mod two64) Nanoseconds) (c O)))]
           (fun n => c (S n)).
Proof. exact @time_measured_wrong. Qed.
Print Assumptions c58_overflow.

(** A start 2^64 ns ago is reported as 0 ns. *)
Theorem c58_measure_time_refuted : exists tx (l : lab toy) from c,
  from <= c O /\ (0 < c O - from) /\
  measure_time tx l from release c = Ok [tx_send tx (MObservation (ObservedOneValue l (DurationValue 0 Nanoseconds) (c O)))]
    (fun n => c (S n))
  /\ measure_time tx l from debug c = Panic.
Proof. exists (Transmitter 1 true), la, 0, (frozen two64). repeat split; try discriminate; reflexivity. Qed.
Print Assumptions c58_measure_time_refuted.

(** The methods without a timestamp read the clock once and use that time. *)
Theorem c58_now : forall X tx (l : lab X) n v d k c, 0 <= d <= u64_max ->
  let later := fun n => c (S n) in
  observed_now tx l n k c = Ok (tx_send tx (MObservation (Observed l n (c O)))) later
  /\ observed_one_now tx l k c = Ok (tx_send tx (MObservation (ObservedOne l (c O)))) later
  /\ observed_one_value_now tx l v k c = Ok (tx_send tx (MObservation (ObservedOneValue l v (c O)))) later
  /\ observed_one_duration_now tx l d k c
     = Ok (tx_send tx (MObservation (ObservedOneValue l (DurationValue d Nanoseconds) (c O)))) later.
Proof. exact @observed_at_the_present. Qed.
Print Assumptions c58_now.

Example c58_case :
  measure_time (Transmitter 1 false) la 40 debug (frozen 100)
  = Ok [TrySend (MObservation (ObservedOneValue la (DurationValue 60 Nanoseconds) 100))] (frozen 100)
  /\ measure_time (Transmitter 1 false) la 140 debug (frozen 100) = Ok [] (frozen 100).
Proof. split; reflexivity. Qed.
