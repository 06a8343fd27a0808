(** What transmitters transmit. *)
From Coq Require Import ZArith Bool String List Lia.
From Verif Require Import Base SpecRun MonadFacts ModelObservation ModelInstrument ModelTree ModelChannel
  ModelProcessor ModelTransmitter ObservationProofs.
Import ListNotations.
Open Scope Z_scope.

Section Transmitter.
  Context {X : ext}.

  Lemma time_measured : forall tx (l : lab X) from k c,
    (from <= c O -> c O - from <= u64_max ->
       measure_time tx l from k c
       = Ok [tx_send tx (MObservation (ObservedOneValue l (DurationValue (c O - from) Nanoseconds) (c O)))]
           (fun n => c (S n)))
    /\ (c O < from -> measure_time tx l from k c = Ok [] (fun n => c (S n))).
  Proof.
    intros tx l from k c. unfold measure_time, observed_duration. split.
    - intros H L. unfold bind at 1, now. replace (from <=? c O) with true by (symmetry; apply Z.leb_le; exact H).
      unfold bind. rewrite duration_value_fits by lia. reflexivity.
    - intros H. unfold bind, now. replace (from <=? c O) with false by (symmetry; apply Z.leb_gt; exact H). reflexivity.
  Qed.

  Lemma time_measured_wrong : forall tx (l : lab X) from k c, u64_max < c O - from ->
    measure_time tx l from k c
    = if overflow_checks k then Panic
      else Ok [tx_send tx (MObservation (ObservedOneValue l (DurationValue ((c O - from) mod two64) Nanoseconds) (c O)))]
             (fun n => c (S n)).
  Proof.
    intros tx l from k c L. unfold measure_time, observed_duration. unfold bind at 1, now.
    replace (from <=? c O) with true by (symmetry; apply Z.leb_le; lia).
    unfold bind. rewrite duration_value_too_large by exact L. destruct (overflow_checks k); reflexivity.
  Qed.

  Lemma observed_at_the_present : forall tx (l : lab X) n v d k c, 0 <= d <= u64_max ->
    let later := fun n => c (S n) in
    observed_now tx l n k c = Ok (tx_send tx (MObservation (Observed l n (c O)))) later
    /\ observed_one_now tx l k c = Ok (tx_send tx (MObservation (ObservedOne l (c O)))) later
    /\ observed_one_value_now tx l v k c = Ok (tx_send tx (MObservation (ObservedOneValue l v (c O)))) later
    /\ observed_one_duration_now tx l d k c
       = Ok (tx_send tx (MObservation (ObservedOneValue l (DurationValue d Nanoseconds) (c O)))) later.
  Proof.
    intros tx l n v d k c L later. repeat split. unfold observed_one_duration_now, observed_duration, bind, now.
    rewrite duration_value_fits by exact L. reflexivity.
  Qed.
End Transmitter.
