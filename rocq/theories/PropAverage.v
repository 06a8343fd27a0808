(** C84: the rates of a meter are moving averages, and they settle. *)
From Coq Require Import ZArith Bool String List Reals Floats.SpecFloat.
From Coq Require Lra Lia.
From Verif Require Import Base SpecRun SpecCounting SpecObservation SpecGauge SpecMeter SpecAverage
  ModelObservation ModelSnapshot ModelMeter FloatReal AverageShown PropMeter.
Import ListNotations.
Open Scope Z_scope.

(** Whatever was marked, and whenever snapshots were taken, each rate differs
    from the exact moving average of the loads of the complete intervals by no
    more than a fixed share of the highest load, however many intervals there
    were. *)
Theorem c84_average : forall al name k t0 m0 c1 m h m' q d m'' s c3 hi,
  meter_new al name k (frozen t0) = Ok m0 c1 ->
  m_inner m = m_inner m0 -> m_descr m = no_descr ->
  ops_ok (map snd h) -> times_ordered t0 h q ->
  instant_run meter_update meter_put k m h = Some m' ->
  meter_put m' d [] k (frozen q) = Ok (m'', s) c3 ->
  smoothing_factors al -> positive_factors al -> 0 <= hi < two64 ->
  (forall i, marked_in t0 (instant_marks meter_amount h) i <= hi) ->
  let about a r :=
    (Rabs (real r - averaged (real a) (loads t0 (instant_marks meter_amount h) q)) <= tolerance (real a) hi)%R in
  exists n r1 r5 r15,
    s = meter_items (m_name m) n
          (window_item (m_one_minute m) "one_minute" (shown_rate (m_lower_cutoff m) r1))
          (window_item (m_five_minute m) "five_minutes" (shown_rate (m_lower_cutoff m) r5))
          (window_item (m_fifteen_minute m) "fifteen_minutes" (shown_rate (m_lower_cutoff m) r15))
    /\ Forall (fun r => finite r = true) [r1; r5; r15]
    /\ about (alpha1 al) r1 /\ about (alpha5 al) r5 /\ about (alpha15 al) r15.
Proof. exact meter_averages. Qed.
Print Assumptions c84_average.

(** The history of C09: 10 events, then 1 event, then two intervals without. *)
Example c84_average_case :
  positive_factors real_alphas
  /\ loads 0 (instant_marks meter_amount c09_case_history) 21000000000 = [0 / 5; 0 / 5; 1 / 5; 10 / 5]%R
  /\ (forall a, averaged a [0 / 5; 0 / 5; 1 / 5; 10 / 5] = (1 - a) * (1 - a) * (a * / 5 + (1 - a) * 2))%R.
Proof.
  split; [split; [|split]; reflexivity|]. split; [reflexivity|]. intros a. cbn [averaged]. Lra.lra.
Qed.

(** Once all intervals have the same load, the rates approach it: what was there
    before counts less with every interval. *)
Theorem c84_settles : forall al name k t0 m0 c1 m h m' q d m'' s c3 hi c n,
  meter_new al name k (frozen t0) = Ok m0 c1 ->
  m_inner m = m_inner m0 -> m_descr m = no_descr ->
  ops_ok (map snd h) -> times_ordered t0 h q ->
  instant_run meter_update meter_put k m h = Some m' ->
  meter_put m' d [] k (frozen q) = Ok (m'', s) c3 ->
  smoothing_factors al -> positive_factors al -> 0 <= hi < two64 ->
  (forall i, marked_in t0 (instant_marks meter_amount h) i <= hi) ->
  Z.of_nat n < interval5 t0 q -> 0 <= c <= hi ->
  (forall i, interval5 t0 q - Z.of_nat n <= i < interval5 t0 q -> marked_in t0 (instant_marks meter_amount h) i = c) ->
  let about a r := (Rabs (real r - IZR c / 5) <= (1 - real a) ^ n * (IZR hi / 5) + tolerance (real a) hi)%R in
  exists total r1 r5 r15,
    s = meter_items (m_name m) total
          (window_item (m_one_minute m) "one_minute" (shown_rate (m_lower_cutoff m) r1))
          (window_item (m_five_minute m) "five_minutes" (shown_rate (m_lower_cutoff m) r5))
          (window_item (m_fifteen_minute m) "fifteen_minutes" (shown_rate (m_lower_cutoff m) r15))
    /\ about (alpha1 al) r1 /\ about (alpha5 al) r5 /\ about (alpha15 al) r15.
Proof. exact meter_settles. Qed.
Print Assumptions c84_settles.

(** One more event in each interval after the first one: a load of 1 / 5 *)
Example c84_history : list (Z * meter_op) :=
  [(1000000000, MUpdate (Observations 10 0)); (6000000000, MUpdate (OneObservation 0)); (7000000000, MSnapshot false);
   (11000000000, MUpdate (OneObservation 0)); (16000000000, MUpdate (OneObservation 0))].

Example c84_settles_case :
  ops_ok (map snd c84_history) /\ times_ordered 0 c84_history 21000000000
  /\ interval5 0 21000000000 = 4
  /\ (forall i, 4 - 3 <= i < 4 -> marked_in 0 (instant_marks meter_amount c84_history) i = 1)
  /\ map (marked_in 0 (instant_marks meter_amount c84_history)) [0; 1; 2; 3; 4] = [10; 1; 1; 1; 0]
  /\ match meter_new real_alphas "m" debug (frozen 0) with
     | Ok m _ =>
         match instant_run meter_update meter_put debug m c84_history with
         | Some m' =>
             match meter_put m' false [] debug (frozen 21000000000) with
             | Ok (_, s) _ => s = meter_shows m real_alphas 0 (instant_marks meter_amount c84_history) 21000000000
             | _ => False
             end
         | None => False
         end
     | _ => False
     end.
Proof.
  split; [repeat constructor; discriminate|].
  split; [repeat (constructor; [discriminate|]); constructor; discriminate|].
  split; [reflexivity|]. split; [|split; [reflexivity | vm_compute; reflexivity]].
  intros i Hi. assert (H : i = 1 \/ i = 2 \/ i = 3) by Lia.lia. destruct H as [-> | [-> | ->]]; reflexivity.
Qed.
