(** C08: a meter counts occurrences. C09: its rates do not depend on polling.
    C10: its rates stay within the rates of the intervals.
    C13: cutoff and disabled windows. *)
From Coq Require Import ZArith Bool String List Reals Floats.SpecFloat.
From Verif Require Import Base SpecRun SpecCounting SpecObservation SpecGauge SpecMeter
  ModelObservation ModelSnapshot ModelCounter ModelMeter
  MeterHistoryProofs MeterRunsProofs MeterRateProofs.
Import ListNotations.
Open Scope Z_scope.

(** ** C08 *)

(** The count is the sum of all occurrences that fit an i64, whatever the clock
    does and whenever snapshots are taken; modulo 2^64, so exactly that sum as
    long as it fits. *)
Theorem c08_count : forall al name k c m c1 ops m' c2 d m'' s c3,
  meter_new al name k c = Ok m c1 -> ops_ok ops ->
  meter_run meter_update meter_put m ops k c1 = Ok m' c2 ->
  meter_put m' d [] k c2 = Ok (m'', s) c3 ->
  exists rates, s = [(name, ItemSnapshot (("count"%string, UInt (sum (amounts meter_amount ops) mod two64)) :: rates))].
Proof. exact meter_counts. Qed.
Print Assumptions c08_count.

(** The smoothing factors the code computes, as doubles. *)
Example real_alphas : alphas :=
  Alphas (S754_finite false 5761407111705112 (-56))
         (S754_finite false 4764029082236128 (-58))
         (S754_finite false 6387360373945088 (-60)).

Example c08_case_ops : list meter_op :=
  [MUpdate (Observations 7 0); MSnapshot true; MUpdate (OneObservation 1);
   MUpdate (Observations u64_max 2); MUpdate (ObservationWithValue (BoolValue true) 3)].

Example c08_count_case :
  ops_ok c08_case_ops /\
  match (let* m := meter_new real_alphas "m" in
         let* m := meter_run meter_update meter_put m c08_case_ops in meter_put m false []) debug
        (fun i => 3000000000 * Z.of_nat i) with
  | Ok (_, [(n, ItemSnapshot (cnt :: _))]) _ => n = "m"%string /\ cnt = ("count"%string, UInt 9)
  | _ => False
  end.
Proof. split; [repeat constructor; discriminate|vm_compute; split; reflexivity]. Qed.

(** A counter fed the same updates shows the same number. *)
Theorem c08_agrees_with_counter : forall al name k c m c1 us m' c2 d m'' s c3,
  meter_new al name k c = Ok m c1 -> Forall update_ok us -> total us <= i64_max ->
  meter_run meter_update meter_put m (map MUpdate us) k c1 = Ok m' c2 ->
  meter_put m' d [] k c2 = Ok (m'', s) c3 ->
  exists rates counted n,
    s = [(name, ItemSnapshot (("count"%string, UInt n) :: rates))]
    /\ run_all counter_update (counter_new name) us k c = Ok (counted, repeat 1 (length us)) c
    /\ counter_put counted false [] = [(name, UInt n)].
Proof. exact meter_agrees_with_counter. Qed.
Print Assumptions c08_agrees_with_counter.

Example c08_agrees_with_counter_case :
  let us := [Observations 7 0; OneObservation 1; Observations 0 5] in
  Forall update_ok us /\ total us = 8 /\
  match (let* m := meter_new real_alphas "m" in
         let* m := meter_run meter_update meter_put m (map MUpdate us) in meter_put m false []) debug (frozen 5) with
  | Ok (_, [(n, ItemSnapshot (cnt :: _))]) _ => cnt = ("count"%string, UInt 8)
  | _ => False
  end.
Proof. cbv zeta. split; [repeat constructor; discriminate|split; [reflexivity|vm_compute; reflexivity]]. Qed.

(** Nothing can go wrong at representable times (and, with overflow checks, as
    long as the count fits): neither a panic nor an endless loop. *)
Theorem c08_works : forall al name k c ops d,
  monotone c -> (forall i, c i + 5000000000 <= max_instant k) -> (forall i, c i - c 1%nat <= u64_max) ->
  ops_ok ops -> (overflow_checks k = true -> sum (amounts meter_amount ops) <= i64_max) ->
  exists m c1 m' c2 m'' s c3,
    meter_new al name k c = Ok m c1
    /\ meter_run meter_update meter_put m ops k c1 = Ok m' c2
    /\ meter_put m' d [] k c2 = Ok (m'', s) c3.
Proof. exact meter_works. Qed.
Print Assumptions c08_works.

Example c08_works_case :
  monotone (fun i => Z.min 1000 (Z.of_nat i)) /\ sum (amounts meter_amount c08_case_ops) <= i64_max
  /\ forall i, Z.min 1000 (Z.of_nat i) + 5000000000 <= max_instant debug.
Proof.
  split; [intros i; apply Z.min_le_compat_l; rewrite Nat2Z.inj_succ; apply Z.le_succ_diag_r|].
  split; [vm_compute; discriminate|].
  intros i. refine (Z.le_trans _ (1000 + 5000000000) _ _ _); [|vm_compute; discriminate].
  apply Z.add_le_mono_r. apply Z.le_min_l.
Qed.

(** ** C09 *)

(** Every history at every non-decreasing clock: there are times at which the
    marks were made, each read while its update was handled, such that the
    rates are the exponentially weighted averages over all complete
    five-second intervals since the creation. The settings of the meter do not
    matter. *)
Theorem c09_rates : forall al name k c m0 c1 m ops m' c2 d m'' s c3,
  monotone c -> meter_new al name k c = Ok m0 c1 ->
  m_inner m = m_inner m0 -> m_descr m = no_descr -> ops_ok ops ->
  meter_run meter_update meter_put m ops k c1 = Ok m' c2 ->
  meter_put m' d [] k c2 = Ok (m'', s) c3 ->
  exists start l t,
    read_during c c1 start
    /\ metering meter_update meter_put meter_amount k m c1 ops l m' c2
    /\ read_during c2 c3 t
    /\ s = meter_shows m al start l t.
Proof. exact meter_rates. Qed.
Print Assumptions c09_rates.

Example c09_rates_case :
  let c := fun i => 3000000000 * Z.of_nat i in
  match (let* m := meter_new real_alphas "m" in
         let* m := meter_run meter_update meter_put m c08_case_ops in meter_put m false []) debug c with
  | Ok (m', [(n, ItemSnapshot [cnt; (one, ItemSnapshot [(r, Float rate)])])]) _ =>
      m_descr m' = no_descr /\ one = "one_minute"%string
      /\ SFltb f64_zero rate = true /\ SFltb rate (f64_of_Z 2) = true
  | _ => False
  end.
Proof. vm_compute. repeat split; reflexivity. Qed.

(** If no time passes during an operation, each mark is in the interval of its
    operation, and what a snapshot shows at time [q] follows from the times of
    the marks alone. *)
Theorem c09_rates_at_instants : forall al name k t0 m0 c1 m h m' q d m'' s c3,
  meter_new al name k (frozen t0) = Ok m0 c1 ->
  m_inner m = m_inner m0 -> m_descr m = no_descr ->
  ops_ok (map snd h) ->
  times_ordered t0 h q ->
  instant_run meter_update meter_put k m h = Some m' ->
  meter_put m' d [] k (frozen q) = Ok (m'', s) c3 ->
  s = meter_shows m al t0 (instant_marks meter_amount h) q.
Proof. exact meter_rates_at_instants. Qed.
Print Assumptions c09_rates_at_instants.

Example c09_case_history : list (Z * meter_op) :=
  [(1000000000, MUpdate (Observations 10 0)); (4000000000, MSnapshot false);
   (6000000000, MUpdate (OneObservation 0)); (21000000000, MUpdate (OneObservation 0))].

(** 10 events, then 1, 0 and 0 events, then the incomplete interval with 1. *)
Example c09_rates_at_instants_case :
  ops_ok (map snd c09_case_history) /\ times_ordered 0 c09_case_history 21000000000
  /\ complete_intervals 0 (instant_marks meter_amount c09_case_history) 21000000000 = [10; 1; 0; 0]
  /\ match meter_new real_alphas "m" debug (frozen 0) with
     | Ok m _ =>
         match instant_run meter_update meter_put debug m c09_case_history with
         | Some m' =>
             match meter_put m' false [] debug (frozen 21000000000) with
             | Ok (_, s) _ => s = meter_shows m real_alphas 0 (instant_marks meter_amount c09_case_history) 21000000000
             | _ => False
             end
         | None => False
         end
     | _ => False
     end.
Proof.
  split; [repeat constructor; discriminate|].
  split; [repeat (constructor; [discriminate|]); constructor; discriminate|].
  split; [vm_compute; reflexivity|]. vm_compute. reflexivity.
Qed.

(** Inserting or removing snapshots changes nothing that is shown later. *)
Theorem c09_reads_do_not_matter :
  forall al name k t0 m0 c1 m h1 h2 m1 m2 q d1 d2 m1' m2' s1 s2 c2 c3,
  meter_new al name k (frozen t0) = Ok m0 c1 ->
  m_inner m = m_inner m0 -> m_descr m = no_descr ->
  ops_ok (map snd h1) -> ops_ok (map snd h2) -> times_ordered t0 h1 q -> times_ordered t0 h2 q ->
  filter is_update h1 = filter is_update h2 ->
  instant_run meter_update meter_put k m h1 = Some m1 ->
  instant_run meter_update meter_put k m h2 = Some m2 ->
  meter_put m1 d1 [] k (frozen q) = Ok (m1', s1) c2 ->
  meter_put m2 d2 [] k (frozen q) = Ok (m2', s2) c3 ->
  s1 = s2.
Proof. exact meter_reads_do_not_matter. Qed.
Print Assumptions c09_reads_do_not_matter.

Example c09_reads_do_not_matter_case :
  let h2 := (0, MSnapshot true) :: filter is_update c09_case_history ++ [(21000000000, MSnapshot false)] in
  filter is_update h2 = filter is_update c09_case_history
  /\ h2 <> c09_case_history
  /\ match meter_new real_alphas "m" debug (frozen 0) with
     | Ok m _ =>
         match instant_run meter_update meter_put debug m h2 with
         | Some m' =>
             match meter_put m' false [] debug (frozen 21000000000) with
             | Ok (_, s) _ => s = meter_shows m real_alphas 0 (instant_marks meter_amount c09_case_history) 21000000000
             | _ => False
             end
         | None => False
         end
     | _ => False
     end.
Proof. cbv zeta. split; [reflexivity|]. split; [discriminate|]. vm_compute. reflexivity. Qed.

(** ** C10 *)

(** Rates are finite and not negative, for every number of intervals and every
    amount per interval. *)
Theorem c10_finite : forall alpha start l t, smoothing_factor alpha ->
  finite (rate_at alpha start l t) = true /\ SFleb f64_zero (rate_at alpha start l t) = true.
Proof. exact rate_in_range. Qed.
Print Assumptions c10_finite.

(** The factors in use are fine. *)
Example c10_finite_case : smoothing_factors real_alphas.
Proof. split; [|split]; (split; [reflexivity|split; reflexivity]). Qed.

(** The rate lies between the lowest and the highest rate of an interval, in
    floating point without any tolerance. *)
Theorem c10_within_intervals : forall alpha start l t lo hi, smoothing_factor alpha ->
  0 <= lo -> hi < two64 -> start + 5000000000 <= t ->
  (forall i, 0 <= i < interval5 start t -> lo <= marked_in start l i mod two64 <= hi) ->
  SFleb (interval_per_second lo) (rate_at alpha start l t) = true
  /\ SFleb (rate_at alpha start l t) (interval_per_second hi) = true.
Proof. exact rate_within_intervals. Qed.
Print Assumptions c10_within_intervals.

Example c10_within_intervals_case :
  let l := [(0, 10); (7000000000, 3); (12000000000, 4)] in
  (forall i, 0 <= i < interval5 0 15000000000 -> 3 <= marked_in 0 l i mod two64 <= 10)
  /\ SFltb (interval_per_second 3) (rate_at (alpha1 real_alphas) 0 l 15000000000) = true
  /\ SFltb (rate_at (alpha1 real_alphas) 0 l 15000000000) (interval_per_second 10) = true.
Proof.
  cbv zeta. split.
  - change (interval5 0 15000000000) with 3. intros i Hi.
    assert (H : i = 0 \/ i = 1 \/ i = 2) by Lia.lia.
    destruct H as [->|[->| ->]]; vm_compute; split; discriminate.
  - vm_compute. split; reflexivity.
Qed.

(** Without marks in between a rate does not increase. *)
Theorem c10_decays : forall alpha start l t t', smoothing_factor alpha -> start <= t <= t' ->
  (forall i, interval5 start t <= i < interval5 start t' -> marked_in start l i mod two64 = 0) ->
  SFleb (rate_at alpha start l t') (rate_at alpha start l t) = true.
Proof. exact rate_decays. Qed.
Print Assumptions c10_decays.

Example c10_decays_case :
  let l := [(0, 10)] in
  (forall i, interval5 0 5000000000 <= i < interval5 0 15000000000 -> marked_in 0 l i mod two64 = 0)
  /\ SFltb (rate_at (alpha1 real_alphas) 0 l 15000000000) (rate_at (alpha1 real_alphas) 0 l 5000000000) = true.
Proof.
  cbv zeta. split.
  - change (interval5 0 15000000000) with 3. change (interval5 0 5000000000) with 1. intros i Hi.
    assert (H : i = 1 \/ i = 2) by Lia.lia.
    destruct H as [->| ->]; reflexivity.
  - vm_compute. reflexivity.
Qed.

(** The same for what a meter shows, with any cutoff: if no interval saw more
    than [hi] events, all rates in the snapshot are between zero and the rate
    of an interval with [hi] events. *)
Theorem c10_shown : forall al name k t0 m0 c1 m h m' q d m'' s c3 hi,
  meter_new al name k (frozen t0) = Ok m0 c1 ->
  m_inner m = m_inner m0 -> m_descr m = no_descr ->
  ops_ok (map snd h) -> times_ordered t0 h q ->
  instant_run meter_update meter_put k m h = Some m' ->
  meter_put m' d [] k (frozen q) = Ok (m'', s) c3 ->
  smoothing_factors al -> 0 <= hi < two64 ->
  (forall i, marked_in t0 (instant_marks meter_amount h) i <= hi) ->
  exists n r1 r5 r15,
    s = meter_items (m_name m) n (window_item (m_one_minute m) "one_minute" r1)
          (window_item (m_five_minute m) "five_minutes" r5)
          (window_item (m_fifteen_minute m) "fifteen_minutes" r15)
    /\ Forall (acceptable hi) [r1; r5; r15].
Proof. exact meter_rates_range. Qed.
Print Assumptions c10_shown.

Example c10_shown_case :
  (forall i, marked_in 0 (instant_marks meter_amount c09_case_history) i <= 10)
  /\ 0 <= 10 < two64.
Proof.
  split; [|split; [discriminate|reflexivity]]. intros i. unfold marked_in.
  change (instant_marks meter_amount c09_case_history) with [(1000000000, 10); (6000000000, 1); (21000000000, 1)].
  cbn [filter fst]. change (interval5 0 1000000000) with 0. change (interval5 0 6000000000) with 1.
  change (interval5 0 21000000000) with 4.
  destruct (Z.eqb_spec 0 i) as [<-|H0]; [discriminate|].
  destruct (Z.eqb_spec 1 i) as [<-|H1]; [discriminate|].
  destruct (Z.eqb_spec 4 i); discriminate.
Qed.

(** And of two snapshots, taken after the last interval with events was over,
    the later one shows no higher rate, however many snapshots are taken in
    between. *)
Theorem c10_shown_decays : forall al name k t0 m0 c1 m h m' q d m'' s c2 q' d' m3 s' c3 snaps m4,
  meter_new al name k (frozen t0) = Ok m0 c1 ->
  m_inner m = m_inner m0 -> m_descr m = no_descr -> f64_valid (m_lower_cutoff m) = true ->
  ops_ok (map snd h) -> times_ordered t0 h q ->
  instant_run meter_update meter_put k m h = Some m' ->
  meter_put m' d [] k (frozen q) = Ok (m'', s) c2 ->
  (forall to, In to snaps -> is_update to = false) -> times_ordered q snaps q' ->
  instant_run meter_update meter_put k m'' snaps = Some m3 ->
  meter_put m3 d' [] k (frozen q') = Ok (m4, s') c3 ->
  smoothing_factors al ->
  (forall e, In e (instant_marks meter_amount h) -> interval5 t0 (fst e) < interval5 t0 q) ->
  exists n r1 r5 r15 r1' r5' r15',
    let shows one five fifteen :=
      meter_items (m_name m) n (window_item (m_one_minute m) "one_minute" one)
        (window_item (m_five_minute m) "five_minutes" five)
        (window_item (m_fifteen_minute m) "fifteen_minutes" fifteen) in
    s = shows r1 r5 r15 /\ s' = shows r1' r5' r15'
    /\ SFleb r1' r1 = true /\ SFleb r5' r5 = true /\ SFleb r15' r15 = true.
Proof. exact meter_rates_decay. Qed.
Print Assumptions c10_shown_decays.

Example c10_shown_decays_case :
  let q := 25000000000 in let q' := 60000000000 in
  let snaps := [(26000000000, MSnapshot true)] in
  times_ordered 0 c09_case_history q /\ times_ordered q snaps q'
  /\ (forall e, In e (instant_marks meter_amount c09_case_history) -> interval5 0 (fst e) < interval5 0 q)
  /\ match meter_new real_alphas "m" debug (frozen 0) with
     | Ok m _ =>
         match instant_run meter_update meter_put debug m (c09_case_history ++ (q, MSnapshot true) :: snaps) with
         | Some m' =>
             match meter_put m' false [] debug (frozen q') with Ok _ _ => True | _ => False end
         | None => False
         end
     | _ => False
     end.
Proof.
  cbv zeta. split; [repeat (constructor; [discriminate|]); constructor; discriminate|].
  split; [repeat (constructor; [discriminate|]); constructor; discriminate|].
  split.
  - intros e He. cbn in He. destruct He as [<-|[<-|[<-|[]]]]; reflexivity.
  - vm_compute. exact I.
Qed.

(** ** C13 *)

(** Every state, every clock, every cutoff (NaN included): the count and one
    entry per enabled window; a rate below the cutoff is shown as zero and any
    other rate as it is. *)
Theorem c13_shape : forall m d into k c m' s c',
  meter_put m d into k c = Ok (m', s) c' ->
  let shown e := shown_rate (m_lower_cutoff m) (ewma_rate e) in
  s = put_postfixed_descriptives (m_descr m) (m_name m) into d
      ++ meter_items (m_name m) (sm_count (m_inner m) mod two64)
           (window_item (m_one_minute m) "one_minute" (shown (sm_e1 (m_inner m'))))
           (window_item (m_five_minute m) "five_minutes" (shown (sm_e5 (m_inner m'))))
           (window_item (m_fifteen_minute m) "fifteen_minutes" (shown (sm_e15 (m_inner m'))))
  /\ sm_count (m_inner m') = sm_count (m_inner m) /\ MeterProofs.same_settings m m'.
Proof. exact meter_put_shape. Qed.
Print Assumptions c13_shape.

(** With cutoff NaN and only the outer windows enabled. *)
Example c13_shape_case :
  match meter_new real_alphas "m" debug (frozen 0) with
  | Ok m _ =>
      let m := Meter "m" no_descr 0 (m_inner m) S754_nan true false true in
      match instant_run meter_update meter_put debug m [(1, MUpdate (Observations 1000 0))] with
      | Some m' =>
          match meter_put m' false [] debug (frozen 5000000000) with
          | Ok (_, [(n, ItemSnapshot [cnt; (one, ItemSnapshot [(_, Float r1)]); (fifteen, ItemSnapshot [(_, Float r2)])])]) _ =>
              one = "one_minute"%string /\ fifteen = "fifteen_minutes"%string
              /\ r1 = f64_of_Z 200 /\ r2 = f64_of_Z 200
          | _ => False
          end
      | None => False
      end
  | _ => False
  end.
Proof. vm_compute. repeat split; reflexivity. Qed.
