(** C11: a value meter sums values. C12: its rates for negative values. *)
From Coq Require Import ZArith QArith Bool String List Reals Floats.SpecFloat.
From Flocq Require Import Core.
From Verif Require Import Base SpecRun SpecCounting SpecObservation SpecGauge SpecMeter
  ModelObservation ModelSnapshot ModelMeter FloatReal
  MeterHistoryProofs MeterRateProofs ValueRateProofs.
Import ListNotations.
Open Scope Z_scope.

(** ** C11 *)

(** [amount] gives the number an update stands for (durations in the display
    unit, floats rounded), or nothing. The count is the sum of the numbers
    modulo 2^64, for every clock and whenever snapshots are taken. *)
Theorem c11_count : forall al name k c v c1 ops amount v' c2 d v'' s c3,
  value_meter_new al name k c = Ok v c1 ->
  Forall (vm_ops_counted (vm_display_time_unit v) amount) ops ->
  meter_run value_meter_update value_meter_put v ops k c1 = Ok v' c2 ->
  value_meter_put v' d [] k c2 = Ok (v'', s) c3 ->
  exists rates, s = [(name, ItemSnapshot (("count"%string, UInt (sum (amounts amount ops) mod two64)) :: rates))].
Proof. exact value_meter_counts. Qed.
Print Assumptions c11_count.

Example c11_case_ops : list meter_op :=
  [MUpdate (ObservationWithValue (SignedInteger 40) 0); MUpdate (ObservationWithValue (DurationValue 2500 Microseconds) 0);
   MUpdate (ObservationWithValue (BoolValue true) 0); MUpdate (OneObservation 0); MSnapshot true].

(** durations are shown in microseconds by default *)
Example c11_case_amount (u : update) : option Z :=
  match u with
  | ObservationWithValue (SignedInteger z) _ => Some z
  | ObservationWithValue (DurationValue t Microseconds) _ => Some (t * 1000 / 1000)
  | _ => None
  end.

Example c11_count_case :
  Forall (vm_ops_counted Microseconds c11_case_amount) c11_case_ops /\
  match (let* m := value_meter_new (Alphas f64_zero f64_zero f64_zero) "m" in
         let* m := meter_run value_meter_update value_meter_put m c11_case_ops in
         value_meter_put m false []) debug (frozen 0) with
  | Ok (vm, [(n, ItemSnapshot (cnt :: _))]) _ =>
      n = "m"%string /\ cnt = ("count"%string, UInt 2540) /\ vm_display_time_unit vm = Microseconds
  | _ => False
  end.
Proof.
  split; [|vm_compute; repeat split; reflexivity].
  apply Forall_cons.
  { split; [split; discriminate|]. cbn. apply vc_number, eff_number with (q := inject_Z 40);
      [reflexivity|left; reflexivity|split; discriminate]. }
  apply Forall_cons.
  { split; [split; discriminate|]. cbn [c11_case_amount].
    apply vc_number, (eff_duration Microseconds 2500 Microseconds); discriminate. }
  apply Forall_cons; [split; [exact I|apply vc_nothing; constructor]|].
  apply Forall_cons; [split; [exact I|apply vc_one]|].
  apply Forall_cons; [exact I|apply Forall_nil].
Qed.

(** A number is reported as one update, anything else as none. *)
Theorem c11_reports : forall amount vm u k c vm' r c',
  update_ok u /\ value_counts (vm_display_time_unit vm) u (amount u) ->
  value_meter_update vm u k c = Ok (vm', r) c' ->
  r = match amount u with Some _ => 1 | None => 0 end.
Proof. exact value_meter_reports. Qed.
Print Assumptions c11_reports.

Example c11_reports_case :
  match (let* m := value_meter_new (Alphas f64_zero f64_zero f64_zero) "m" in
         let* '(m, a) := value_meter_update m (ObservationWithValue (SignedInteger 40) 0) in
         let* '(m, b) := value_meter_update m (ObservationWithValue (BoolValue true) 0) in
         ret (a, b)) debug (frozen 0) with
  | Ok r _ => r = (1, 0)
  | _ => False
  end.
Proof. reflexivity. Qed.

(** The rates are those of a meter that is marked with the values. *)
Theorem c11_rates : forall al name k c v0 c1 v amount ops v' c2 d v'' s c3,
  monotone c -> value_meter_new al name k c = Ok v0 c1 ->
  m_inner (vm_meter v) = m_inner (vm_meter v0) -> m_descr (vm_meter v) = no_descr ->
  Forall (vm_ops_counted (vm_display_time_unit v) amount) ops ->
  meter_run value_meter_update value_meter_put v ops k c1 = Ok v' c2 ->
  value_meter_put v' d [] k c2 = Ok (v'', s) c3 ->
  exists start l t,
    read_during c c1 start
    /\ metering value_meter_update value_meter_put amount k v c1 ops l v' c2
    /\ read_during c2 c3 t
    /\ s = meter_shows (vm_meter v) al start l t.
Proof. exact value_meter_rates. Qed.
Print Assumptions c11_rates.

Theorem c11_rates_at_instants : forall al name k t0 v0 c1 v amount h v' q d v'' s c3,
  value_meter_new al name k (frozen t0) = Ok v0 c1 ->
  m_inner (vm_meter v) = m_inner (vm_meter v0) -> m_descr (vm_meter v) = no_descr ->
  Forall (vm_ops_counted (vm_display_time_unit v) amount) (map snd h) ->
  times_ordered t0 h q ->
  instant_run value_meter_update value_meter_put k v h = Some v' ->
  value_meter_put v' d [] k (frozen q) = Ok (v'', s) c3 ->
  s = meter_shows (vm_meter v) al t0 (instant_marks amount h) q.
Proof. exact value_meter_rates_at_instants. Qed.
Print Assumptions c11_rates_at_instants.

(** 40 + 2500 in five seconds *)
Example c11_rates_at_instants_case :
  match value_meter_new (Alphas f64_zero f64_zero f64_zero) "m" debug (frozen 0) with
  | Ok v _ =>
      match instant_run value_meter_update value_meter_put debug v (map (fun o => (7, o)) c11_case_ops) with
      | Some v' =>
          match value_meter_put v' false [] debug (frozen 5000000000) with
          | Ok (_, [(_, ItemSnapshot [_; (one, ItemSnapshot [(_, Float r)])])]) _ =>
              one = "one_minute"%string /\ r = f64_add (f64_of_Z 508) (S754_finite false 1 (-44))
          | _ => False
          end
      | None => False
      end
  | _ => False
  end.
Proof. vm_compute. split; reflexivity. Qed.

(** They are finite, not negative and not higher than the highest rate of an
    interval, provided the sum of every interval is not negative. *)
Theorem c11_rates_range : forall al name k t0 v0 c1 v amount h v' q d v'' s c3 hi,
  value_meter_new al name k (frozen t0) = Ok v0 c1 ->
  m_inner (vm_meter v) = m_inner (vm_meter v0) -> m_descr (vm_meter v) = no_descr ->
  Forall (vm_ops_counted (vm_display_time_unit v) amount) (map snd h) ->
  times_ordered t0 h q ->
  instant_run value_meter_update value_meter_put k v h = Some v' ->
  value_meter_put v' d [] k (frozen q) = Ok (v'', s) c3 ->
  smoothing_factors al -> 0 <= hi < two64 ->
  (forall i, 0 <= marked_in t0 (instant_marks amount h) i <= hi) ->
  exists n r1 r5 r15,
    s = meter_items (m_name (vm_meter v)) n (window_item (m_one_minute (vm_meter v)) "one_minute" r1)
          (window_item (m_five_minute (vm_meter v)) "five_minutes" r5)
          (window_item (m_fifteen_minute (vm_meter v)) "fifteen_minutes" r15)
    /\ Forall (acceptable hi) [r1; r5; r15].
Proof. exact value_meter_rates_range. Qed.
Print Assumptions c11_rates_range.

Example c11_rates_range_case : forall i,
  0 <= marked_in 0 (instant_marks c11_case_amount (map (fun o => (7, o)) c11_case_ops)) i <= 2540.
Proof.
  intros i. change (instant_marks c11_case_amount (map (fun o => (7, o)) c11_case_ops)) with [(7, 40); (7, 2500)].
  unfold marked_in. cbn [filter fst]. destruct (interval5 0 7 =? i); vm_compute; split; discriminate.
Qed.

(** ** C12 *)

(** It is false that the first rate is v/5 when the values of the first
    interval sum up to v: a single value -5 gives a rate above 10^18. *)
Theorem c12_rate_of_negative_values_refuted :
  exists (h : list (Z * meter_op)) v v' v'' r c1 c2,
    h = [(0, MUpdate (ObservationWithValue (SignedInteger (-5)) 0))]
    /\ value_meter_new (Alphas f64_zero f64_zero f64_zero) "m" debug (frozen 0) = Ok v c1
    /\ instant_run value_meter_update value_meter_put debug v h = Some v'
    /\ value_meter_put v' false [] debug (frozen 5000000000)
       = Ok (v'', [("m"%string, ItemSnapshot [("count"%string, UInt (two64 - 5));
                                              ("one_minute"%string, ItemSnapshot [("rate"%string, Float r)])])]) c2
    /\ SFltb (f64_of_Z (10 ^ 18)) r = true.
Proof.
  eexists _, _, _, _, _, _, _. split; [reflexivity|]. split; [vm_compute; reflexivity|].
  split; [vm_compute; reflexivity|]. split; [vm_compute; reflexivity|]. vm_compute. reflexivity.
Qed.
Print Assumptions c12_rate_of_negative_values_refuted.

(** It does hold if the sum is not negative, even if some values are: the first
    shown rate is the quotient, computed in floating point ... *)
Theorem c12_first_rate_partial : forall al name k t0 v0 c1 v amount h v' q d v'' s c3,
  value_meter_new al name k (frozen t0) = Ok v0 c1 ->
  m_inner (vm_meter v) = m_inner (vm_meter v0) -> m_descr (vm_meter v) = no_descr ->
  Forall (vm_ops_counted (vm_display_time_unit v) amount) (map snd h) ->
  times_ordered t0 h q ->
  (forall t o, In (t, o) h -> t < t0 + 5000000000) -> t0 + 5000000000 <= q < t0 + 10000000000 ->
  0 <= sum (amounts amount (map snd h)) < two64 ->
  instant_run value_meter_update value_meter_put k v h = Some v' ->
  value_meter_put v' d [] k (frozen q) = Ok (v'', s) c3 ->
  let n := sum (amounts amount (map snd h)) in
  let r := shown_rate (m_lower_cutoff (vm_meter v)) (interval_per_second n) in
  s = meter_items (m_name (vm_meter v)) n (window_item (m_one_minute (vm_meter v)) "one_minute" r)
        (window_item (m_five_minute (vm_meter v)) "five_minutes" r)
        (window_item (m_fifteen_minute (vm_meter v)) "fifteen_minutes" r).
Proof. exact value_meter_first_rate. Qed.
Print Assumptions c12_first_rate_partial.

(** ... which is the exact quotient up to a relative error of 2^-51. *)
Theorem c12_quotient_is_close : forall v, 0 <= v <= 2 ^ 53 ->
  (Rabs (real (interval_per_second v) - IZR v / 5) <= IZR v / 5 * bpow radix2 (-51))%R.
Proof. exact interval_per_second_close. Qed.
Print Assumptions c12_quotient_is_close.

(** 20 - 5 in five seconds *)
Example c12_first_rate_case :
  let h := [(0, MUpdate (ObservationWithValue (SignedInteger 20) 0));
            (1, MUpdate (ObservationWithValue (SignedInteger (-5)) 0))] in
  let amount u := match u with ObservationWithValue (SignedInteger z) _ => Some z | _ => None end in
  Forall (vm_ops_counted Microseconds amount) (map snd h)
  /\ sum (amounts amount (map snd h)) = 15
  /\ match value_meter_new (Alphas f64_zero f64_zero f64_zero) "m" debug (frozen 0) with
     | Ok v _ =>
         match instant_run value_meter_update value_meter_put debug v h with
         | Some v' =>
             match value_meter_put v' false [] debug (frozen 5000000000) with
             | Ok (_, [(_, ItemSnapshot [_; (one, ItemSnapshot [(_, Float r)])])]) _ => r = f64_of_Z 3
             | _ => False
             end
         | None => False
         end
     | _ => False
     end.
Proof.
  cbv zeta. split; [|split; [reflexivity|vm_compute; reflexivity]].
  apply Forall_cons.
  { split; [split; discriminate|]. cbn. apply vc_number, eff_number with (q := inject_Z 20);
      [reflexivity|left; reflexivity|split; discriminate]. }
  apply Forall_cons; [|apply Forall_nil].
  split; [split; discriminate|]. cbn. apply vc_number, eff_number with (q := inject_Z (-5));
      [reflexivity|left; reflexivity|split; discriminate].
Qed.
