(** C86: the rates of a meter are those of one, five and fifteen minutes. *)
From Coq Require Import ZArith Bool String List Reals Floats.SpecFloat.
From Coq Require Lra Lia.
From Verif Require Import Base SpecRun SpecCounting SpecObservation SpecGauge SpecMeter SpecAverage SpecAlpha
  ModelObservation ModelSnapshot ModelMeter ModelAlpha FloatReal AverageShown AlphaProofs AlphaCases PropMeter.
Import ListNotations.
Open Scope Z_scope.

(** The smoothing factors that are computed at run time are fit for use and are
    those of the three windows, if [exp] is accurate. *)
Theorem c86_factors : forall exp64, accurate_exp exp64 ->
  let near a minutes := (Rabs (real a - window_factor minutes) <= / 2 ^ 51)%R in
  smoothing_factors (std_alphas exp64) /\ positive_factors (std_alphas exp64)
  /\ near (alpha1 (std_alphas exp64)) 1%nat /\ near (alpha5 (std_alphas exp64)) 5%nat
  /\ near (alpha15 (std_alphas exp64)) 15%nat.
Proof. exact std_alphas_near. Qed.
Print Assumptions c86_factors.

(** An accurate function with the results of a usual libm, and what it gives. *)
Example c86_factors_case : accurate_exp exp_libm /\ std_alphas exp_libm = real_alphas.
Proof. split; [exact libm_accurate | vm_compute; reflexivity]. Qed.

(** Each rate is close to the exact moving average of its window. With [c] events
    in each interval of a whole window, what the rate was before the window has
    come down to [1 / e] of its difference from the load of the window. *)
Theorem c86_windows : forall exp64 name k t0 m0 c1 m h m' q d m'' s c3 hi,
  accurate_exp exp64 ->
  meter_new (std_alphas exp64) name k (frozen t0) = Ok m0 c1 ->
  m_inner m = m_inner m0 -> m_descr m = no_descr ->
  ops_ok (map snd h) -> times_ordered t0 h q ->
  instant_run meter_update meter_put k m h = Some m' ->
  meter_put m' d [] k (frozen q) = Ok (m'', s) c3 ->
  0 <= hi < two64 -> (forall i, marked_in t0 (instant_marks meter_amount h) i <= hi) ->
  let l := instant_marks meter_amount h in
  let about w r :=
    (Rabs (real r - averaged (window_factor w) (loads t0 l q)) <= 2 * tolerance (window_factor w) hi
     /\ forall c, steady t0 l q w c ->
        Rabs (real r - (IZR c / 5 + (averaged (window_factor w) (loads t0 l (q - Z.of_nat w * minute)) - IZR c / 5) * exp (-1)))
        <= 2 * tolerance (window_factor w) hi)%R in
  exists n r1 r5 r15,
    s = meter_items (m_name m) n
          (window_item (m_one_minute m) "one_minute" (shown_rate (m_lower_cutoff m) r1))
          (window_item (m_five_minute m) "five_minutes" (shown_rate (m_lower_cutoff m) r5))
          (window_item (m_fifteen_minute m) "fifteen_minutes" (shown_rate (m_lower_cutoff m) r15))
    /\ about 1%nat r1 /\ about 5%nat r5 /\ about 15%nat r15.
Proof. exact meter_windows. Qed.
Print Assumptions c86_windows.

(** Ten events in the first five seconds, and then one every five seconds for a
    minute: the rate of one minute has come down from 2 to about 0.86, that is
    0.2 + 1.8 / e. *)
Example c86_history : list (Z * meter_op) :=
  (1000000000, MUpdate (Observations 10 0))
  :: map (fun i => (5000000000 * i + 1000000000, MUpdate (OneObservation 0))) [1; 2; 3; 4; 5; 6; 7; 8; 9; 10; 11; 12].

Example c86_windows_case :
  ops_ok (map snd c86_history) /\ times_ordered 0 c86_history 65000000000
  /\ steady 0 (instant_marks meter_amount c86_history) 65000000000 1 1
  /\ loads 0 (instant_marks meter_amount c86_history) (65000000000 - minute) = [10 / 5]%R
  /\ match meter_new real_alphas "m" debug (frozen 0) with
     | Ok m _ =>
         match instant_run meter_update meter_put debug m c86_history with
         | Some m' =>
             match meter_put m' false [] debug (frozen 65000000000) with
             | Ok (_, [(_, ItemSnapshot (_ :: (_, ItemSnapshot [(n, Float r)]) :: _))]) _ =>
                 n = "rate"%string /\ SFltb (f64_div (f64_of_Z 862) (f64_of_Z 1000)) r = true
                 /\ SFltb r (f64_div (f64_of_Z 863) (f64_of_Z 1000)) = true
             | _ => False
             end
         | None => False
         end
     | _ => False
     end.
Proof.
  split; [repeat constructor; discriminate|].
  split; [repeat (constructor; [discriminate|]); constructor; discriminate|].
  split; [split; [reflexivity|]|split; [reflexivity|vm_compute]].
  - change (interval5 0 65000000000) with 13. change (12 * Z.of_nat 1) with 12. intros i Hi.
    assert (H : i = 1 \/ i = 2 \/ i = 3 \/ i = 4 \/ i = 5 \/ i = 6 \/ i = 7 \/ i = 8 \/ i = 9 \/ i = 10 \/ i = 11 \/ i = 12) by Lia.lia.
    repeat destruct H as [-> | H]; [reflexivity ..|]. subst i. reflexivity.
  - repeat split.
Qed.

(** The same holds for the values of a value meter, if those of no interval sum
    up to a negative number (see C12). *)
Theorem c86_values : forall exp64 name k t0 v0 c1 v amount h v' q d v'' s c3 hi,
  accurate_exp exp64 ->
  value_meter_new (std_alphas exp64) name k (frozen t0) = Ok v0 c1 ->
  m_inner (vm_meter v) = m_inner (vm_meter v0) -> m_descr (vm_meter v) = no_descr ->
  Forall (vm_ops_counted (vm_display_time_unit v) amount) (map snd h) -> times_ordered t0 h q ->
  instant_run value_meter_update value_meter_put k v h = Some v' ->
  value_meter_put v' d [] k (frozen q) = Ok (v'', s) c3 ->
  0 <= hi < two64 -> (forall i, 0 <= marked_in t0 (instant_marks amount h) i <= hi) ->
  let l := instant_marks amount h in
  let about w r :=
    (Rabs (real r - averaged (window_factor w) (loads t0 l q)) <= 2 * tolerance (window_factor w) hi
     /\ forall c, steady t0 l q w c ->
        Rabs (real r - (IZR c / 5 + (averaged (window_factor w) (loads t0 l (q - Z.of_nat w * minute)) - IZR c / 5) * exp (-1)))
        <= 2 * tolerance (window_factor w) hi)%R in
  let m := vm_meter v in
  exists n r1 r5 r15,
    s = meter_items (m_name m) n
          (window_item (m_one_minute m) "one_minute" (shown_rate (m_lower_cutoff m) r1))
          (window_item (m_five_minute m) "five_minutes" (shown_rate (m_lower_cutoff m) r5))
          (window_item (m_fifteen_minute m) "fifteen_minutes" (shown_rate (m_lower_cutoff m) r15))
    /\ about 1%nat r1 /\ about 5%nat r5 /\ about 15%nat r15.
Proof. exact value_meter_windows. Qed.
Print Assumptions c86_values.

(** The values 12 and -2, and then the value 1 every five seconds *)
Example c86_values_amount (u : update) : option Z :=
  match u with ObservationWithValue (SignedInteger z) _ => Some z | _ => None end.

Example c86_values_history : list (Z * meter_op) :=
  [(1000000000, MUpdate (ObservationWithValue (SignedInteger 12) 0)); (2000000000, MUpdate (ObservationWithValue (SignedInteger (-2)) 0))]
  ++ map (fun i => (5000000000 * i + 1000000000, MUpdate (ObservationWithValue (SignedInteger 1) 0))) [1; 2; 3; 4; 5; 6; 7; 8; 9; 10; 11; 12].

Example c86_values_case :
  Forall (vm_ops_counted Microseconds c86_values_amount) (map snd c86_values_history)
  /\ times_ordered 0 c86_values_history 65000000000
  /\ steady 0 (instant_marks c86_values_amount c86_values_history) 65000000000 1 1
  /\ loads 0 (instant_marks c86_values_amount c86_values_history) (65000000000 - minute) = [10 / 5]%R
  /\ match value_meter_new real_alphas "m" debug (frozen 0) with
     | Ok v _ =>
         match instant_run value_meter_update value_meter_put debug v c86_values_history with
         | Some v' =>
             match value_meter_put v' false [] debug (frozen 65000000000) with
             | Ok (_, [(_, ItemSnapshot (_ :: (_, ItemSnapshot [(n, Float r)]) :: _))]) _ =>
                 n = "rate"%string /\ SFltb (f64_div (f64_of_Z 862) (f64_of_Z 1000)) r = true
                 /\ SFltb r (f64_div (f64_of_Z 863) (f64_of_Z 1000)) = true
             | _ => False
             end
         | None => False
         end
     | _ => False
     end.
Proof.
  split.
  { repeat (apply Forall_cons; [split; [split; discriminate|]; cbn [c86_values_amount];
      match goal with |- context [SignedInteger ?z] =>
        apply vc_number, eff_number with (q := QArith_base.inject_Z z); [reflexivity | left; reflexivity | split; discriminate]
      end|]). apply Forall_nil. }
  split; [repeat (constructor; [discriminate|]); constructor; discriminate|].
  split; [split; [reflexivity|]|split; [reflexivity|vm_compute]].
  - change (interval5 0 65000000000) with 13. change (12 * Z.of_nat 1) with 12. intros i Hi.
    assert (H : i = 1 \/ i = 2 \/ i = 3 \/ i = 4 \/ i = 5 \/ i = 6 \/ i = 7 \/ i = 8 \/ i = 9 \/ i = 10 \/ i = 11 \/ i = 12) by Lia.lia.
    repeat destruct H as [-> | H]; [reflexivity ..|]. subst i. reflexivity.
  - repeat split.
Qed.
