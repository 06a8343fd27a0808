(** C03: a gauge shows the last value set plus the later changes.
    C04: delta-only and inc/dec gauges count exactly the right observations. *)
From Coq Require Import ZArith QArith Bool String List Lia Floats.SpecFloat.
From Verif Require Import Base SpecRun SpecCounting SpecObservation SpecGauge
  ModelObservation ModelLabelFilter ModelSnapshot ModelBuckets ModelGauge
  FloatProofs GaugeProofs GaugeAdapterProofs.
Import ListNotations.
Open Scope Z_scope.

(** Every build, with or without tracking: a gauge that had no value shows the
    exact value (last set + later changes) wrapped to i64, so the exact value
    itself whenever that is an i64. *)
Theorem c03_last_set_plus_changes : forall g us es v k c g' ns c',
  gauge_get g = None ->
  Forall update_ok us -> Forall2 (update_effect (g_display_time_unit g)) us es -> exact_value es v ->
  run_all gauge_update g us k c = Ok (g', ns) c' ->
  gauge_get g' = option_map wrap_i64 v
  /\ (forall z, v = Some z -> in_i64 z -> gauge_get g' = Some z).
Proof. exact gauge_last_set_plus_changes. Qed.
Print Assumptions c03_last_set_plus_changes.

Example c03_case_updates : list update :=
  [ObservationWithValue (ChangedBy 5) 0; ObservationWithValue (SignedInteger 100) 1;
   OneObservation 2; ObservationWithValue (DurationValue 7 Microseconds) 3;
   ObservationWithValue (ChangedBy (-3)) 4; ObservationWithValue (BoolValue true) 5].

Example c03_last_set_plus_changes_case :
  let g := gauge_new "g" in
  let es := [Changes 5; Sets 100; Nothing; Sets (7 * 1000 / 1000); Changes (-3); Nothing] in
  Forall update_ok c03_case_updates
  /\ Forall2 (update_effect (g_display_time_unit g)) c03_case_updates es
  /\ exact_value es (Some 4)
  /\ match run_all gauge_update g c03_case_updates debug (frozen 0) with
     | Ok (g', ns) _ => gauge_get g' = Some 4 /\ ns = [1; 1; 0; 1; 1; 1]
     | _ => False
     end.
Proof.
  cbv zeta. split; [|split; [|split]].
  - repeat constructor; discriminate.
  - apply Forall2_cons; [apply eff_with_value, eff_change|].
    apply Forall2_cons.
    { apply eff_with_value, eff_number with (q := inject_Z 100);
        [reflexivity|left; reflexivity|split; discriminate]. }
    apply Forall2_cons; [apply eff_one|].
    apply Forall2_cons; [apply eff_with_value, (eff_duration Microseconds 7 Microseconds); discriminate|].
    apply Forall2_cons; [apply eff_with_value, eff_change|].
    apply Forall2_cons; [apply eff_with_value, eff_bool|apply Forall2_nil].
  - apply (exact_set [Changes 5; Sets 100; Nothing] 7 [Changes (-3); Nothing]).
    repeat constructor; intros [z Hz]; discriminate.
  - vm_compute. split; reflexivity.
Qed.

(** A gauge that already has a value goes on as if that had just been set. *)
Theorem c03_continues : forall g z us es v k c g' ns c',
  gauge_get g = Some z -> in_i64 z ->
  Forall update_ok us -> Forall2 (update_effect (g_display_time_unit g)) us es ->
  exact_value (Sets z :: es) v ->
  run_all gauge_update g us k c = Ok (g', ns) c' ->
  gauge_get g' = option_map wrap_i64 v
  /\ (forall z, v = Some z -> in_i64 z -> gauge_get g' = Some z).
Proof. exact gauge_continues. Qed.
Print Assumptions c03_continues.

Example c03_continues_case :
  let g := Gauge "g" no_descr (Some 40) None Seconds false in
  exact_value [Sets 40; Changes 5; Nothing; Changes (-3)] (Some 42)
  /\ match run_all gauge_update g
            [ObservationWithValue (ChangedBy 5) 0; ObservationWithValue (BoolValue true) 1;
             ObservationWithValue (ChangedBy (-3)) 2] debug (frozen 0) with
     | Ok (g', _) _ => gauge_get g' = Some 42
     | _ => False
     end.
Proof.
  cbv zeta. split.
  - apply (exact_set [] 40 [Changes 5; Nothing; Changes (-3)]).
    repeat constructor; intros [z Hz]; discriminate.
  - vm_compute. reflexivity.
Qed.

(** Every observation with a value is reported as one update, nothing else is. *)
Theorem c03_reports : forall g us es k c g' ns c',
  opt_in_i64 (gauge_get g) ->
  Forall update_ok us -> Forall2 (update_effect (g_display_time_unit g)) us es ->
  run_all gauge_update g us k c = Ok (g', ns) c' ->
  ns = map (fun u => match u with ObservationWithValue _ _ => 1 | _ => 0 end) us.
Proof. exact gauge_reports. Qed.
Print Assumptions c03_reports.

(** The snapshot shows that value: under the name of the gauge or, when grouped,
    as [current]; without tracking nothing else. *)
Theorem c03_shown : forall g k c g' s c',
  gauge_put g false [] k c = Ok (g', s) c' ->
  match gauge_get g with
  | None => s = (if g_group_values g then [(g_name g, ItemSnapshot [])] else [])
  | Some z =>
      if g_group_values g
      then exists rest, s = [(g_name g, ItemSnapshot (("current"%string, Int z) :: rest))]
                        /\ (g_tracking g = None -> rest = [])
      else exists rest, s = (g_name g, Int z) :: rest /\ (g_tracking g = None -> rest = [])
  end.
Proof. exact gauge_shows_value. Qed.
Print Assumptions c03_shown.

Example c03_shown_case :
  match gauge_put (Gauge "g" no_descr (Some 4) None Seconds true) false [] debug (frozen 0) with
  | Ok (_, s) _ => s = [("g"%string, ItemSnapshot [("current"%string, Int 4)])]
  | _ => False
  end.
Proof. reflexivity. Qed.

(** Without overflow checks no history panics. *)
Theorem c03_release_never_panics : forall g us es k c,
  overflow_checks k = false -> g_tracking g = None -> gauge_get g = None ->
  Forall update_ok us -> Forall2 (update_effect (g_display_time_unit g)) us es ->
  exists g' ns, run_all gauge_update g us k c = Ok (g', ns) c.
Proof. exact gauge_release_never_panics. Qed.
Print Assumptions c03_release_never_panics.

Example c03_release_never_panics_case :
  match run_all gauge_update (gauge_new "g")
          [ObservationWithValue (SignedInteger i64_max) 0; ObservationWithValue (ChangedBy 1) 1]
          release (frozen 0) with
  | Ok (g', _) _ => gauge_get g' = Some i64_min
  | _ => False
  end.
Proof. reflexivity. Qed.

(** With overflow checks it panics exactly when an intermediate exact value is
    not an i64. *)
Theorem c03_checked_panics : forall g us es k c,
  overflow_checks k = true -> g_tracking g = None -> gauge_get g = None ->
  Forall update_ok us -> Forall2 (update_effect (g_display_time_unit g)) us es ->
  (run_all gauge_update g us k c = Panic
   <-> exists p s z, es = p ++ s /\ exact_value p (Some z) /\ ~ in_i64 z).
Proof. exact gauge_checked_panics. Qed.
Print Assumptions c03_checked_panics.

Example c03_checked_panics_case :
  run_all gauge_update (gauge_new "g")
    [ObservationWithValue (SignedInteger i64_max) 0; ObservationWithValue (ChangedBy 1) 1;
     ObservationWithValue (SignedInteger 3) 2]
    debug (frozen 0) = Panic.
Proof. reflexivity. Qed.

(** A limit of the statement: a duration of 2^63 or more display units is shown
    as a negative number. *)
Theorem c03_huge_durations_turn_negative : forall g t ts k c,
  two63 <= t <= u64_max -> g_tracking g = None ->
  exists g', gauge_update g (ObservationWithValue (DurationValue t (g_display_time_unit g)) ts) k c = Ok (g', 1) c
             /\ gauge_get g' = Some (t - two64).
Proof. exact gauge_huge_duration. Qed.
Print Assumptions c03_huge_durations_turn_negative.

Example c03_huge_durations_turn_negative_case :
  match gauge_update (Gauge "g" no_descr (Some 1) None Nanoseconds false)
          (ObservationWithValue (DurationValue u64_max Nanoseconds) 0) release (frozen 0) with
  | Ok (g', _) _ => gauge_get g' = Some (-1)
  | _ => False
  end.
Proof. reflexivity. Qed.

(** ** C04 *)

(** A deltas-only gauge, with any filter, any update modifier and any start
    value, with or without tracking: it moves by exactly the changes of accepted
    labels; each of these, and nothing else, is reported as one update. *)
Theorem c04_deltas_only : forall (L : Type) (eqb : L -> L -> bool) f m g os k c a' ns c',
  opt_in_i64 (gauge_get g) ->
  Forall (fun o => Forall in_i64 (accepted_change (accepts eqb f) (modify m) o)) os ->
  run_all (ga_handle eqb) (GaugeAdapter (GDeltasOnly f) g m) os k c = Ok (a', ns) c' ->
  let ds := accepted_changes (accepts eqb f) (modify m) os in
  gauge_get (ga_gauge a') = option_map wrap_i64 (changed_by ds (gauge_get g))
  /\ ns = map (fun o => Z.of_nat (length (accepted_change (accepts eqb f) (modify m) o))) os.
Proof. exact @deltas_only_value. Qed.
Print Assumptions c04_deltas_only.

Theorem c04_deltas_only_exact : forall (L : Type) (eqb : L -> L -> bool) f m g os k c,
  opt_in_i64 (gauge_get g) -> g_tracking g = None ->
  Forall (fun o => Forall in_i64 (accepted_change (accepts eqb f) (modify m) o)) os ->
  (forall p s, os = p ++ s ->
     opt_in_i64 (changed_by (accepted_changes (accepts eqb f) (modify m) p) (gauge_get g))) ->
  exists a' ns, run_all (ga_handle eqb) (GaugeAdapter (GDeltasOnly f) g m) os k c = Ok (a', ns) c
    /\ gauge_get (ga_gauge a')
       = changed_by (accepted_changes (accepts eqb f) (modify m) os) (gauge_get g).
Proof. exact @deltas_only_exact. Qed.
Print Assumptions c04_deltas_only_exact.

Example c04_deltas_only_case :
  let os := [Observed 1 3 0; ObservedOneValue 1 (SignedInteger 77) 0;
             ObservedOneValue 1 (ChangedBy 5) 0; ObservedOneValue 2 (ChangedBy 100) 0;
             ObservedOneValue 3 (ChangedBy (-7)) 0] in
  let a := ga_deltas_only (Two 1 3) (gauge_new "g") in
  accepted_changes (accepts Z.eqb (Two 1 3)) (fun _ u => u) os = [5; -7]
  /\ match run_all (ga_handle Z.eqb) a os debug (frozen 0) with
     | Ok (a', ns) _ => gauge_get (ga_gauge a') = Some (-2) /\ ns = [0; 0; 1; 0; 1]
     | _ => False
     end.
Proof. vm_compute. repeat split. Qed.

(** An inc/dec gauge: increments minus pure decrements, whatever the
    observations carry. *)
Theorem c04_inc_dec : forall (L : Type) (eqb : L -> L -> bool) inc dec m g os k c a' ns c',
  opt_in_i64 (gauge_get g) ->
  run_all (ga_handle eqb) (GaugeAdapter (GIncDecOnLabels inc dec) g m) os k c = Ok (a', ns) c' ->
  let incs := how_many (accepts eqb inc) os in
  let decs := how_many (fun l => negb (accepts eqb inc l) && accepts eqb dec l) os in
  gauge_get (ga_gauge a')
  = option_map wrap_i64
      (match gauge_get g with
       | Some z => Some (z + (incs - decs))
       | None => if incs + decs =? 0 then None else Some (incs - decs)
       end)
  /\ sum ns = incs + decs.
Proof. exact @inc_dec_value. Qed.
Print Assumptions c04_inc_dec.

(** ... and fewer than 2^63 observations never overflow, in no build. *)
Theorem c04_inc_dec_exact : forall (L : Type) (eqb : L -> L -> bool) inc dec m g os k c,
  g_tracking g = None -> gauge_get g = None -> Z.of_nat (length os) <= i64_max ->
  exists a' ns, run_all (ga_handle eqb) (GaugeAdapter (GIncDecOnLabels inc dec) g m) os k c = Ok (a', ns) c
    /\ gauge_get (ga_gauge a')
       = (let incs := how_many (accepts eqb inc) os in
          let decs := how_many (fun l => negb (accepts eqb inc l) && accepts eqb dec l) os in
          if incs + decs =? 0 then None else Some (incs - decs)).
Proof. exact @inc_dec_exact. Qed.
Print Assumptions c04_inc_dec_exact.

Example c04_inc_dec_case :
  let os := [Observed 1 3 0; ObservedOne 1 0; ObservedOne 2 0; ObservedOneValue 2 (ChangedBy 5) 0;
             ObservedOne 3 0; ObservedOne 2 0; ObservedOne 4 0; Observed 2 0 0] in
  let a := ga_inc_dec_on (Two 1 3) (Two 2 3) (gauge_new "g") in
  match run_all (ga_handle Z.eqb) a os debug (frozen 0) with
  | Ok (a', ns) _ => gauge_get (ga_gauge a') = Some (-1) /\ ns = [1; 1; 1; 1; 1; 1; 0; 1]
  | _ => False
  end.
Proof. vm_compute. repeat split. Qed.
