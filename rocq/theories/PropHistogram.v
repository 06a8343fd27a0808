(** C14: a histogram records exactly the usable values since its last reset.
    C15: an inactive histogram shows no values and an active one does. *)
From Coq Require Import ZArith Bool String List Lia.
From Verif Require Import Base SpecRun SpecCounting SpecObservation SpecGauge SpecHistogram
  ModelObservation ModelSnapshot ModelHistogram HistogramProofs.
Import ListNotations.
Open Scope Z_scope.

(** From the creation at [start], with any settings, through any updates at any
    instants: the reservoir holds the samples since the last reset. *)
Theorem c14_samples_since_last_reset : forall H contents (Hc : counting H contents)
  k name start x0 c0 x1 us es x,
  histogram_new H name k (frozen start) = Ok x0 c0 ->
  h_inner x1 = h_inner x0 -> h_last_update x1 = h_last_update x0 ->
  (forall l, h_max_inactivity x1 = Some l -> 0 <= l) ->
  Forall update_ok (map snd us) -> effects_of (h_display_time_unit x1) us es ->
  run_timed histogram_op k x1 (at_instants us) = Some x ->
  samples_kept start (h_max_inactivity x1) (h_reset_after_inactivity x1) es (contents (h_inner x)).
Proof. exact histogram_samples. Qed.
Print Assumptions c14_samples_since_last_reset.

(** Every usable value is reported as one update, everything else as none. *)
Theorem c14_reports : forall H contents (Hc : counting H contents) (x : histogram H) u e k t x' n c',
  update_ok u -> update_effect (h_display_time_unit x) u e ->
  histogram_update x u k (frozen t) = Ok (x', n) c' -> n = Z.of_nat (List.length (sample e)).
Proof. exact histogram_reports. Qed.
Print Assumptions c14_reports.

(** The statistics, with the number of these samples, are shown iff the histogram is
    active; the activity fields, if shown, say so. *)
Theorem c15_shown_iff_active : forall H contents (Hc : counting H contents)
  k name start x0 c0 x1 us es x d q s q',
  histogram_new H name k (frozen start) = Ok x0 c0 ->
  h_inner x1 = h_inner x0 -> h_last_update x1 = h_last_update x0 -> h_descr x1 = no_descr ->
  (forall l, h_max_inactivity x1 = Some l -> 0 < l) ->
  Forall update_ok (map snd us) -> effects_of (h_display_time_unit x1) us es ->
  run_timed histogram_op k x1 (at_instants us) = Some x ->
  histogram_put x d [] k q = Ok s q' ->
  exists vs a,
    samples_kept start (h_max_inactivity x1) (h_reset_after_inactivity x1) es vs
    /\ contents (h_inner x) = vs
    /\ (a = true <-> active start (h_max_inactivity x1) es (q O))
    /\ s = [(h_name x1, ItemSnapshot
             ((match h_max_inactivity x1 with
               | Some _ => if h_show_activity_state x1 then activity_fields a else []
               | None => []
               end)
              ++ (if a then statistics (histo_snapshot H (h_inner x)) (List.length vs) else [])))].
Proof. exact histogram_shows. Qed.
Print Assumptions c15_shown_iff_active.

(** A reservoir that keeps everything. *)
Example toy_snap (l : list Z) : histo_snap :=
  HistoSnap (Z.of_nat (List.length l)) (fold_left Z.min l 1000) (fold_left Z.max l 0) f64_zero f64_zero (fun q => q).

Example toy : histo_ops :=
  HistoOps (list Z) (let* _ := now in ret []) (fun l v => let* _ := now in ret (l ++ [v])) toy_snap.

Example toy_counts : counting toy (fun l => l).
Proof.
  constructor.
  - intros k c x c' E. cbn in E. injection E as <- <-. split; [reflexivity|]. exists 1%nat. reflexivity.
  - intros x v k c x' c' E. cbn in E. injection E as <- <-. split; [reflexivity|]. exists 1%nat. reflexivity.
  - reflexivity.
Qed.

(** Limit 10: the updates at 16 and 17 arrive more than 10 after the last recorded
    value. *)
Example c14_updates : list (Z * update) :=
  [(3, ObservationWithValue (SignedInteger 4) 0); (5, ObservationWithValue (DurationValue 7000 Nanoseconds) 0);
   (8, ObservationWithValue (ChangedBy 1) 0); (16, OneObservation 0);
   (17, ObservationWithValue (UnsignedInteger 9) 0)].

Example c14_effects : events := [(3, Sets 4); (5, Sets 7); (8, Changes 1); (16, Nothing); (17, Sets 9)].

Example c14_case :
  let x1 := Histogram "h" no_descr ([] : histo toy) 0 (Some 10) true true Microseconds in
  Forall update_ok (map snd c14_updates) /\ effects_of Microseconds c14_updates c14_effects
  /\ (exists c0, match histogram_new toy "h" release (frozen 0) with
                 | Ok x0 c => c = c0 /\ h_inner x0 = h_inner x1 /\ h_last_update x0 = h_last_update x1
                 | _ => False
                 end)
  /\ samples_kept 0 (Some 10) true c14_effects [9]
  /\ match run_timed histogram_op release x1 (at_instants c14_updates) with
     | Some x => h_inner x = [9]
         /\ (exists q', histogram_put x false [] release (frozen 26)
             = Ok [("h"%string, ItemSnapshot (activity_fields true ++ statistics (toy_snap [9]) 1))] q')
         /\ (exists q', histogram_put x false [] release (frozen 27)
             = Ok [("h"%string, ItemSnapshot (activity_fields false))] q')
     | None => False
     end.
Proof.
  cbv zeta. split; [|split; [|split; [|split]]].
  - constructor; [split; discriminate|]. constructor; [split; discriminate|].
    constructor; [split; discriminate|]. constructor; [exact I|]. constructor; [split; discriminate|constructor].
  - constructor; [split; [reflexivity|]|].
    { apply eff_with_value. eapply eff_number; [reflexivity| |split; discriminate]. left. reflexivity. }
    constructor; [split; [reflexivity|]|].
    { apply eff_with_value. apply (eff_duration Microseconds 7000 Nanoseconds). discriminate. }
    constructor; [split; [reflexivity|apply eff_with_value, eff_change]|].
    constructor; [split; [reflexivity|apply eff_one]|].
    constructor; [split; [reflexivity|]|constructor].
    apply eff_with_value. eapply eff_number; [reflexivity| |split; discriminate]. left. reflexivity.
  - eexists. split; [reflexivity|]. split; reflexivity.
  - apply (kept_since 0 (Some 10) true [(3, Sets 4); (5, Sets 7); (8, Changes 1); (16, Nothing)] 17 (Sets 9) []).
    + split; [reflexivity|]. exists 10, 5. split; [reflexivity|]. split; [|lia].
      apply (recorded_at 0 [(3, Sets 4)] 5 7 [(8, Changes 1); (16, Nothing)]). reflexivity.
    + intros a t e b E. destruct a; discriminate E.
  - split; [reflexivity|]. split.
    + exists (clock_tail (frozen 26)). reflexivity.
    + exists (clock_tail (frozen 27)). reflexivity.
Qed.
