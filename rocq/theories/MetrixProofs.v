(** The driver's own metrics over any number of iterations. *)
From Coq Require Import ZArith Bool String List Lia.
From Verif Require Import Base SpecRun MonadFacts SpecClock ClockProofs ModelObservation ModelLabelFilter ModelSnapshot ModelGauge ModelMeter
  ModelHistogram ModelSwitches ModelInstrument ModelTree ModelChannel ModelProcessor ModelDriver SpecWriting WritingProofs AppendProofs SpecTree
  SpecQueue SpecCollect WorldClockProofs SpecDriver DriverProofs DriverLoopProofs DriverMetricsProofs DriverShapeProofs DriverAlarmProofs SpecSite SiteProofs LivesDriver
  SpecMetrix.
Import ListNotations.
Open Scope string_scope.
Open Scope list_scope.
Open Scope Z_scope.

Section Metrix.
  Context {X : ext} {Y : pext}.
  Context (HX : parts_tick X) (HY : processors_tick Y).
  Implicit Types (d : driver X Y) (w : dworld X Y) (i : driver_instruments X).

  Lemma own_ticks : parts_tick (own X).
  Proof. destruct HX. split; cbn; try assumption; intros []. Qed.
  Lemma own_appends : parts_append (own X).
  Proof. split; cbn; intros []. Qed.

  (** ** Lives *)

  Lemma life_from : forall k c0 c x os y c', later c0 c -> leaf_life (X := own X) k c x os y c' -> leaf_life k c0 x os y c'.
  Proof. intros k c0 c x os y c' L H. exact (life_app _ _ _ [] _ _ (ll_end _ _ _ _ L) _ _ _ H). Qed.
  Lemma life_to : forall k c x os y c' c1, leaf_life (X := own X) k c x os y c' -> later c' c1 -> leaf_life k c x os y c1.
  Proof. intros k c x os y c' c1 H L. rewrite <- (app_nil_r os). exact (life_app _ _ _ _ _ _ H _ _ _ (ll_end _ _ _ _ L)). Qed.

  Lemma live_app : forall k c c1 c2 xs oss ys, live X k c c1 xs oss ys -> forall oss' zs, live X k c1 c2 ys oss' zs ->
    live X k c c2 xs (map (fun p => fst p ++ snd p) (combine oss oss')) zs.
  Proof.
    intros k c c1 c2 xs oss ys H. induction H as [|x os y xs oss ys L H IH]; intros oss' zs H'; inversion H'; subst; cbn; constructor; eauto.
    exact (life_app _ _ _ _ _ _ L _ _ _ H2).
  Qed.
  Lemma live_from : forall k c0 c c' xs oss ys, later c0 c -> live X k c c' xs oss ys -> live X k c0 c' xs oss ys.
  Proof. intros k c0 c c' xs oss ys L H. induction H; constructor; auto. eapply life_from; eassumption. Qed.
  Lemma live_to : forall k c c' c1 xs oss ys, live X k c c' xs oss ys -> later c' c1 -> live X k c c1 xs oss ys.
  Proof. intros k c c' c1 xs oss ys H L. induction H; constructor; auto. eapply life_to; eassumption. Qed.
  Lemma live_same : forall k c c' xs, later c c' -> live X k c c' xs (map (fun _ => []) xs) xs.
  Proof. intros k c c' xs L. induction xs; cbn; constructor; auto. constructor. exact L. Qed.

  Lemma told_app : forall rs ss rs' ss', told (rs ++ rs') (ss ++ ss') = map (fun p => fst p ++ snd p) (combine (told rs ss) (told rs' ss')).
  Proof. intros. unfold told, each, some, ratios. cbn. rewrite !map_app, !flat_map_app. reflexivity. Qed.
  Lemma told_nothing : forall i, told [] [] = map (fun _ => []) (metrics_of X i).
  Proof. reflexivity. Qed.

  (** ** Single updates *)

  Definition say (u : update) : observation unit :=
    match u with
    | Observations n t => Observed tt n t
    | OneObservation t => ObservedOne tt t
    | ObservationWithValue v t => ObservedOneValue tt v t
    end.

  Lemma one_life : forall k c x o y n c', leaf_handle (X := own X) o x k c = Ok (y, n) c' -> leaf_life k c x [o] y c'.
  Proof. intros. eapply ll_handles; [apply later_refl | eassumption | apply ll_end, later_refl]. Qed.

  Lemma meter_fed : forall m u k c m' n c', meter_update m u k c = Ok (m', n) c' -> leaf_life k c (own_meter X m) [say u] (own_meter X m') c'.
  Proof.
    intros m u k c m' n c' E. apply one_life with (n := n). unfold own_meter. cbn [leaf_handle]. unfold bind, instrument_update, wrap, bind.
    destruct u; cbn [say split_observation snd obs_label modify]; rewrite E; reflexivity.
  Qed.
  Lemma histogram_fed : forall (h : histogram (ex_histo X)) u k c h' n c', histogram_update h u k c = Ok (h', n) c' ->
    leaf_life k c (own_histogram X h) [say u] (own_histogram X h') c'.
  Proof.
    intros h u k c h' n c' E. apply one_life with (n := n). unfold own_histogram. cbn [leaf_handle]. unfold bind, instrument_update, wrap, bind.
    destruct u; cbn [say split_observation snd obs_label modify]; (change (ex_histo (own X)) with (ex_histo X); rewrite E; reflexivity).
  Qed.
  Lemma staircase_fed : forall t u k c t' n c', staircase_update t u k c = Ok (t', n) c' -> leaf_life k c (own_staircase X t) [say u] (own_staircase X t') c'.
  Proof.
    intros m u k c m' n c' E. apply one_life with (n := n). unfold own_staircase. cbn [leaf_handle]. unfold bind, instrument_update, wrap, bind.
    destruct u; cbn [say split_observation snd obs_label modify]; rewrite E; reflexivity.
  Qed.
  Lemma absence_fed : forall t u k c t' n c', non_occurrence_update t u k c = Ok (t', n) c' -> leaf_life k c (own_absence X t) [say u] (own_absence X t') c'.
  Proof.
    intros m u k c m' n c' E. apply one_life with (n := n). unfold own_absence. cbn [leaf_handle]. unfold bind, instrument_update, wrap, bind.
    destruct u; cbn [say split_observation snd obs_label modify]; rewrite E; reflexivity.
  Qed.
  Lemma gauge_fed : forall g u k c g' n c', gauge_update g u k c = Ok (g', n) c' -> leaf_life k c (own_gauge X g) [say u] (own_gauge X g') c'.
  Proof.
    intros g u k c g' n c' E. apply one_life with (n := n). unfold own_gauge. cbn [leaf_handle]. unfold bind, ga_handle.
    destruct u; cbn [say split_observation ga_strategy accepts negb ga_modify_update modify ga_gauge]; unfold bind; rewrite E; reflexivity.
  Qed.

  Lemma took_is : forall (a : Z) k (c : clock) v c', value_of_duration (Z.max 0 a) k c = Ok v c' -> v = took a /\ c' = c.
  Proof.
    intros a k c v c' E. unfold value_of_duration in E. set (x := Z.max 0 a) in *. assert (Hx : 0 <= x) by (unfold x; lia).
    apply bind_ok in E. destruct E as (s & c1 & E1 & E). apply bind_ok in E. destruct E as (n & c2 & E2 & E). injection E as <- <-.
    unfold took. fold x. unfold mul_u64, add_u64, u64_arith, arith in E1, E2.
    assert (Hs : as_secs x * 1000000000 + subsec_nanos x = x).
    { unfold as_secs, subsec_nanos. pose proof (Z.div_mod x nanos_per_sec). lia. }
    assert (S1 : s = (as_secs x * 1000000000) mod two64 /\ c1 = c).
    { destruct (_ && _) eqn:B in E1.
      - injection E1 as <- <-. apply andb_true_iff in B. split; [symmetry; apply Z.mod_small; lia | reflexivity].
      - destruct (overflow_checks k); [discriminate E1|]. injection E1 as <- <-. split; reflexivity. }
    destruct S1 as (-> & ->).
    assert (S2 : n = (as_secs x * 1000000000 mod two64 + subsec_nanos x) mod two64 /\ c2 = c).
    { destruct (_ && _) eqn:B in E2.
      - injection E2 as <- <-. apply andb_true_iff in B. split; [symmetry; apply Z.mod_small; lia | reflexivity].
      - destruct (overflow_checks k); [discriminate E2|]. injection E2 as <- <-. split; reflexivity. }
    destruct S2 as (-> & ->). rewrite Zplus_mod_idemp_l, Hs. auto.
  Qed.

  Lemma life_goes_on : forall k c (x : leaf (own X)) os y c', leaf_life k c x os y c' -> later c c'.
  Proof. exact (leaf_life_later own_ticks). Qed.

  Lemma updated_life : forall A (f : A -> leaf (own X)) k c (m : M (A * Z)) os x y c',
    updated m k c = Ok y c' -> (forall n, m k c = Ok (y, n) c' -> leaf_life k c x os (f y) c') -> leaf_life k c x os (f y) c'.
  Proof. intros A f k c m os x y c' E H. apply updated_inv in E. destruct E as (n & E). eauto. Qed.
  Lemma updated_if_life : forall A (f : A -> leaf (own X)) (b : bool) k c (m : A -> M (A * Z)) o x y c',
    updated_if b m x k c = Ok y c' -> (forall n, m x k c = Ok (y, n) c' -> leaf_life k c (f x) [o] (f y) c') ->
    leaf_life k c (f x) (if b then [o] else []) (f y) c'.
  Proof.
    intros A f b k c m o x y c' E H. apply updated_if_inv in E. destruct E as [(-> & n & E)|(-> & -> & ->)]; [eauto|].
    constructor. apply later_refl.
  Qed.

  Ltac span := match goal with
    | H : leaf_life ?k ?a ?x ?os ?y ?b |- leaf_life ?k _ ?x ?os ?y _ =>
        refine (life_from _ _ _ _ _ _ _ _ (life_to _ _ _ _ _ _ _ H _))
    end.
  Ltac onward := repeat (exact (later_refl _) || match goal with
    | H : later ?a ?b |- later ?a ?b => exact H
    | H : later ?a ?x |- later ?a _ => apply (later_trans _ _ _ H)
    end).

  Lemma collection_told : forall i o st k c i' c' it fin ra,
    update_post_collection i o st k c = Ok i' c' ->
    (ra = None) ->
    later (clock_tail c) c' /\ live X k c c' (metrics_of X i) (told [Run it st fin o (c O) ra] []) (metrics_of X i').
  Proof.
    intros i o st k c i' c' it fin ra E ->. unfold update_post_collection in E.
    apply bind_ok in E. destruct E as (t & c0 & E0 & E). rewrite now_eq in E0. injection E0 as <- <-.
    apply bind_ok in E. destruct E as (a1 & c1 & E1 & E).
    apply bind_ok in E. destruct E as (tm & c1' & E1' & E). apply took_is in E1'. destruct E1' as (-> & ->).
    apply bind_ok in E. destruct E as (a2 & c2 & E2 & E). cbv zeta in E.
    apply bind_ok in E. destruct E as (a3 & c3 & E3 & E).
    apply bind_ok in E. destruct E as (a4 & c4 & E4 & E).
    apply bind_ok in E. destruct E as (a7 & c7 & E7 & E).
    apply bind_ok in E. destruct E as (a5 & c5 & E5 & E).
    apply bind_ok in E. destruct E as (a6 & c6 & E6 & E).
    apply bind_ok in E. destruct E as (a11 & c11 & E11 & E).
    apply bind_ok in E. destruct E as (a8 & c8 & E8 & E).
    apply bind_ok in E. destruct E as (a12 & c12 & E12 & E). injection E as <- <-.
    pose proof (updated_life _ (own_meter X) _ _ _ _ _ _ _ E1 (fun n => meter_fed _ _ _ _ _ n _)) as F1.
    pose proof (updated_life _ (own_histogram X) _ _ _ _ _ _ _ E2 (fun n => histogram_fed _ _ _ _ _ n _)) as F2.
    pose proof (updated_if_life _ (own_meter X) _ _ _ _ _ _ _ _ E3 (fun n => meter_fed _ _ _ _ _ n _)) as F3.
    pose proof (updated_if_life _ (own_histogram X) _ _ _ _ _ _ _ _ E4 (fun n => histogram_fed _ _ _ _ _ n _)) as F4.
    pose proof (updated_life _ (own_gauge X) _ _ _ _ _ _ _ E7 (fun n => gauge_fed _ _ _ _ _ n _)) as F7.
    pose proof (updated_if_life _ (own_meter X) _ _ _ _ _ _ _ _ E5 (fun n => meter_fed _ _ _ _ _ n _)) as F5.
    pose proof (updated_if_life _ (own_histogram X) _ _ _ _ _ _ _ _ E6 (fun n => histogram_fed _ _ _ _ _ n _)) as F6.
    pose proof (updated_if_life _ (own_staircase X) _ _ _ _ _ _ _ _ E11 (fun n => staircase_fed _ _ _ _ _ n _)) as F11.
    pose proof (updated_if_life _ (own_meter X) _ _ _ _ _ _ _ _ E8 (fun n => meter_fed _ _ _ _ _ n _)) as F8.
    pose proof (updated_life _ (own_absence X) _ _ _ _ _ _ _ E12 (fun n => absence_fed _ _ _ _ _ n _)) as F12.
    clear E1 E2 E3 E4 E5 E6 E7 E8 E11 E12. cbn [say] in *.
    pose proof (life_goes_on _ _ _ _ _ _ F1). pose proof (life_goes_on _ _ _ _ _ _ F2). pose proof (life_goes_on _ _ _ _ _ _ F3).
    pose proof (life_goes_on _ _ _ _ _ _ F4). pose proof (life_goes_on _ _ _ _ _ _ F5). pose proof (life_goes_on _ _ _ _ _ _ F6).
    pose proof (life_goes_on _ _ _ _ _ _ F7). pose proof (life_goes_on _ _ _ _ _ _ F8). pose proof (life_goes_on _ _ _ _ _ _ F11).
    pose proof (life_goes_on _ _ _ _ _ _ F12). pose proof (later_tail c).
    split; [onward|].
    unfold metrics_of, told, each, some, ratios. cbn [map flat_map ru_at ru_started ru_outcome ru_ratio app
      di_collections_per_second di_collection_times_us di_observations_processed_per_second
      di_observations_processed_per_collection di_observations_dropped_per_second di_observations_dropped_per_collection
      di_observations_enqueued di_instruments_updated_per_second di_snapshots_per_second di_snapshots_times_us
      di_dropped_observations_alarm di_inactivity_alarm di_per_mille_ratio di_per_mille_ratio_histo].
    rewrite !app_nil_r.
    repeat (apply lv_cons; [first [span; onward | refine (ll_end (X := own X) _ _ _ _ _); onward]|]). apply lv_nil.
  Qed.

  Lemma snapshot_told : forall i st k c i' c', update_post_snapshot i st k c = Ok i' c' ->
    later (clock_tail c) c' /\ live X k c c' (metrics_of X i) (told [] [(st, c O)]) (metrics_of X i').
  Proof.
    intros i st k c i' c' E. unfold update_post_snapshot in E.
    apply bind_ok in E. destruct E as (t & c0 & E0 & E). rewrite now_eq in E0. injection E0 as <- <-.
    apply bind_ok in E. destruct E as (a1 & c1 & E1 & E).
    apply bind_ok in E. destruct E as (tm & c1' & E1' & E). apply took_is in E1'. destruct E1' as (-> & ->).
    apply bind_ok in E. destruct E as (a2 & c2 & E2 & E). injection E as <- <-.
    pose proof (updated_life _ (own_meter X) _ _ _ _ _ _ _ E1 (fun n => meter_fed _ _ _ _ _ n _)) as F1.
    pose proof (updated_life _ (own_histogram X) _ _ _ _ _ _ _ E2 (fun n => histogram_fed _ _ _ _ _ n _)) as F2.
    clear E1 E2. cbn [say] in *.
    pose proof (life_goes_on _ _ _ _ _ _ F1). pose proof (life_goes_on _ _ _ _ _ _ F2). pose proof (later_tail c).
    split; [onward|].
    unfold metrics_of, told, each, some, ratios. cbn [map flat_map fst snd app
      di_collections_per_second di_collection_times_us di_observations_processed_per_second
      di_observations_processed_per_collection di_observations_dropped_per_second di_observations_dropped_per_collection
      di_observations_enqueued di_instruments_updated_per_second di_snapshots_per_second di_snapshots_times_us
      di_dropped_observations_alarm di_inactivity_alarm di_per_mille_ratio di_per_mille_ratio_histo].
    repeat (apply lv_cons; [first [span; onward | refine (ll_end (X := own X) _ _ _ _ _); onward]|]). apply lv_nil.
  Qed.

  (** The ratio: what is told to the two instruments is added to a run. *)
  Definition more_ratio (r : run) (ra : option (Z * Z)) : run :=
    Run (ru_iteration r) (ru_started r) (ru_finished r) (ru_outcome r) (ru_at r) ra.

  Lemma ratio_told : forall it st fin i k c m' c' c0 i0 o at_,
    report_elapsed_stats it (Z.max 0 (fin - st)) (Some i) k c = Ok m' c' ->
    live X k c0 c (metrics_of X i0) (told [Run it st fin o at_ None] []) (metrics_of X i) ->
    exists i' ra, m' = Some i' /\ live X k c0 c' (metrics_of X i0) (told [Run it st fin o at_ ra] []) (metrics_of X i')
      /\ later c c'
      /\ match ra with
         | Some (y, z) => exists c1, y = c O /\ z = c1 O /\ it < c O /\ later c c1 /\ later c1 c'
         | None => f64_ltb f64_zero (as_secs_f64 (Z.max 0 (c O - it))) = false
         end.
  Proof.
    intros it st fin i k c m' c' c0 i0 o at_ E L. unfold report_elapsed_stats in E.
    apply bind_ok in E. destruct E as (e & c1 & E1 & E). rewrite elapsed_eq in E1. injection E1 as <- <-. cbv zeta in E.
    pose proof (later_tail c) as Lt.
    destruct (f64_ltb _ _) eqn:B.
    - apply bind_ok in E. destruct E as (i1 & c2 & E2 & E). injection E as <- <-. unfold update_run_ratio in E2.
      apply bind_ok in E2. destruct E2 as (t & c3 & E3 & E2). rewrite now_eq in E3. injection E3 as <- <-. cbv zeta in E2.
      apply bind_ok in E2. destruct E2 as (a1 & c4 & E4 & E2). apply bind_ok in E2. destruct E2 as (a2 & c5 & E5 & E2). injection E2 as <- <-.
      pose proof (updated_life _ (own_histogram X) _ _ _ _ _ _ _ E4 (fun n => histogram_fed _ _ _ _ _ n _)) as F1.
      pose proof (updated_life _ (own_gauge X) _ _ _ _ _ _ _ E5 (fun n => gauge_fed _ _ _ _ _ n _)) as F2.
      clear E4 E5. cbn [say] in *.
      pose proof (life_goes_on _ _ _ _ _ _ F1). pose proof (life_goes_on _ _ _ _ _ _ F2). pose proof (later_tail (clock_tail c)) as Lt2.
      eexists. exists (Some (c O, clock_tail c O)). split; [reflexivity|]. split; [|split; [onward|]].
      + assert (L2 : live X k c c5 (metrics_of X i)
                       [[]; []; []; []; []; []; []; []; []; []; []; []; ratios [Run it st fin o at_ (Some (c O, clock_tail c O))]; ratios [Run it st fin o at_ (Some (c O, clock_tail c O))]]
                       (metrics_of X (DriverInstruments (di_collections_per_second i) (di_collection_times_us i)
           (di_observations_processed_per_second i) (di_observations_processed_per_collection i)
           (di_observations_dropped_per_second i) (di_observations_dropped_per_collection i)
           (di_observations_enqueued i) (di_instruments_updated_per_second i)
           (di_snapshots_per_second i) (di_snapshots_times_us i)
           (di_dropped_observations_alarm i) (di_inactivity_alarm i) a1 a2))).
        { unfold metrics_of, ratios. cbn [flat_map app ru_ratio ru_finished ru_started ru_iteration
            di_collections_per_second di_collection_times_us di_observations_processed_per_second
            di_observations_processed_per_collection di_observations_dropped_per_second di_observations_dropped_per_collection
            di_observations_enqueued di_instruments_updated_per_second di_snapshots_per_second di_snapshots_times_us
            di_dropped_observations_alarm di_inactivity_alarm di_per_mille_ratio di_per_mille_ratio_histo].
          repeat (apply lv_cons; [first [span; onward | refine (ll_end (X := own X) _ _ _ _ _); onward]|]). apply lv_nil. }
        pose proof (live_app _ _ _ _ _ _ _ L _ _ L2) as L3.
        unfold told, each, some in L3 |- *. cbn [map combine fst snd flat_map] in L3 |- *. rewrite !app_nil_r in L3. rewrite !app_nil_r.
        exact L3.
      + exists (clock_tail c). split; [reflexivity|]. split; [reflexivity|]. split.
        { destruct (Z.ltb_spec it (c O)) as [|Le]; [assumption|]. rewrite Z.max_l in B by lia. discriminate B. }
        split; [exact Lt|]. onward.
    - injection E as <- <-. exists i, None. split; [reflexivity|]. split; [exact (live_to _ _ _ _ _ _ _ L Lt)|]. split; [exact Lt|]. reflexivity.
  Qed.

  (** ** Snapshots *)

  Definition puts k de c xs ys (before s : snapshot) c' : Prop :=
    later c c' /\ live X k c c' xs (map (fun _ => []) xs) ys
    /\ exists fields, s = before ++ fields /\ display X k de c xs before fields c'.

  Lemma puts_nil : forall k de c before, puts k de c [] [] before before c.
  Proof.
    intros. split; [apply later_refl|]. split; [constructor|]. exists []. rewrite app_nil_r. split; [reflexivity|]. constructor. apply later_refl.
  Qed.
  Lemma leaf_appends : forall x : leaf (own X), appends (leaf_put x).
  Proof.
    intros x de into k c y s c' E. destruct x; cbn [leaf_put] in E.
    - apply bind_ok in E. destruct E as ([i' s1] & c1 & E1 & E). injection E as <- <- <-.
      exact (instrument_appends _ (pa_instr _ own_appends) _ _ _ _ _ _ _ E1).
    - unfold ga_put in E. apply bind_ok in E. destruct E as ([i' s1] & c1 & E1 & E). injection E as <- <- <-.
      apply bind_ok in E1. destruct E1 as ([g' s2] & c2 & E2 & E1). injection E1 as <- <- <-.
      exact (writes_appends _ _ (gauge_writes _) _ _ _ _ _ _ _ E2).
    - destruct u.
    - injection E as <- <- <-. exists []. rewrite app_nil_r. reflexivity.
    - apply bind_ok in E. destruct E as ([i' s1] & c1 & E1 & E). injection E as <- <- <-.
      exact (proj2 (proj2 (proj2 (tree_appends own_appends))) _ _ _ _ _ _ _ _ E1).
  Qed.
  Lemma puts_more : forall k de c x y before s1 c1 xs ys s c',
    leaf_put x de before k c = Ok (y, s1) c1 -> puts k de c1 xs ys s1 s c' -> puts k de c (x :: xs) (y :: ys) before s c'.
  Proof.
    intros k de c x y before s1 c1 xs ys s c' E (L & V & fields & -> & D).
    pose proof (leaf_put_ticks own_ticks _ _ _ _ _ _ _ E) as L1. destruct (leaf_appends _ _ _ _ _ _ _ _ E) as (f & ->).
    split; [exact (later_trans _ _ _ L1 L)|]. split.
    - cbn [map]. constructor; [|exact (live_from _ _ _ _ _ _ _ L1 V)].
      eapply ll_shown; [apply later_refl | exact E | exact (ll_end (X := own X) _ _ _ _ L)].
    - exists (f ++ fields). split; [rewrite app_assoc; reflexivity|]. eapply dp_cons; [apply later_refl | exact E | exact D].
  Qed.

  Lemma meter_puts : forall m de into k c m' s c', meter_put m de into k c = Ok (m', s) c' ->
    leaf_put (own_meter X m) de into k c = Ok (own_meter X m', s) c'.
  Proof. intros m de into k c m' s c' E. unfold own_meter. cbn [leaf_put]. unfold bind, instrument_put, wrap, bind. rewrite E. reflexivity. Qed.
  Lemma histogram_puts : forall (h : histogram (ex_histo X)) de into k c s c', histogram_put h de into k c = Ok s c' ->
    leaf_put (own_histogram X h) de into k c = Ok (own_histogram X h, s) c'.
  Proof.
    intros m de into k c s c' E. unfold own_histogram. cbn [leaf_put]. unfold bind, instrument_put, keep, wrap, bind.
    change (ex_histo (own X)) with (ex_histo X). rewrite E. reflexivity.
  Qed.
  Lemma staircase_puts : forall m de into k c s c', staircase_put m de into k c = Ok s c' ->
    leaf_put (own_staircase X m) de into k c = Ok (own_staircase X m, s) c'.
  Proof. intros m de into k c s c' E. unfold own_staircase. cbn [leaf_put]. unfold bind, instrument_put, keep, wrap, bind. rewrite E. reflexivity. Qed.
  Lemma absence_puts : forall m de into k c s c', non_occurrence_put m de into k c = Ok s c' ->
    leaf_put (own_absence X m) de into k c = Ok (own_absence X m, s) c'.
  Proof. intros m de into k c s c' E. unfold own_absence. cbn [leaf_put]. unfold bind, instrument_put, keep, wrap, bind. rewrite E. reflexivity. Qed.
  Lemma gauge_puts : forall m de into k c m' s c', gauge_put m de into k c = Ok (m', s) c' ->
    leaf_put (own_gauge X m) de into k c = Ok (own_gauge X m', s) c'.
  Proof. intros m de into k c m' s c' E. unfold own_gauge. cbn [leaf_put]. unfold ga_put, bind. cbn [ga_gauge]. rewrite E. reflexivity. Qed.

  Lemma instruments_display : forall i de into k c i' s c', instruments_put i de into k c = Ok (i', s) c' ->
    exists inner, s = into ++ [("_metrix", ItemSnapshot inner)] /\ puts k de c (metrics_of X i) (metrics_of X i') [] inner c'.
  Proof.
    intros i de into k c i' s c' E. unfold instruments_put in E. cbv zeta in E.
    apply bind_ok in E. destruct E as ([a1 s1] & c1 & E1 & E). apply bind_ok in E. destruct E as (s2 & c2 & E2 & E).
    apply bind_ok in E. destruct E as ([a3 s3] & c3 & E3 & E). apply bind_ok in E. destruct E as (s4 & c4 & E4 & E).
    apply bind_ok in E. destruct E as ([a5 s5] & c5 & E5 & E). apply bind_ok in E. destruct E as (s6 & c6 & E6 & E).
    apply bind_ok in E. destruct E as ([a7 s7] & c7 & E7 & E). apply bind_ok in E. destruct E as ([a8 s8] & c8 & E8 & E).
    apply bind_ok in E. destruct E as ([a9 s9] & c9 & E9 & E). apply bind_ok in E. destruct E as (s10 & c10 & E10 & E).
    apply bind_ok in E. destruct E as (s11 & c11 & E11 & E). apply bind_ok in E. destruct E as (s12 & c12 & E12 & E).
    apply bind_ok in E. destruct E as ([a14 s14] & c14 & E14 & E). apply bind_ok in E. destruct E as (s13 & c13 & E13 & E).
    injection E as <- <- <-. exists s13. split; [reflexivity|]. unfold metrics_of. cbn [
      di_collections_per_second di_collection_times_us di_observations_processed_per_second
      di_observations_processed_per_collection di_observations_dropped_per_second di_observations_dropped_per_collection
      di_observations_enqueued di_instruments_updated_per_second di_snapshots_per_second di_snapshots_times_us
      di_dropped_observations_alarm di_inactivity_alarm di_per_mille_ratio di_per_mille_ratio_histo].
    apply (puts_more _ _ _ _ _ _ _ _ _ _ _ _ (meter_puts _ _ _ _ _ _ _ _ E1)), (puts_more _ _ _ _ _ _ _ _ _ _ _ _ (histogram_puts _ _ _ _ _ _ _ E2)),
      (puts_more _ _ _ _ _ _ _ _ _ _ _ _ (meter_puts _ _ _ _ _ _ _ _ E3)), (puts_more _ _ _ _ _ _ _ _ _ _ _ _ (histogram_puts _ _ _ _ _ _ _ E4)),
      (puts_more _ _ _ _ _ _ _ _ _ _ _ _ (meter_puts _ _ _ _ _ _ _ _ E5)), (puts_more _ _ _ _ _ _ _ _ _ _ _ _ (histogram_puts _ _ _ _ _ _ _ E6)),
      (puts_more _ _ _ _ _ _ _ _ _ _ _ _ (gauge_puts _ _ _ _ _ _ _ _ E7)), (puts_more _ _ _ _ _ _ _ _ _ _ _ _ (meter_puts _ _ _ _ _ _ _ _ E8)),
      (puts_more _ _ _ _ _ _ _ _ _ _ _ _ (meter_puts _ _ _ _ _ _ _ _ E9)), (puts_more _ _ _ _ _ _ _ _ _ _ _ _ (histogram_puts _ _ _ _ _ _ _ E10)),
      (puts_more _ _ _ _ _ _ _ _ _ _ _ _ (staircase_puts _ _ _ _ _ _ _ E11)), (puts_more _ _ _ _ _ _ _ _ _ _ _ _ (absence_puts _ _ _ _ _ _ _ E12)),
      (puts_more _ _ _ _ _ _ _ _ _ _ _ _ (gauge_puts _ _ _ _ _ _ _ _ E14)), (puts_more _ _ _ _ _ _ _ _ _ _ _ _ (histogram_puts _ _ _ _ _ _ _ E13)).
    apply puts_nil.
  Qed.

  (** A snapshot of the driver: one more is counted, then all are shown. *)
  Lemma snapshot_live : forall d de into k c d' s c', put_values_into_snapshot d de into k c = Ok (d', s) c' ->
    later c c' /\ dr_name d' = dr_name d
    /\ (dr_metrics d = None -> dr_metrics d' = None)
    /\ forall i, dr_metrics d = Some i -> exists i1 i' c0 c1 c2 inner,
         dr_metrics d' = Some i'
         /\ later c c0 /\ later (clock_tail c) c0 /\ later (clock_tail c0) c1
         /\ live X k c c1 (metrics_of X i) (told [] [(c O, c0 O)]) (metrics_of X i1)
         /\ shows_metrix d into s inner /\ display X k de c1 (metrics_of X i1) [] inner c2 /\ later c2 c'
         /\ live X k c c' (metrics_of X i) (told [] [(c O, c0 O)]) (metrics_of X i') /\ (metrix_ok i -> metrix_ok i1).
  Proof.
    intros d de into k c d' s c' E. unfold put_values_into_snapshot in E.
    apply bind_ok in E. destruct E as (st & ct & E0 & E). rewrite now_eq in E0. injection E0 as <- <-.
    assert (V : forall level d' s, add_snapshot_values d de (c O) level k (clock_tail c) = Ok (d', s) c' ->
      later c c' /\ dr_name d' = dr_name d
      /\ (dr_metrics d = None -> dr_metrics d' = None)
      /\ forall i, dr_metrics d = Some i -> exists i1 i' c0 c1 c2 inner before,
         dr_metrics d' = Some i'
         /\ later c c0 /\ later (clock_tail c) c0 /\ later (clock_tail c0) c1
         /\ live X k c c1 (metrics_of X i) (told [] [(c O, c0 O)]) (metrics_of X i1)
         /\ s = before ++ [("_metrix", ItemSnapshot inner)] /\ display X k de c1 (metrics_of X i1) [] inner c2 /\ later c2 c'
         /\ live X k c c' (metrics_of X i) (told [] [(c O, c0 O)]) (metrics_of X i') /\ (metrix_ok i -> metrix_ok i1)).
    { clear E s d'. intros level d' s E. unfold add_snapshot_values in E. cbv zeta in E.
      apply bind_ok in E. destruct E as ([ps s1] & c1 & E1 & E). apply bind_ok in E. destruct E as ([ss s2] & c2 & E2 & E).
      assert (L2 : later (clock_tail c) c2).
      { eapply later_trans.
        - refine (ticks_traverse _ _ _ _ _ _ _ _ _ _ E1). apply Forall_forall. intros x _ s0. apply (processor_put_ticks HX HY).
        - refine (ticks_traverse _ _ _ _ _ _ _ _ _ _ E2). apply Forall_forall. intros x _ s0. apply (tree_put_ticks HX). }
      assert (Lc : later c c2) by exact (later_trans _ _ _ (later_tail c) L2).
      destruct (dr_metrics d) as [i|].
      - apply bind_ok in E. destruct E as (i1 & c3 & E3 & E). apply bind_ok in E. destruct E as ([i2 s3] & c4 & E4 & E).
        injection E as <- <- <-. destruct (snapshot_told _ _ _ _ _ _ E3) as (L3 & V3).
        destruct (instruments_display _ _ _ _ _ _ _ _ E4) as (inner & -> & L4 & V4 & fields & Ef & D). cbn [app] in Ef. subst fields.
        assert (L23 : later c2 c3) by exact (later_trans _ _ _ (later_tail c2) L3).
        split; [exact (later_trans _ _ _ Lc (later_trans _ _ _ L23 L4))|]. split; [reflexivity|]. split; [discriminate|].
        intros j J. injection J as <-. exists i1, i2, c2, c3, c4, inner, s2. cbn [driver_with dr_metrics].
        assert (V3' := live_from _ _ _ _ _ _ _ Lc V3).
        repeat (split; [solve [auto | apply later_refl]|]).
        assert (V5 := live_app _ _ _ _ _ _ _ V3' _ _ V4).
        unfold told, each, some, ratios, metrics_of in V5 |- *. cbn [map combine fst snd flat_map app] in V5 |- *. split; [exact V5|].
        intros O1. exact (proj1 (post_snapshot HX _ _ _ _ _ _ O1 E3)).
      - injection E as <- <- <-. split; [exact Lc|]. split; [reflexivity|]. split; [auto|]. discriminate. }
    unfold shows_metrix. destruct (dr_name d) as [n|].
    - apply bind_ok in E. destruct E as ([d1 l] & c1 & E1 & E). injection E as <- <- <-.
      destruct (V _ _ _ E1) as (L1 & Nm & N1 & H).
      split; [exact L1|]. split; [exact Nm|]. split; [exact N1|]. intros i Hi.
      destruct (H i Hi) as (i1 & i' & ca & cb & cc & inner & before & H1 & H2 & H2' & H3 & H4 & -> & H5 & H6 & H7).
      exists i1, i', ca, cb, cc, inner. repeat (split; [assumption|]). split; [exists before; reflexivity|]. auto.
    - destruct (V _ _ _ E) as (L1 & Nm & N1 & H).
      split; [exact L1|]. split; [exact Nm|]. split; [exact N1|]. intros i Hi.
      destruct (H i Hi) as (i1 & i' & ca & cb & cc & inner & before & H1 & H2 & H2' & H3 & H4 & -> & H5 & H6 & H7).
      exists i1, i', ca, cb, cc, inner. repeat (split; [assumption|]). split; [exists before; reflexivity|]. auto.
  Qed.

  (** ** Times *)

  Lemma timeline_from : forall b a a' rs log, timeline b a rs log -> a' <= a -> timeline b a' rs log.
  Proof. intros b a a' rs log H L. destruct H; constructor; try assumption; lia. Qed.
  Lemma timeline_app : forall m a rs log, timeline m a rs log -> forall b rs' log', timeline b m rs' log' ->
    timeline b a (rs ++ rs') (log ++ log').
  Proof.
    intros m a rs log H. induction H; intros b rs' log' H'; cbn [app]; [eapply timeline_from; eassumption|]. constructor; auto.
  Qed.
  Lemma shots_from : forall b a a' ss, shots b a ss -> a' <= a -> shots b a' ss.
  Proof. intros b a a' ss H L. destruct H; constructor; try assumption; lia. Qed.
  Lemma shots_app : forall m a ss, shots m a ss -> forall b ss', shots b m ss' -> shots b a (ss ++ ss').
  Proof. intros m a ss H. induction H; intros b ss' H'; cbn [app]; [eapply shots_from; eassumption|]. constructor; auto. Qed.
  Lemma shots_to : forall b b' a ss, shots b a ss -> b <= b' -> shots b' a ss.
  Proof. intros b b' a ss H L. induction H; constructor; auto; lia. Qed.

  (** ** Iterations *)

  Lemma command_live : forall d cmd k w d' w', driver_command d cmd k w = Ok d' w' ->
    later (w_clock (dw_world w)) (w_clock (dw_world w'))
    /\ forall i, dr_metrics d = Some i -> exists i' ss ans, dr_metrics d' = Some i'
         /\ live X k (w_clock (dw_world w)) (w_clock (dw_world w')) (metrics_of X i) (told [] ss) (metrics_of X i')
         /\ dw_answers w' = dw_answers w ++ ans /\ length ss = length ans
         /\ (monotone (w_clock (dw_world w)) -> shots (w_clock (dw_world w') O) (w_clock (dw_world w) O) ss).
  Proof.
    intros d cmd k w d' w' E.
    assert (Same : forall d1, dr_metrics d1 = dr_metrics d -> Ok d1 w = Ok d' w' ->
      later (w_clock (dw_world w)) (w_clock (dw_world w'))
      /\ forall i, dr_metrics d = Some i -> exists i' ss ans, dr_metrics d' = Some i'
         /\ live X k (w_clock (dw_world w)) (w_clock (dw_world w')) (metrics_of X i) (told [] ss) (metrics_of X i')
         /\ dw_answers w' = dw_answers w ++ ans /\ length ss = length ans
         /\ (monotone (w_clock (dw_world w)) -> shots (w_clock (dw_world w') O) (w_clock (dw_world w) O) ss)).
    { intros d1 M F. injection F as <- <-. split; [apply later_refl|]. intros i Hi. exists i, [], [].
      split; [congruence|]. split; [exact (live_same _ _ _ (metrics_of X i) (later_refl _))|]. rewrite app_nil_r.
      split; [reflexivity|]. split; [reflexivity|]. intros _. constructor. lia. }
    assert (Put : forall into b de, (let* '(d, s) := timed (put_values_into_snapshot d de into) in let* _ := answer b s in ret d) k w = Ok d' w' ->
      later (w_clock (dw_world w)) (w_clock (dw_world w'))
      /\ forall i, dr_metrics d = Some i -> exists i' ss ans, dr_metrics d' = Some i'
         /\ live X k (w_clock (dw_world w)) (w_clock (dw_world w')) (metrics_of X i) (told [] ss) (metrics_of X i')
         /\ dw_answers w' = dw_answers w ++ ans /\ length ss = length ans
         /\ (monotone (w_clock (dw_world w)) -> shots (w_clock (dw_world w') O) (w_clock (dw_world w) O) ss)).
    { intros into b de F. apply bind_ok in F. destruct F as ([d1 s] & w1 & F1 & F). apply timed_inv in F1. destruct F1 as (c1 & F1 & ->).
      apply bind_ok in F. destruct F as (u & w2 & F2 & F). injection F as <- <-. injection F2 as _ <-. cbn [dw_world w_clock dw_answers].
      destruct (snapshot_live _ _ _ _ _ _ _ _ F1) as (L & _ & _ & H). split; [exact L|].
      intros i Hi. destruct (H i Hi) as (i1 & i' & ca & cb & cc & inner & H1 & H2 & H2' & H3 & H4 & H5 & H6 & H7 & H8 & _).
      exists i', [(w_clock (dw_world w) O, ca O)], [(b, s)]. repeat (split; [solve [auto]|]). intros Mo.
      assert (Lx : later ca c1).
      { refine (later_trans _ _ _ (later_trans _ _ _ (later_tail ca) H3) (later_trans _ _ _ _ H7)).
        clear - H6 HX. induction H6; [assumption|].
        exact (later_trans _ _ _ H (later_trans _ _ _ (leaf_put_ticks own_ticks _ _ _ _ _ _ _ H0) IHdisplay)). }
      constructor; [lia | exact (later_first _ _ Mo H2)|]. constructor. exact (later_first _ _ (later_monotone _ _ Mo H2) Lx). }
    destruct cmd; cbn [driver_command] in E; eauto; unfold ret in E; refine (Same _ _ E); reflexivity.
  Qed.

  Lemma collected_live : forall k d t0 w e d1 w1, monotone (w_clock (dw_world w)) -> t0 <= w_clock (dw_world w) O ->
    collected k d t0 w e d1 w1 ->
    later (w_clock (dw_world w)) (w_clock (dw_world w1)) /\ dw_answers w1 = dw_answers w
    /\ forall i, dr_metrics d = Some i -> exists i1 rs, dr_metrics d1 = Some i1
         /\ live X k (w_clock (dw_world w)) (w_clock (dw_world w1)) (metrics_of X i) (told rs []) (metrics_of X i1)
         /\ timeline (w_clock (dw_world w1) O) t0 rs e.
  Proof.
    intros k d t0 w e d1 w1 Mo Ht C. destruct C as [d t0 w P|d t0 w d1 w1 t v1 ps o v2 P R E1 E2].
    - split; [apply later_refl|]. split; [reflexivity|]. intros i Hi. exists i, []. split; [exact Hi|].
      split; [exact (live_same _ _ _ (metrics_of X i) (later_refl _))|]. constructor. exact Ht.
    - unfold driver_run in R.
      apply bind_ok in R. destruct R as (t' & wa & R1 & R). apply in_world_inv in R1. destruct R1 as (v1' & R1 & ->).
      rewrite E1 in R1. injection R1 as <- <-.
      apply bind_ok in R. destruct R as ([ps' o'] & wb & R2 & R). apply in_world_inv in R2. destruct R2 as (v2' & R2 & ->).
      cbn [dw_world] in R2. rewrite E2 in R2. injection R2 as <- <- <-.
      assert (T1 : t = w_clock (dw_world w) O).
      { unfold lift in E1. rewrite now_eq in E1. injection E1 as <- _. reflexivity. }
      assert (L1 := lift_wticks _ _ ticks_now _ _ _ _ E1). assert (L2 := do_a_run_wticks HX HY _ _ _ _ _ _ _ E2).
      assert (L12 := later_trans _ _ _ L1 L2).
      set (w2 := DWorld v2 _ _ _ _ _ _) in R. cbn [dw_commands dw_guards dw_running dw_answers dw_unanswered dw_sched] in w2.
      assert (A2 : dw_answers w2 = dw_answers w) by reflexivity.
      apply bind_ok in R. destruct R as (rt & wc & R3 & R). apply timed_inv in R3. destruct R3 as (c3 & R3 & Ec).
      rewrite elapsed_eq in R3. cbn [dw_world w2] in R3. injection R3 as <- <-.
      assert (A3 : dw_answers wc = dw_answers w) by (rewrite Ec; exact A2).
      assert (W3 : w_clock (dw_world wc) = clock_tail (w_clock v2)) by (rewrite Ec; reflexivity). clear Ec A2.
      apply bind_ok in R. destruct R as (dropped & wc' & R4 & R).
      assert (Lw : wc' = wc).
      { unfold add_usize, u64_arith, arith in R4. destruct (_ && _); [|destruct (overflow_checks k); [discriminate R4|]];
          injection R4 as _ <-; reflexivity. }
      subst wc'. clear R4. apply bind_ok in R. destruct R as (d2 & wd & R5 & R).
      set (dm := driver_with d ps (dr_snapshooters d) (dr_metrics d)) in *.
      assert (S5 : later (w_clock (dw_world wc)) (w_clock (dw_world wd)) /\ dr_metrics d2 = dr_metrics d /\ dw_answers wd = dw_answers w).
      { destruct (0 <? dropped).
        - apply bind_ok in R5. destruct R5 as (el & we & R6 & R5). apply timed_inv in R6. destruct R6 as (c6 & R6 & ->).
          apply elapsed_ticks in R6. cbn [w_clock] in R6. destruct (_ <? el).
          + apply bind_ok in R5. destruct R5 as (tn & wf & R7 & R5). apply timed_inv in R7. destruct R7 as (c7 & R7 & ->).
            injection R5 as <- <-. apply ticks_now in R7. cbn [dw_world w_clock dw_answers] in R7 |- *. split; [|split; [reflexivity | exact A3]].
            exact (later_trans _ _ _ R6 R7).
          + injection R5 as <- <-. cbn [dw_world w_clock dw_answers]. split; [exact R6 | split; [reflexivity | exact A3]].
        - injection R5 as <- <-. split; [apply later_refl | split; [reflexivity | exact A3]]. }
      destruct S5 as (L5 & M5 & A5). clear R5. rewrite W3 in L5. apply (later_trans _ _ _ (later_tail (w_clock v2))) in L5.
      assert (L5' := later_trans _ _ _ L12 L5).
      apply bind_ok in R. destruct R as (m & we & R6 & R). rewrite M5 in R6.
      assert (Mv2 : monotone (w_clock v2)) by exact (later_monotone _ _ Mo L12).
      assert (Md : monotone (w_clock (dw_world wd))) by exact (later_monotone _ _ Mv2 L5).
      assert (B2 := later_first _ _ Mo L12). assert (B5 := later_first _ _ Mv2 L5).
      destruct (dr_metrics d) as [i|] eqn:Em.
      + apply bind_ok in R6. destruct R6 as (i1 & wf & R6 & R8). injection R8 as <- <-. apply timed_inv in R6.
        destruct R6 as (c6 & R6 & Ef).
        destruct (collection_told _ _ _ _ _ _ _ t0 (w_clock v2 O) None R6 eq_refl) as (L6 & V6).
        apply (later_trans _ _ _ (later_tail _)) in L6.
        assert (V6' := live_from _ _ _ _ _ _ _ L5' V6). assert (L6' := later_trans _ _ _ L5' L6).
        assert (M6 := later_monotone _ _ Md L6). assert (B6 := later_first _ _ Md L6).
        destruct ((0 <? oc_dropped o) || (100 <? oc_processed o)) eqn:By.
        * injection R as <- <-. rewrite Ef. cbn [dw_world w_clock dw_answers driver_with dr_metrics].
          split; [exact L6'|]. split; [exact A5|]. intros j J. injection J as <-.
          exists i1. eexists [_]. split; [reflexivity|]. split; [exact V6'|].
          refine (tl_run _ _ _ _ [] [] _ _ _ _ _ _ (tl_nil _ _ _)); cbn [ru_iteration ru_started ru_finished ru_at]; try lia.
          unfold timed_ratio. cbn [ru_ratio ru_outcome]. left. unfold busy. apply orb_true_iff in By.
          destruct By as [By|By]; apply Z.ltb_lt in By; [left | right]; exact By.
        * apply bind_ok in R. destruct R as (tf & wg & R7 & R). apply timed_inv in R7. destruct R7 as (c7 & R7 & Eg).
          apply ticks_now in R7. rewrite Ef in R7. cbn [dw_world w_clock] in R7.
          apply bind_ok in R. destruct R as (m1 & wh & R8 & R). apply timed_inv in R8. destruct R8 as (c8 & R8 & Eh).
          injection R as <- <-. rewrite Eg in R8. cbn [dw_world w_clock] in R8.
          assert (Ax : dw_answers wh = dw_answers w) by (rewrite Eh, Eg, Ef; exact A5).
          assert (Wx : w_clock (dw_world wh) = c8) by (rewrite Eh; reflexivity). rewrite Wx. clear Eh Eg Ef.
          destruct (ratio_told _ _ _ _ _ _ _ _ _ _ _ _ R8 (live_to _ _ _ _ _ _ _ V6' R7)) as (i2 & ra & -> & V8 & L8 & Q).
          assert (M7 := later_monotone _ _ M6 R7). assert (B7 := later_first _ _ M6 R7). assert (B8 := later_first _ _ M7 L8).
          split; [exact (later_trans _ _ _ L6' (later_trans _ _ _ R7 L8))|]. split; [exact Ax|].
          intros j J. injection J as <-. exists i2. eexists [_]. split; [reflexivity|]. split; [exact V8|].
          refine (tl_run _ _ _ _ [] [] _ _ _ _ _ _ (tl_nil _ _ _)); cbn [ru_iteration ru_started ru_finished ru_at]; try lia.
          assert (Nb : ~ busy o).
          { apply orb_false_iff in By. destruct By as (By1 & By2). apply Z.ltb_ge in By1, By2. unfold busy. lia. }
          unfold timed_ratio. cbn [ru_ratio ru_outcome ru_at ru_iteration]. destruct ra as [[y z]|].
          -- destruct Q as (cz & -> & -> & Gt & Lz & Lz'). split; [exact Nb|].
             pose proof (later_first _ _ M7 Lz). pose proof (later_first _ _ (later_monotone _ _ M7 Lz) Lz'). lia.
          -- right. exists (c7 O). split; [lia|]. rewrite Z.max_r in Q by lia. exact Q.
      + injection R6 as <- <-.
        assert (Fin : later (w_clock (dw_world wd)) (w_clock (dw_world w1)) /\ dw_answers w1 = dw_answers w).
        { destruct (_ || _).
          - injection R as <- <-. split; [apply later_refl | exact A5].
          - apply bind_ok in R. destruct R as (tf & wg & R7 & R). apply timed_inv in R7. destruct R7 as (c7 & R7 & ->).
            apply ticks_now in R7. apply bind_ok in R. destruct R as (m1 & wh & R8 & R). apply timed_inv in R8. destruct R8 as (c8 & R8 & ->).
            injection R8 as _ <-. injection R as <- <-. cbn [dw_world w_clock dw_answers] in *. split; [exact R7 | exact A5]. }
        destruct Fin as (Lf & Af). split; [exact (later_trans _ _ _ L5' Lf)|]. split; [exact Af|]. discriminate.
  Qed.

  Lemma clients_answers : forall k w u w1, clients k w = Ok u w1 -> dw_answers w1 = dw_answers w.
  Proof.
    intros k w u w1 E. unfold clients in E. injection E as _ <-. cbn [dw_answers].
    assert (G : forall l w, dw_answers (fold_left client_act l w) = dw_answers w).
    { clear. induction l as [|a l IH]; intros w; cbn [fold_left]; [reflexivity|]. rewrite IH. destruct a; cbn [client_act].
      - destruct (dw_guards w); reflexivity.
      - destruct (dw_guards w); reflexivity.
      - destruct (dw_guards w) as [|[|n]]; reflexivity.
      - destruct (_ <? _)%nat; reflexivity. }
    apply G.
  Qed.

  Lemma history_live : forall k n d w log d' w', history k n d w log d' w' -> monotone (w_clock (dw_world w)) ->
    later (w_clock (dw_world w)) (w_clock (dw_world w'))
    /\ forall i, dr_metrics d = Some i -> exists i' rs ss ans, dr_metrics d' = Some i'
         /\ live X k (w_clock (dw_world w)) (w_clock (dw_world w')) (metrics_of X i) (told rs ss) (metrics_of X i')
         /\ timeline (w_clock (dw_world w') O) (w_clock (dw_world w) O) rs log
         /\ dw_answers w' = dw_answers w ++ ans /\ length ss = length ans
         /\ shots (w_clock (dw_world w') O) (w_clock (dw_world w) O) ss.
  Proof.
    intros k n d w log d' w' H. induction H as [d w|n d w wa t0 wb r wc dm wd e d1 w1 log d2 w2 E1 E2 E3 D E4 C H IH]; intros Mo.
    - split; [apply later_refl|]. intros i Hi. exists i, [], [], []. split; [exact Hi|].
      split; [exact (live_same _ _ _ (metrics_of X i) (later_refl _))|]. split; [constructor; lia|]. rewrite app_nil_r.
      split; [reflexivity|]. split; [reflexivity|]. constructor. lia.
    - assert (Wa : dw_world wa = dw_world w /\ dw_answers wa = dw_answers w).
      { unfold load_running in E1. apply bind_ok in E1. destruct E1 as (u & wx & E1 & F). injection F as _ <-.
        split; [exact (clients_world _ _ _ _ E1) | exact (clients_answers _ _ _ _ E1)]. }
      destruct Wa as (Wa & Aa).
      apply timed_inv in E2. destruct E2 as (c2 & E2 & Eb). rewrite now_eq in E2. injection E2 as <- <-. rewrite Wa in Eb.
      assert (Wc : w_clock (dw_world wc) = clock_tail (w_clock (dw_world w)) /\ dw_answers wc = dw_answers w).
      { unfold command_try_recv in E3. apply bind_ok in E3. destruct E3 as (u & wx & E3 & F).
        destruct (chan_try_recv (dw_commands wx)). injection F as _ <-. cbn [dw_with dw_world dw_answers].
        rewrite (clients_world _ _ _ _ E3), (clients_answers _ _ _ _ E3), Eb. split; [reflexivity | exact Aa]. }
      destruct Wc as (Wc & Ac). rewrite Wa in C.
      assert (Cm : later (w_clock (dw_world wc)) (w_clock (dw_world wd))
        /\ forall i, dr_metrics d = Some i -> exists i' ss ans, dr_metrics dm = Some i'
         /\ live X k (w_clock (dw_world wc)) (w_clock (dw_world wd)) (metrics_of X i) (told [] ss) (metrics_of X i')
         /\ dw_answers wd = dw_answers wc ++ ans /\ length ss = length ans
         /\ (monotone (w_clock (dw_world wc)) -> shots (w_clock (dw_world wd) O) (w_clock (dw_world wc) O) ss)).
      { destruct r as [c| |]; [exact (command_live _ _ _ _ _ _ E4)|..]; injection E4 as <- <-;
          (split; [apply later_refl|]; intros i Hi; exists i, [], []; split; [exact Hi|];
           split; [exact (live_same _ _ _ (metrics_of X i) (later_refl _))|]; rewrite app_nil_r;
           split; [reflexivity|]; split; [reflexivity|]; intros _; constructor; lia). }
      destruct Cm as (L1 & Cm).
      assert (L0 : later (w_clock (dw_world w)) (w_clock (dw_world wc))) by (rewrite Wc; apply later_tail).
      assert (M0 := later_monotone _ _ Mo L0). assert (B0 := later_first _ _ Mo L0).
      assert (M1 := later_monotone _ _ M0 L1). assert (B1 := later_first _ _ M0 L1).
      destruct (collected_live k dm (w_clock (dw_world w) O) wd e d1 w1 M1 ltac:(lia) C) as (L2 & A2 & Cl).
      assert (M2 := later_monotone _ _ M1 L2). assert (B2 := later_first _ _ M1 L2).
      destruct (IH M2) as (L3 & IH'). assert (B3 := later_first _ _ M2 L3).
      split; [exact (later_trans _ _ _ L0 (later_trans _ _ _ L1 (later_trans _ _ _ L2 L3)))|].
      intros i Hi. destruct (Cm _ Hi) as (im & ss1 & ans1 & Mm & V1 & An1 & Le1 & Sh1).
      destruct (Cl _ Mm) as (i1 & rs1 & Mi1 & V2 & T2). destruct (IH' _ Mi1) as (i' & rs & ss & ans & Mi' & V3 & T3 & An3 & Le3 & Sh3).
      exists i', (rs1 ++ rs), (ss1 ++ ss), (ans1 ++ ans). split; [exact Mi'|]. split.
      { change rs1 with ([] ++ rs1). rewrite <- (app_nil_r ss1). rewrite <- !app_assoc, (told_app [] ss1), (told_app rs1 []).
        exact (live_app _ _ _ _ _ _ _ (live_from _ _ _ _ _ _ _ L0 V1) _ _ (live_app _ _ _ _ _ _ _ V2 _ _ V3)). }
      split; [exact (timeline_app _ _ _ _ T2 _ _ _ T3)|].
      split; [rewrite An3, A2, An1, Ac, app_assoc; reflexivity|]. split; [rewrite !app_length; congruence|].
      refine (shots_app _ _ _ _ _ _ Sh3). refine (shots_from _ _ _ _ (shots_to _ _ _ _ (Sh1 M0) B2) B0).
  Qed.
End Metrix.
