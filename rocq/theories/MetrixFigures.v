(** What the driver's own metrics show. *)
From Coq Require Import ZArith QArith Bool String List Lia.
From Verif Require Import Base SpecRun MonadFacts SpecClock ClockProofs ModelObservation ModelLabelFilter ModelSnapshot ModelGauge ModelMeter
  ModelHistogram ModelSwitches ModelInstrument ModelTree ModelChannel ModelProcessor ModelDriver SpecWriting AppendProofs SpecTree
  SpecQueue SpecCollect WorldClockProofs GroupProofs SpecDriver DriverProofs DriverLoopProofs DriverMetricsProofs DriverShapeProofs DriverAlarmProofs
  SpecCounting SpecGauge SpecMeter SpecHistogram SpecObservation SpecSite SiteProofs SpecLife SpecLives LifeProofs LivesHistogram LivesDriver MeterHistoryProofs
  SpecMetrix MetrixProofs.
From Verif Require SpecConfig MeterProofs GaugeProofs.
Import ListNotations.
Open Scope string_scope.
Open Scope list_scope.
Open Scope Z_scope.

Section Figures.
  Context {X : ext} {Y : pext}.
  Context (HX : parts_tick X) (HY : processors_tick Y).
  Context (contents : histo (ex_histo X) -> list Z) (Hc : counting (ex_histo X) contents).

  Lemma read_bounds : forall c c' t, monotone c -> read_during c c' t -> c O <= t <= c' O.
  Proof.
    intros c c' t Mo R. exact (MeterProofs.read_during_le _ _ _ Mo R).
  Qed.

  Lemma alone : forall (texts : snapshot) (a b : string * item_kind), [a] = texts ++ [b] -> a = b.
  Proof. intros [|x [|y texts]] a b E; inversion E; reflexivity. Qed.

  Lemma meter_figure : forall n k c0 m c1 c os x' c' c2 de into x'' v c3,
    monotone c0 -> meter_new (ex_alphas X) n k c0 = Ok m c1 -> later c1 c ->
    leaf_life k c (own_meter X m) os x' c' -> Forall update_ok (map update_of os) -> later c' c2 ->
    leaf_put x' de into k c2 = Ok (x'', into ++ [(n, v)]) c3 -> forall b e, b <= c0 O -> c3 O <= e ->
    rate_of X b e (marked_amounts (map update_of os)) v.
  Proof.
    intros n k c0 m c1 c os x' c' c2 de into x'' v c3 Mo E L H Hok L2 P b e Hb He.
    destruct (meter_life _ _ _ _ _ _ m _ None _ _ _ _ _ _ _ _ _ Mo E eq_refl L H Hok L2 P) as (start & l & t & texts & R & M & B & R2 & F & _).
    assert (L1 : later c0 c1).
    { destruct R as (i & j & _ & -> & _). apply iter_later. }
    pose proof (later_monotone _ _ Mo L1) as Mo1. pose proof (later_monotone _ _ Mo1 L) as Mo2.
    pose proof (later_monotone _ _ Mo2 (leaf_life_later (own_ticks HX) _ _ _ _ _ _ H)) as Mo3. pose proof (later_monotone _ _ Mo3 L2) as Mo4.
    pose proof (read_bounds _ _ _ Mo R). pose proof (read_bounds _ _ _ Mo4 R2). pose proof (later_first _ _ Mo1 L). pose proof (later_first _ _ Mo3 L2).
    exists start, l, t. split; [exact M|]. split; [lia|]. split; [eapply between_widen; [exact B | lia | lia]|]. split; [lia|].
    unfold meter_new in E. apply bind_ok in E. destruct E as (t0 & ct & _ & E). apply bind_ok in E. destruct E as (st & cs & _ & E). injection E as <- <-.
    unfold meter_shows, meter_items in F. cbn [m_name m_one_minute m_five_minute m_fifteen_minute m_lower_cutoff] in F.
    apply alone in F. injection F as ->. rewrite M. reflexivity.
  Qed.

  Lemma statistics_figure : forall n k c0 h c1 c os x' c' c2 de into x'' v c3 ns,
    monotone c -> histogram_new (ex_histo X) n k c0 = Ok h c1 ->
    leaf_life k c (own_histogram X h) os x' c' -> Forall update_ok (map update_of os) ->
    Forall2 (update_effect Microseconds) (map update_of os) (map Sets ns) ->
    leaf_put x' de into k c2 = Ok (x'', into ++ [(n, v)]) c3 ->
    statistics_of X contents ns v.
  Proof.
    intros n k c0 h c1 c os x' c' c2 de into x'' v c3 ns Mo E H Hok Hs P.
    unfold histogram_new in E. apply bind_ok in E. destruct E as (inn & ct & E1 & E). apply bind_ok in E. destruct E as (t & cs & _ & E). injection E as <- <-.
    destruct (histogram_life (X := own X) contents Hc _ _ _ None _ _ _ _ _ _ _ _ _ (map Sets ns) Mo H ltac:(discriminate) Hok Hs P)
      as (vs & inner & a & texts & Mv & _ & Re & Aw & _ & F).
    cbn [h_max_inactivity h_name h_inner h_last_update h_reset_after_inactivity awake] in *.
    rewrite (proj1 (counting_new _ _ Hc _ _ _ _ E1)) in Re.
    assert (Ci : contents inner = ns).
    { assert (Tk : taken vs = ns).
      { unfold taken. rewrite flat_map_concat_map, <- map_map with (f := snd) (g := sample), Mv. clear. induction ns; cbn; congruence. }
      clear - Re Tk. destruct Re as [vs _|vs1 v vs2 (_ & d & r & D & _) _]; [exact Tk | discriminate D]. }
    exists inner. split; [exact Ci|]. apply alone in F. injection F as ->. cbn [app]. rewrite (proj2 Aw I), Ci. reflexivity.
  Qed.

  Lemma last_figure : forall n k c0 g c1 c os x' c' c2 de into x'' v c3 ns,
    tracking_gauge n k c0 = Ok g c1 ->
    leaf_life k c (own_gauge X g) os x' c' -> Forall update_ok (map update_of os) ->
    Forall2 (update_effect Microseconds) (map update_of os) (map Sets ns) -> Forall in_i64 ns ->
    leaf_put x' de into k c2 = Ok (x'', into ++ [(n, v)]) c3 ->
    last_one ns v.
  Proof.
    intros n k c0 g c1 c os x' c' c2 de into x'' v c3 ns E H Hok Hs Hi P.
    assert (G : g_name g = n /\ g_value g = None /\ g_display_time_unit g = Microseconds /\ g_group_values g = true).
    { unfold tracking_gauge in E. apply bind_ok in E. destruct E as (g1 & cg & E1 & E). injection E as <- _.
      unfold gauge_set_tracking in E1. apply bind_ok in E1. destruct E1 as (b & cb & _ & E1). injection E1 as <- _. repeat split. }
    destruct G as (G1 & G2 & G3 & G4).
    assert (Re : Forall2 (reacts (lab_eqb (own X)) None Microseconds (GFilter AcceptAll)) os (map Sets ns)).
    { clear - Hok Hs. revert ns Hs. induction os as [|o os IH]; intros ns Hs; cbn [map] in Hs, Hok.
      - destruct ns; [constructor | inversion Hs].
      - destruct ns as [|z ns]; inversion Hs; subst. inversion Hok; subst. constructor; [|auto]. apply re_follows; [reflexivity|..]; assumption. }
    assert (Ev : exact_value (map Sets ns) (match rev ns with [] => None | z :: _ => Some z end)).
    { destruct (rev ns) as [|z l] eqn:Er.
      - apply (f_equal (@rev Z)) in Er. rewrite rev_involutive in Er. subst ns. constructor; [constructor | reflexivity].
      - apply (f_equal (@rev Z)) in Er. rewrite rev_involutive in Er. subst ns. cbn [rev]. rewrite map_app. cbn [map].
        replace z with (z + sum (changes [])) at 2 by (cbn; lia). constructor. constructor. }
    rewrite <- G3 in Re.
    assert (Ev' : exact_value (begins (gauge_get g) ++ map Sets ns) (match rev ns with [] => None | z :: _ => Some z end)).
    { unfold gauge_get. rewrite G2. exact Ev. }
    assert (Ni : GaugeProofs.opt_in_i64 (gauge_get g)) by (unfold gauge_get; rewrite G2; exact I).
    destruct (gauge_life (X := own X) _ _ (GaugeAdapter (GFilter AcceptAll) g None) os x' c' (map Sets ns) _ H Ni Re Ev')
      as (g' & -> & (S1 & _ & _ & S4) & V).
    pose proof (gauge_leaf_fields _ _ _ _ _ _ _ _ P) as F. cbn [ga_with ga_gauge] in F. rewrite V in F. unfold shows_gauge in F.
    cbn [ga_gauge] in S1, S4. rewrite S1, S4, G1, G4 in F. unfold last_one.
    assert (Hl : forall z l, rev ns = z :: l -> in_i64 z).
    { intros z l Er. rewrite Forall_forall in Hi. apply Hi. apply in_rev. rewrite Er. left. reflexivity. }
    destruct (rev ns) as [|z l]; cbn [option_map] in F.
    - destruct F as [F|[]]. injection F as ->. reflexivity.
    - destruct F as (rest & [F|[]]). injection F as ->. specialize (Hl _ _ eq_refl). rewrite wrap_i64_id by exact Hl. exists rest. reflexivity.
  Qed.

  (** ** What is told *)

  Definition outcomes (log : list (Z * outcome * Z)) : list outcome := map (fun e => snd (fst e)) log.

  Lemma timeline_outcomes : forall b a rs log, timeline b a rs log -> map ru_outcome rs = outcomes log.
  Proof. intros b a rs log H. unfold outcomes. induction H; cbn [map fst snd]; [reflexivity|]. rewrite IHtimeline. reflexivity. Qed.
  Lemma timeline_order : forall b a rs log, timeline b a rs log -> Forall (fun r => 0 <= ru_at r - ru_started r) rs.
  Proof. intros b a rs log H. induction H; constructor; [lia | assumption]. Qed.
  Lemma shots_order : forall b a ss, shots b a ss -> Forall (fun s => 0 <= snd s - fst s) ss.
  Proof. intros b a ss H. induction H; constructor; [cbn; lia | assumption]. Qed.

  Lemma ones : forall A (f : A -> Z) l, marked_amounts (map update_of (map (fun a => ObservedOne tt (f a)) l)) = map (fun _ => 1) l.
  Proof. intros A f l. unfold marked_amounts. induction l as [|a l IH]; [reflexivity|]. cbn [map flat_map update_of meter_amount app]. rewrite IH. reflexivity. Qed.
  Lemma ones_ok : forall A (f : A -> Z) l, Forall update_ok (map update_of (map (fun a => ObservedOne tt (f a)) l)).
  Proof. intros A f l. induction l; constructor; [exact I | assumption]. Qed.

  Lemma some_amounts : forall f rs, Forall (fun r => f (ru_outcome r) <= i64_max) rs ->
    marked_amounts (map update_of (some f (fun n t => Observed tt n t) rs)) = filter (fun n => 0 <? n) (map f (map ru_outcome rs)).
  Proof.
    intros f rs H. unfold marked_amounts, some. induction H as [|r rs Hr H IH]; [reflexivity|]. cbn [map flat_map filter].
    destruct (0 <? f (ru_outcome r)) eqn:P; cbn [app]; [|exact IH]. cbn [map flat_map update_of meter_amount]. rewrite P.
    apply Z.leb_le in Hr. rewrite Hr. cbn [andb app]. rewrite IH. reflexivity.
  Qed.
  Lemma some_amounts_ok : forall f rs, Forall (fun r => f (ru_outcome r) <= i64_max) rs ->
    Forall update_ok (map update_of (some f (fun n t => Observed tt n t) rs)).
  Proof.
    intros f rs H. unfold some. induction H as [|r rs Hr H IH]; [constructor|]. cbn [flat_map].
    destruct (Z.ltb_spec 0 (f (ru_outcome r))); cbn [app map]; [|exact IH]. constructor; [|exact IH]. cbn. unfold in_u64. lia.
  Qed.

  Lemma exactly : forall z, 0 <= z <= i64_max -> forall t, update_effect Microseconds (ObservationWithValue (UnsignedInteger z) t) (Sets z).
  Proof.
    intros z Hz t. constructor. apply eff_number with (q := inject_Z z); [reflexivity| |unfold in_i64; lia]. left.
    setoid_replace (inject_Z z - inject_Z z)%Q with 0%Q by ring. reflexivity.
  Qed.
  Lemma some_samples : forall f rs, Forall (fun r => f (ru_outcome r) <= i64_max) rs ->
    Forall2 (update_effect Microseconds) (map update_of (some f (fun n t => ObservedOneValue tt (UnsignedInteger n) t) rs))
      (map Sets (filter (fun n => 0 <? n) (map f (map ru_outcome rs)))).
  Proof.
    intros f rs H. unfold some. induction H as [|r rs Hr H IH]; [constructor|]. cbn [map flat_map filter].
    destruct (Z.ltb_spec 0 (f (ru_outcome r))); cbn [app map]; [|exact IH]. constructor; [|exact IH]. cbn [update_of]. apply exactly. lia.
  Qed.
  Lemma some_samples_ok : forall f rs, Forall (fun r => f (ru_outcome r) <= i64_max) rs ->
    Forall update_ok (map update_of (some f (fun n t => ObservedOneValue tt (UnsignedInteger n) t) rs)).
  Proof.
    intros f rs H. unfold some. induction H as [|r rs Hr H IH]; [constructor|]. cbn [flat_map].
    destruct (Z.ltb_spec 0 (f (ru_outcome r))); cbn [app map]; [|exact IH]. constructor; [|exact IH]. cbn. unfold in_u64. lia.
  Qed.

  Lemma times : forall A (d t : A -> Z) l, Forall (fun a => 0 <= d a) l ->
    Forall2 (update_effect Microseconds) (map update_of (map (fun a => ObservedOneValue tt (took (d a)) (t a)) l)) (map Sets (map (fun a => micros (d a)) l)).
  Proof.
    intros A d t l H. induction H as [|a l Ha H IH]; [constructor|]. cbn [map]. constructor; [|exact IH]. cbn [update_of]. constructor.
    unfold took, micros. rewrite Z.max_r by lia.
    pose proof (Z.mod_pos_bound (d a) two64 ltac:(lia)) as Hb. set (x := d a mod two64) in *.
    replace (x / 1000) with (x * nanos_in Nanoseconds / nanos_in Microseconds) by (cbn [nanos_in]; rewrite Z.mul_1_r; reflexivity).
    apply eff_duration. cbn [nanos_in]. rewrite Z.mul_1_r. apply Z.div_le_upper_bound; lia.
  Qed.
  Lemma times_ok : forall A (d t : A -> Z) l, Forall update_ok (map update_of (map (fun a => ObservedOneValue tt (took (d a)) (t a)) l)).
  Proof.
    intros A d t l. induction l; constructor; [|assumption]. cbn. unfold in_u64. pose proof (Z.mod_pos_bound (Z.max 0 (d a)) two64 ltac:(lia)). lia.
  Qed.

  Lemma levels : forall (f t : run -> Z) rs, Forall (fun r => 0 <= f r <= i64_max) rs ->
    Forall2 (update_effect Microseconds) (map update_of (map (fun r => ObservedOneValue tt (UnsignedInteger (f r)) (t r)) rs)) (map Sets (map f rs)).
  Proof. intros f t rs H. induction H; constructor; [|assumption]. cbn [update_of]. apply exactly. assumption. Qed.
  Lemma levels_ok : forall (f t : run -> Z) rs, Forall (fun r => 0 <= f r <= i64_max) rs ->
    Forall update_ok (map update_of (map (fun r => ObservedOneValue tt (UnsignedInteger (f r)) (t r)) rs)).
  Proof. intros f t rs H. induction H; constructor; [|assumption]. cbn. unfold in_u64. lia. Qed.

  (** ** The outcomes of collections *)

  Lemma outcomes_in : forall k n (d : driver X Y) w log d' w', history k n d w log d' w' -> Forall (fun o => 0 <= oc_enqueued o) (outcomes log).
  Proof.
    intros k n d w log d' w' H. unfold outcomes.
    induction H as [d w|n d w wa t0 wb r wc dm wd e d1 w1 log d2 w2 E1 E2 E3 D E4 C H IH]; [constructor|].
    rewrite map_app. apply Forall_app. split; [|exact IH]. destruct C as [|d0 t w0 d3 w3 t' v1 ps o v2 P R F1 F2]; [constructor|].
    constructor; [|constructor]. cbn [fst snd]. destruct (do_a_run_sums _ _ _ _ _ _ _ _ F2) as (os & _ & ->). unfold wrapped. cbn [oc_enqueued].
    unfold wrap_u64. apply Z.mod_pos_bound. lia.
  Qed.

  (** ** From the start *)

  Lemma default_parts : forall k c i c', driver_instruments_default (X := X) k c = Ok i c' -> later c c'
    /\ (forall n m, In (n, m) [("collections_per_second", di_collections_per_second i); ("observations_processed_per_second", di_observations_processed_per_second i);
          ("observations_dropped_per_second", di_observations_dropped_per_second i); ("instruments_updated_per_second", di_instruments_updated_per_second i);
          ("snapshots_per_second", di_snapshots_per_second i)] ->
         exists ca cb, later c ca /\ meter_new (ex_alphas X) n k ca = Ok m cb /\ later cb c')
    /\ (forall n h, In (n, h) [("collection_times_us", di_collection_times_us i); ("observations_processed_per_collection", di_observations_processed_per_collection i);
          ("observations_dropped_per_collection", di_observations_dropped_per_collection i); ("snapshots_times_us", di_snapshots_times_us i);
          ("iteration_update_ratio_per_mille_histo", di_per_mille_ratio_histo i)] ->
         exists ca cb, histogram_new (ex_histo X) n k ca = Ok h cb)
    /\ (forall n g, In (n, g) [("observations_enqueued", di_observations_enqueued i); ("iteration_update_ratio_per_mille", di_per_mille_ratio i)] ->
         exists ca cb, tracking_gauge n k ca = Ok g cb).
  Proof.
    intros k c i c' E. unfold driver_instruments_default in E.
    apply bind_ok in E. destruct E as (a1 & c1 & E1 & E).
    apply bind_ok in E. destruct E as (a2 & c2 & E2 & E).
    apply bind_ok in E. destruct E as (a3 & c3 & E3 & E).
    apply bind_ok in E. destruct E as (a4 & c4 & E4 & E).
    apply bind_ok in E. destruct E as (a5 & c5 & E5 & E).
    apply bind_ok in E. destruct E as (a6 & c6 & E6 & E).
    apply bind_ok in E. destruct E as (a7 & c7 & E7 & E).
    apply bind_ok in E. destruct E as (a8 & c8 & E8 & E).
    apply bind_ok in E. destruct E as (a9 & c9 & E9 & E).
    apply bind_ok in E. destruct E as (a10 & c10 & E10 & E). cbv zeta in E.
    apply bind_ok in E. destruct E as (a12 & c12 & E12 & E).
    apply bind_ok in E. destruct E as (a13 & c13 & E13 & E).
    apply bind_ok in E. destruct E as (a14 & c14 & E14 & E). injection E as <- <-.
    cbn [di_collections_per_second di_collection_times_us di_observations_processed_per_second
      di_observations_processed_per_collection di_observations_dropped_per_second di_observations_dropped_per_collection
      di_observations_enqueued di_instruments_updated_per_second di_snapshots_per_second di_snapshots_times_us
      di_dropped_observations_alarm di_inactivity_alarm di_per_mille_ratio di_per_mille_ratio_histo].
    assert (TM : forall n, ticks (meter_new (ex_alphas X) n)) by (intro n; unfold meter_new, std_meter_default; tick).
    assert (TG : forall n, ticks (tracking_gauge n)) by (intro n; unfold tracking_gauge, gauge_set_tracking, ModelBuckets.buckets_new, ModelBuckets.buckets_initialized; tick).
    assert (TN : forall n, ticks (non_occurrence_new n)) by (intro n; unfold non_occurrence_new; tick).
    pose proof (TM _ _ _ _ _ E1) as L1. pose proof (histogram_new_ticks HX _ _ _ _ _ E2) as L2. pose proof (TM _ _ _ _ _ E3) as L3.
    pose proof (histogram_new_ticks HX _ _ _ _ _ E4) as L4. pose proof (TM _ _ _ _ _ E5) as L5. pose proof (histogram_new_ticks HX _ _ _ _ _ E6) as L6.
    pose proof (TG _ _ _ _ _ E7) as L7. pose proof (TM _ _ _ _ _ E8) as L8. pose proof (TM _ _ _ _ _ E9) as L9.
    pose proof (histogram_new_ticks HX _ _ _ _ _ E10) as L10. pose proof (TN _ _ _ _ _ E12) as L12. pose proof (histogram_new_ticks HX _ _ _ _ _ E13) as L13.
    pose proof (TG _ _ _ _ _ E14) as L14. clear TM TG TN.
    assert (On : forall n, (n <= 14)%nat -> True) by auto. clear On.
    split; [|split; [|split]].
    - repeat (eassumption || match goal with H : later ?a ?x |- later ?a _ => apply (later_trans _ _ _ H) end).
    - intros n m Hi. repeat (destruct Hi as [Hi|Hi]; [injection Hi as <- <-; eexists; eexists; split; [|split; [eassumption|]];
        repeat (exact (later_refl _) || match goal with H : later ?a ?b |- later ?a ?b => exact H | H : later ?a ?x |- later ?a _ => apply (later_trans _ _ _ H) end)|]).
      destruct Hi.
    - intros n h Hi. repeat (destruct Hi as [Hi|Hi]; [injection Hi as <- <-; eauto|]). destruct Hi.
    - intros n h Hi. repeat (destruct Hi as [Hi|Hi]; [injection Hi as <- <-; eauto|]). destruct Hi.
  Qed.

  (** One leaf after the other *)
  Lemma display_leaf : forall k de c x xs before inner c', display X k de c (x :: xs) before inner c' ->
    exists c0 x' fields c1 rest, later c c0 /\ leaf_put x de before k c0 = Ok (x', before ++ fields) c1 /\ inner = fields ++ rest
      /\ later c c1 /\ display X k de c1 xs (before ++ fields) rest c'.
  Proof.
    intros k de c x xs before inner c' H. inversion H; subst. do 5 eexists. split; [eassumption|]. split; [eassumption|]. split; [reflexivity|].
    split; [|assumption]. eapply later_trans; [eassumption|]. eapply (leaf_put_ticks (own_ticks HX)); eassumption.
  Qed.
  Lemma display_later : forall k de c xs before inner c', display X k de c xs before inner c' -> later c c'.
  Proof.
    intros k de c xs before inner c' H. induction H; [assumption|].
    exact (later_trans _ _ _ H (later_trans _ _ _ (leaf_put_ticks (own_ticks HX) _ _ _ _ _ _ _ H0) IHdisplay)).
  Qed.

  (** A put with a known name *)
  Lemma only_field : forall into (fields : snapshot) n v, into ++ fields = into ++ [(n, v)] -> fields = [(n, v)].
  Proof. intros into fields n v E. exact (app_inv_head _ _ _ E). Qed.
  Lemma meter_field : forall n m de into k c x fields c', meter_is n m -> leaf_put (own_meter X m) de into k c = Ok (x, into ++ fields) c' ->
    exists v, fields = [(n, v)].
  Proof.
    intros n m de into k c x fields c' H E. unfold own_meter in E. cbn [leaf_put instrument_put] in E. apply bind_ok in E.
    destruct E as ([i s] & c1 & E1 & E). injection E as <- -> <-. unfold wrap in E1. apply bind_ok in E1. destruct E1 as ([m' s'] & c2 & E2 & E1).
    injection E1 as <- -> <-. destruct (meter_put_is _ _ _ _ _ _ _ _ _ H E2) as (_ & v & Ev). exists v. exact (app_inv_head _ _ _ Ev).
  Qed.
  Lemma histogram_field : forall n (h : histogram (ex_histo X)) de into k c x fields c', histo_is n h ->
    leaf_put (own_histogram X h) de into k c = Ok (x, into ++ fields) c' -> exists v, fields = [(n, v)].
  Proof.
    intros n m de into k c x fields c' H E. unfold own_histogram in E. cbn [leaf_put instrument_put] in E. apply bind_ok in E.
    destruct E as ([i s] & c1 & E1 & E). injection E as <- -> <-. unfold keep in E1. apply bind_ok in E1. destruct E1 as (s' & c2 & E2 & E1).
    injection E1 as <- -> <-. change (ex_histo (own X)) with (ex_histo X) in E2.
    destruct (histo_put_is _ _ _ _ _ _ _ _ _ H E2) as (v & Ev). exists v. exact (app_inv_head _ _ _ Ev).
  Qed.
  Lemma gauge_field : forall n g de into k c x fields c', gauge_is n g -> leaf_put (own_gauge X g) de into k c = Ok (x, into ++ fields) c' ->
    exists v, fields = [(n, v)].
  Proof.
    intros n m de into k c x fields c' H E. unfold own_gauge in E. cbn [leaf_put] in E. apply bind_ok in E.
    destruct E as ([i s] & c1 & E1 & E). injection E as <- -> <-. unfold ga_put in E1. apply bind_ok in E1. destruct E1 as ([m' s'] & c2 & E2 & E1).
    injection E1 as <- -> <-. destruct (gauge_put_is _ _ _ _ _ _ _ _ _ H E2) as (_ & v & Ev). exists v. exact (app_inv_head _ _ _ Ev).
  Qed.
  Lemma staircase_field : forall n t de into k c x fields c', stair_is n t -> leaf_put (own_staircase X t) de into k c = Ok (x, into ++ fields) c' ->
    exists v, fields = [(n, v)].
  Proof.
    intros n m de into k c x fields c' H E. unfold own_staircase in E. cbn [leaf_put instrument_put] in E. apply bind_ok in E.
    destruct E as ([i s] & c1 & E1 & E). injection E as <- -> <-. unfold keep in E1. apply bind_ok in E1. destruct E1 as (s' & c2 & E2 & E1).
    injection E1 as <- -> <-. eexists. exact (app_inv_head _ _ _ (stair_put_is _ _ _ _ _ _ _ _ H E2)).
  Qed.
  Lemma absence_field : forall n t de into k c x fields c', absence_is n t -> leaf_put (own_absence X t) de into k c = Ok (x, into ++ fields) c' ->
    exists v, fields = [(n, v)].
  Proof.
    intros n m de into k c x fields c' H E. unfold own_absence in E. cbn [leaf_put instrument_put] in E. apply bind_ok in E.
    destruct E as ([i s] & c1 & E1 & E). injection E as <- -> <-. unfold keep in E1. apply bind_ok in E1. destruct E1 as (s' & c2 & E2 & E1).
    injection E1 as <- -> <-. eexists. exact (app_inv_head _ _ _ (absence_put_is _ _ _ _ _ _ _ _ H E2)).
  Qed.

  Lemma figures_shown : forall k c0 i c1 c i1 c' rs ss log b a b' a' de inner c3,
    monotone c0 -> driver_instruments_default (X := X) k c0 = Ok i c1 -> later c1 c ->
    live X k c c' (metrics_of X i) (told rs ss) (metrics_of X i1) -> metrix_ok i1 ->
    timeline b a rs log -> Forall (fun o => 0 <= oc_enqueued o) (outcomes log) -> modest log -> shots b' a' ss ->
    display X k de c' (metrics_of X i1) [] inner c3 ->
    forall e, c3 O <= e -> figures X contents (c0 O) e rs ss log inner.
  Proof.
    intros k c0 i c1 c i1 c' rs ss log b a b' a' de inner c3 Mo E0 L1 V Hi T En Md Sh D e He.
    destruct (default_parts _ _ _ _ E0) as (L0 & Pm & Ph & Pg).
    assert (Mc1 := later_monotone _ _ Mo L0). assert (Mc := later_monotone _ _ Mc1 L1).
    assert (Or := timeline_outcomes _ _ _ _ T).
    assert (Mods : Forall (fun r => oc_processed (ru_outcome r) <= i64_max) rs /\ Forall (fun r => oc_dropped (ru_outcome r) <= i64_max) rs
      /\ Forall (fun r => oc_instruments_updated (ru_outcome r) <= i64_max) rs /\ Forall (fun r => 0 <= oc_enqueued (ru_outcome r) <= i64_max) rs).
    { clear - Md En Or. unfold modest, outcomes in *. revert log Md En Or. induction rs as [|r rs IH]; intros log Md En Or; [repeat split; constructor|].
      destruct log as [|x log]; [discriminate Or|]. cbn [map] in Or, En. injection Or as O1 O2. inversion Md as [|? ? M1 M2]; subst. inversion En as [|? ? N1 N2]; subst.
      destruct (IH _ M2 N2 O2) as (A1 & A2 & A3 & A4). rewrite <- O1 in M1, N1. repeat split; constructor; try assumption; lia. }
    destruct Mods as (Mp & Mdr & Mu & Me).
    assert (To := timeline_order _ _ _ _ T). assert (So := shots_order _ _ _ Sh).
    assert (Am : forall f, filter (fun n => 0 <? n) (map f (map ru_outcome rs)) = amounts f log).
    { intros f. unfold amounts. rewrite Or. unfold outcomes. rewrite map_map. reflexivity. }
    assert (On : map (fun _ => 1) rs = map (fun _ => 1) log).
    { clear - Or. unfold outcomes in Or. revert log Or. induction rs as [|r rs IH]; intros [|x log] Or; try discriminate Or; [reflexivity|].
      cbn [map] in Or |- *. injection Or as _ Or. rewrite (IH _ Or). reflexivity. }
    assert (Eq : map (fun r => oc_enqueued (ru_outcome r)) rs = map (fun x => oc_enqueued (snd (fst x))) log).
    { rewrite <- (map_map ru_outcome oc_enqueued), Or. unfold outcomes. rewrite map_map. reflexivity. }
    unfold metrics_of, told in V, D. destruct Hi as [M1 M2 M3 M4 M5 M6 M7 M8 M9 M10 M11 M12 M13 M14].
    repeat match goal with
           | H : live X k _ _ (_ :: _) _ _ |- _ => inversion H; clear H; subst
           end.
    match goal with H : live X k _ _ [] _ _ |- _ => clear H end.
    apply display_leaf in D. destruct D as (q1 & y1 & f1 & p1 & r1 & Q1 & F1 & I1 & Z1 & D).
    apply display_leaf in D. destruct D as (q2 & y2 & f2 & p2 & r2 & Q2 & F2 & I2 & Z2 & D).
    apply display_leaf in D. destruct D as (q3 & y3 & f3 & p3 & r3 & Q3 & F3 & I3 & Z3 & D).
    apply display_leaf in D. destruct D as (q4 & y4 & f4 & p4 & r4 & Q4 & F4 & I4 & Z4 & D).
    apply display_leaf in D. destruct D as (q5 & y5 & f5 & p5 & r5 & Q5 & F5 & I5 & Z5 & D).
    apply display_leaf in D. destruct D as (q6 & y6 & f6 & p6 & r6 & Q6 & F6 & I6 & Z6 & D).
    apply display_leaf in D. destruct D as (q7 & y7 & f7 & p7 & r7 & Q7 & F7 & I7 & Z7 & D).
    apply display_leaf in D. destruct D as (q8 & y8 & f8 & p8 & r8 & Q8 & F8 & I8 & Z8 & D).
    apply display_leaf in D. destruct D as (q9 & y9 & f9 & p9 & r9 & Q9 & F9 & I9 & Z9 & D).
    apply display_leaf in D. destruct D as (q10 & y10 & f10 & p10 & r10 & Q10 & F10 & I10 & Z10 & D).
    pose proof (display_later _ _ _ _ _ _ _ D) as Zd.
    apply display_leaf in D. destruct D as (q11 & y11 & f11 & p11 & r11 & Q11 & F11 & I11 & Z11 & D).
    apply display_leaf in D. destruct D as (q12 & y12 & f12 & p12 & r12 & Q12 & F12 & I12 & Z12 & D).
    apply display_leaf in D. destruct D as (q13 & y13 & f13 & p13 & r13 & Q13 & F13 & I13 & Z13 & D).
    apply display_leaf in D. destruct D as (q14 & y14 & f14 & p14 & r14 & Q14 & F14 & I14 & Z14 & D).
    inversion D; subst.
    destruct (meter_field _ _ _ _ _ _ _ _ _ M1 F1) as (v1 & ->). destruct (histogram_field _ _ _ _ _ _ _ _ _ M2 F2) as (v2 & ->).
    destruct (meter_field _ _ _ _ _ _ _ _ _ M3 F3) as (v3 & ->). destruct (histogram_field _ _ _ _ _ _ _ _ _ M4 F4) as (v4 & ->).
    destruct (meter_field _ _ _ _ _ _ _ _ _ M5 F5) as (v5 & ->). destruct (histogram_field _ _ _ _ _ _ _ _ _ M6 F6) as (v6 & ->).
    destruct (gauge_field _ _ _ _ _ _ _ _ _ M7 F7) as (v7 & ->). destruct (meter_field _ _ _ _ _ _ _ _ _ M8 F8) as (v8 & ->).
    destruct (meter_field _ _ _ _ _ _ _ _ _ M9 F9) as (v9 & ->). destruct (histogram_field _ _ _ _ _ _ _ _ _ M10 F10) as (v10 & ->).
    destruct (staircase_field _ _ _ _ _ _ _ _ _ M11 F11) as (v11 & ->). destruct (absence_field _ _ _ _ _ _ _ _ _ M12 F12) as (v12 & ->).
    destruct (gauge_field _ _ _ _ _ _ _ _ _ M14 F13) as (v13 & ->). destruct (histogram_field _ _ _ _ _ _ _ _ _ M13 F14) as (v14 & ->).
    clear F11 F12 F13 F14 M1 M2 M3 M4 M5 M6 M7 M8 M9 M10 M11 M12 M13 M14.
    assert (Rate : forall n m os x' into x'' v q p,
      (exists ca cb, later c0 ca /\ meter_new (ex_alphas X) n k ca = Ok m cb /\ later cb c1) ->
      leaf_life k c (own_meter X m) os x' c' -> Forall update_ok (map update_of os) -> later c' q ->
      leaf_put x' de into k q = Ok (x'', into ++ [(n, v)]) p -> later p c3 ->
      rate_of X (c0 O) e (marked_amounts (map update_of os)) v).
    { intros n m os x' into x'' v q p (ca & cb & La & Em & Lb) Hl Hok Lq P Lp.
      assert (Mca := later_monotone _ _ Mo La).
      refine (meter_figure _ _ _ _ _ _ _ _ _ _ _ _ _ _ _ Mca Em (later_trans _ _ _ Lb L1) Hl Hok Lq P _ _ _ _).
      - exact (later_first _ _ Mo La).
      - assert (Mq : monotone q).
        { exact (later_monotone _ _ (later_monotone _ _ Mc (leaf_life_later (own_ticks HX) _ _ _ _ _ _ Hl)) Lq). }
        assert (Mp' : monotone p) by exact (later_monotone _ _ Mq (leaf_put_ticks (own_ticks HX) _ _ _ _ _ _ _ P)).
        pose proof (later_first _ _ Mp' Lp). lia. }
    assert (Stat : forall n h os x' into x'' v q p ns,
      (exists ca cb, histogram_new (ex_histo X) n k ca = Ok h cb) ->
      leaf_life k c (own_histogram X h) os x' c' -> Forall update_ok (map update_of os) ->
      Forall2 (update_effect Microseconds) (map update_of os) (map Sets ns) ->
      leaf_put x' de into k q = Ok (x'', into ++ [(n, v)]) p ->
      statistics_of X contents ns v).
    { intros n h os x' into x'' v q p ns (ca & cb & Eh) Hl Hok Hs P.
      exact (statistics_figure _ _ _ _ _ _ _ _ _ _ _ _ _ _ _ _ Mc Eh Hl Hok Hs P). }
    assert (W9 : later p9 c3) by exact (later_trans _ _ _ Z10 Zd). assert (W8 := later_trans _ _ _ Z9 W9).
    assert (W7 := later_trans _ _ _ Z8 W8). assert (W6 := later_trans _ _ _ Z7 W7). assert (W5 := later_trans _ _ _ Z6 W6).
    assert (W4 := later_trans _ _ _ Z5 W5). assert (W3 := later_trans _ _ _ Z4 W4). assert (W2 := later_trans _ _ _ Z3 W3). assert (W1 := later_trans _ _ _ Z2 W2).
    assert (U2 := later_trans _ _ _ Z1 Z2). assert (U3 := later_trans _ _ _ U2 Z3). assert (U4 := later_trans _ _ _ U3 Z4).
    assert (U5 := later_trans _ _ _ U4 Z5). assert (U6 := later_trans _ _ _ U5 Z6). assert (U7 := later_trans _ _ _ U6 Z7). assert (U8 := later_trans _ _ _ U7 Z8).
    pose proof (later_trans _ _ _ U2 Q3) as B3. pose proof (later_trans _ _ _ U4 Q5) as B5. pose proof (later_trans _ _ _ U7 Q8) as B8. pose proof (later_trans _ _ _ U8 Q9) as B9.
    repeat match goal with H : leaf_life _ _ _ _ _ _ |- _ => revert H end.
    intros K1 K2 K3 K4 K5 K6 K7 K8 K9 K10 K11 K12 K13 K14.
    constructor.
    - reflexivity.
    - exists v1. split; [reflexivity|]. rewrite <- On, <- (ones _ ru_at rs).
      refine (Rate _ _ _ _ _ _ _ _ _ (Pm _ _ _) K1 (ones_ok _ _ _) Q1 F1 W1). cbn [In]; tauto.
    - exists v2. split; [reflexivity|].
      refine (Stat _ _ _ _ _ _ _ _ _ _ (Ph _ _ _) K2 (times_ok _ _ _ _) (times _ _ _ _ To) F2). cbn [In]; tauto.
    - exists v3. split; [reflexivity|]. rewrite <- Am, <- (some_amounts _ _ Mp).
      refine (Rate _ _ _ _ _ _ _ _ _ (Pm _ _ _) K3 (some_amounts_ok _ _ Mp) B3 F3 W3). cbn [In]; tauto.
    - exists v4. split; [reflexivity|]. rewrite <- Am.
      refine (Stat _ _ _ _ _ _ _ _ _ _ (Ph _ _ _) K4 (some_samples_ok _ _ Mp) (some_samples _ _ Mp) F4). cbn [In]; tauto.
    - exists v5. split; [reflexivity|]. rewrite <- Am, <- (some_amounts _ _ Mdr).
      refine (Rate _ _ _ _ _ _ _ _ _ (Pm _ _ _) K5 (some_amounts_ok _ _ Mdr) B5 F5 W5). cbn [In]; tauto.
    - exists v6. split; [reflexivity|]. rewrite <- Am.
      refine (Stat _ _ _ _ _ _ _ _ _ _ (Ph _ _ _) K6 (some_samples_ok _ _ Mdr) (some_samples _ _ Mdr) F6). cbn [In]; tauto.
    - exists v7. split; [reflexivity|]. rewrite <- Eq.
      destruct (Pg "observations_enqueued" (di_observations_enqueued i) ltac:(cbn [In]; tauto)) as (ca & cb & Eg).
      refine (last_figure _ _ _ _ _ _ _ _ _ _ _ _ _ _ _ _ Eg K7 (levels_ok _ _ _ Me) (levels _ _ _ Me) _ F7).
      clear - Me. induction Me; cbn [map]; constructor; [unfold in_i64; lia|assumption].
    - exists v8. split; [reflexivity|]. rewrite <- Am, <- (some_amounts _ _ Mu).
      refine (Rate _ _ _ _ _ _ _ _ _ (Pm _ _ _) K8 (some_amounts_ok _ _ Mu) B8 F8 W8). cbn [In]; tauto.
    - exists v9. split; [reflexivity|]. rewrite <- (ones shot (fun s : Z * Z => snd s) ss).
      refine (Rate _ _ _ _ _ _ _ _ _ (Pm _ _ _) K9 (ones_ok _ _ _) B9 F9 W9). cbn [In]; tauto.
    - exists v10. split; [reflexivity|].
      refine (Stat _ _ _ _ _ _ _ _ _ _ (Ph _ _ _) K10 (times_ok _ _ _ _) (times _ _ _ _ So) F10). cbn [In]; tauto.
  Qed.

  Lemma life_shown : forall k n (d : driver X Y) w log d1 w1 cmd b de d2 w2,
    history k n d w log d1 w1 -> monotone (w_clock (dw_world w)) ->
    cmd = call_snapshot b de \/ cmd = call_snapshot_async b de -> driver_command d1 cmd k w1 = Ok d2 w2 ->
    forall i, dr_metrics d = Some i -> exists i1 rs ss ans x y c1 c2 snap inner,
      live X k (w_clock (dw_world w)) c1 (metrics_of X i) (told rs (ss ++ [(x, y)])) (metrics_of X i1)
      /\ timeline (w_clock (dw_world w1) O) (w_clock (dw_world w) O) rs log
      /\ shots (w_clock (dw_world w1) O) (w_clock (dw_world w) O) ss
      /\ w_clock (dw_world w1) O <= x /\ x <= y /\ y <= w_clock (dw_world w2) O
      /\ dw_answers w1 = dw_answers w ++ ans /\ List.length ss = List.length ans
      /\ dw_answers w2 = dw_answers w1 ++ [(b, snap)] /\ shows_metrix d1 [] snap inner
      /\ later (w_clock (dw_world w1)) c1 /\ display X k de c1 (metrics_of X i1) [] inner c2 /\ later c2 (w_clock (dw_world w2))
      /\ (metrics_ok d1 -> metrix_ok i1).
  Proof.
    intros k n d w log d1 w1 cmd b de d2 w2 H Mo Hcmd E i Hi.
    destruct (history_live HX HY _ _ _ _ _ _ _ H Mo) as (L & HL).
    destruct (HL _ Hi) as (i' & rs & ss & ans & Hi' & V & T & A & N & S).
    assert (E' : (let* '(d, s) := timed (put_values_into_snapshot d1 de []) in let* _ := answer b s in ret d) k w1 = Ok d2 w2).
    { destruct Hcmd as [-> | ->]; exact E. }
    clear E. apply bind_ok in E'. destruct E' as ([d' snap] & w' & E1 & E). apply timed_inv in E1. destruct E1 as (cl & E1 & ->).
    apply bind_ok in E. destruct E as (u & w'' & E2 & E). injection E2 as _ <-. injection E as <- <-.
    cbn [dw_world dw_answers w_clock].
    destruct (snapshot_live HX HY _ _ _ _ _ _ _ _ E1) as (L1 & _ & _ & SL).
    destruct (SL _ Hi') as (i1 & i2 & c0 & c1 & c2 & inner & Hi2 & La & Lb & Lc & V1 & Sh & D & Le & V2 & Ok1).
    assert (M1 := later_monotone _ _ Mo L). assert (M0 := later_monotone _ _ M1 La).
    assert (L0 : later c0 c1) by (eapply later_trans; [|exact Lc]; exists 1%nat; reflexivity).
    assert (L2 : later c1 c2) by exact (display_later _ _ _ _ _ _ _ D).
    assert (Lx : later c0 cl) by exact (later_trans _ _ _ (later_trans _ _ _ L0 L2) Le).
    exists i1, rs, ss, ans, (w_clock (dw_world w1) O), (c0 O), c1, c2, snap, inner.
    split. { rewrite <- (app_nil_r rs), told_app. exact (live_app _ _ _ _ _ _ _ V _ _ V1). }
    split; [exact T|]. split; [exact S|]. split; [lia|].
    split; [exact (later_first _ _ M1 La)|]. split; [exact (later_first _ _ M0 Lx)|].
    split; [exact A|]. split; [exact N|]. split; [reflexivity|]. split; [exact Sh|].
    split; [exact (later_trans _ _ _ La L0)|]. split; [exact D|]. split; [exact Le|].
    intros O1. exact (Ok1 (O1 _ Hi')).
  Qed.

  Lemma life_displayed : forall k n (d : driver X Y) w log d1 w1 cmd b de d2 w2,
    history k n d w log d1 w1 -> monotone (w_clock (dw_world w)) ->
    cmd = call_snapshot b de \/ cmd = call_snapshot_async b de -> driver_command d1 cmd k w1 = Ok d2 w2 ->
    forall i, dr_metrics d = Some i -> exists i1 rs ss ans x y c1 c2 snap inner,
      live X k (w_clock (dw_world w)) c1 (metrics_of X i) (told rs (ss ++ [(x, y)])) (metrics_of X i1)
      /\ timeline (w_clock (dw_world w1) O) (w_clock (dw_world w) O) rs log
      /\ shots (w_clock (dw_world w1) O) (w_clock (dw_world w) O) ss
      /\ w_clock (dw_world w1) O <= x /\ x <= y /\ y <= w_clock (dw_world w2) O
      /\ dw_answers w1 = dw_answers w ++ ans /\ List.length ss = List.length ans
      /\ dw_answers w2 = dw_answers w1 ++ [(b, snap)] /\ shows_metrix d1 [] snap inner
      /\ later (w_clock (dw_world w1)) c1 /\ display X k de c1 (metrics_of X i1) [] inner c2 /\ later c2 (w_clock (dw_world w2)).
  Proof.
    intros k n d w log d1 w1 cmd b de d2 w2 H Mo Hcmd E i Hi.
    destruct (life_shown _ _ _ _ _ _ _ _ _ _ _ _ H Mo Hcmd E i Hi)
      as (i1 & rs & ss & ans & x & y & cx & cy & snap & inner & V & T & S & Xa & Xy & Ya & A & N & A2 & Sh & Lx & D & Ly & _).
    exists i1, rs, ss, ans, x, y, cx, cy, snap, inner. repeat (split; [assumption|]). assumption.
  Qed.

  (** From the start of a driver to a snapshot *)
  Lemma start_figures : forall k name ds s c d c1 v sched n log (d1 : driver X Y) w1 cmd b de d2 w2,
    monotone c -> driver_start name ds s true k c = Ok d c1 -> later c1 (w_clock v) ->
    history k n d (new_world v sched) log d1 w1 -> modest log ->
    cmd = call_snapshot b de \/ cmd = call_snapshot_async b de -> driver_command d1 cmd k w1 = Ok d2 w2 ->
    exists snap inner rs ss,
      dw_answers w2 = dw_answers w1 ++ [(b, snap)] /\ shows_metrix d1 [] snap inner
      /\ timeline (w_clock (dw_world w1) O) (w_clock v O) rs log
      /\ shots (w_clock (dw_world w2) O) (w_clock v O) ss /\ List.length ss = List.length (dw_answers w2)
      /\ figures X contents (c O) (w_clock (dw_world w2) O) rs ss log inner.
  Proof.
    intros k name ds s c d c1 v sched n log d1 w1 cmd b de d2 w2 Mo E L1 H Md Hcmd Ec.
    destruct (start_ok HX _ _ _ _ _ _ _ _ E) as (L0 & Hd & Nm & _).
    assert (Mv : monotone (w_clock v)) by exact (later_monotone _ _ Mo (later_trans _ _ _ L0 L1)).
    destruct (history_alarms HX HY _ _ _ _ _ _ _ H Hd Mv) as (L3 & Hd1 & _).
    destruct (dr_metrics d) as [i|] eqn:Mi; [|discriminate (proj1 Nm eq_refl)].
    assert (De : exists ci, driver_instruments_default (X := X) k c = Ok i ci /\ later ci c1).
    { unfold driver_start in E. apply bind_ok in E. destruct E as (m & ci & E1 & E). apply bind_ok in E1. destruct E1 as (i0 & ci' & E1 & E2).
      injection E2 as <- <-. exists ci'. apply bind_ok in E. destruct E as (t & c2 & E2 & E).
      apply bind_ok in E. destruct E as (last & c3 & E3 & E). injection E as <- <-.
      cbn [dr_metrics] in Mi. injection Mi as <-. split; [exact E1|].
      exact (later_trans _ _ _ (ticks_now _ _ _ _ E2) (ticks_sub _ _ _ _ _ _ E3)). }
    destruct De as (ci & Ei & Li).
    destruct (life_shown _ _ _ _ _ _ _ _ _ _ _ _ H Mv Hcmd Ec i Mi)
      as (i1 & rs & ss & ans & x & y & cx & cy & snap & inner & V & T & S & Xa & Xy & Ya & A & N & A2 & Sh & Lx & D & Ly & Ok1).
    cbn [new_world dw_world dw_answers] in *.
    assert (S2 : shots (w_clock (dw_world w2) O) (w_clock v O) (ss ++ [(x, y)])).
    { refine (shots_app _ _ _ S _ _ _). constructor; [lia|lia|]. constructor. lia. }
    exists snap, inner, rs, (ss ++ [(x, y)]). split; [exact A2|]. split; [exact Sh|]. split; [exact T|]. split; [exact S2|].
    split. { rewrite A2, A. cbn [app]. rewrite !app_length, N. reflexivity. }
    assert (Mw1 := later_monotone _ _ Mv L3). assert (Mx := later_monotone _ _ Mw1 Lx).
    assert (My := later_monotone _ _ Mx (display_later _ _ _ _ _ _ _ D)).
    refine (figures_shown _ _ _ _ _ _ _ _ _ _ _ _ _ _ _ _ _ Mo Ei (later_trans _ _ _ Li L1) V (Ok1 Hd1) T (outcomes_in _ _ _ _ _ _ _ H) Md S2 D _ _).
    exact (later_first _ _ My Ly).
  Qed.
End Figures.

(** The gauges of a new driver *)
Lemma tracking_gauge_minute : forall name k c g c1, tracking_gauge name k c = Ok g c1 -> tracks_a_minute g.
Proof.
  intros name k c g c1 E. unfold tracking_gauge, gauge_set_tracking, ModelBuckets.buckets_new, ModelBuckets.buckets_initialized in E.
  apply bind_ok in E. destruct E as (g1 & c2 & E & E1). injection E1 as <- <-. apply bind_ok in E. destruct E as (b & c3 & E & E1). injection E1 as <- <-.
  split; [reflexivity|]. split; [reflexivity|]. exists b. split; [reflexivity|].
  remember (repeat bucket_default 60) as l. destruct l as [|x l]; [discriminate Heql|].
  apply bind_ok in E. destruct E as (t & c4 & _ & E). injection E as <- <-. reflexivity.
Qed.

Lemma start_gauges : forall (X : ext) (Y : pext) k name ds s c (d : driver X Y) c1, driver_start name ds s true k c = Ok d c1 ->
  exists i, dr_metrics d = Some i /\ tracks_a_minute (di_observations_enqueued i) /\ tracks_a_minute (di_per_mille_ratio i).
Proof.
  intros X Y k name ds s c d c1 E. unfold driver_start in E. apply bind_ok in E. destruct E as (m & c2 & E1 & E2).
  apply bind_ok in E1. destruct E1 as (i & c3 & E1 & E3). injection E3 as <- <-. exists i. split.
  - repeat match goal with H : bind _ _ _ _ = Ok _ _ |- _ => apply bind_ok in H; destruct H as (? & ? & ? & H) end. injection E2 as <- <-. reflexivity.
  - unfold driver_instruments_default in E1.
    repeat match goal with H : bind _ _ _ _ = Ok _ _ |- _ => apply bind_ok in H; destruct H as (? & ? & ? & H) end.
    injection E1 as <- <-. cbn [di_observations_enqueued di_per_mille_ratio].
    split; eapply tracking_gauge_minute; eassumption.
Qed.
