(** The driver's own metrics and the shape of its snapshot. *)
From Coq Require Import ZArith Bool String List Lia.
From Verif Require Import Base SpecRun MonadFacts SpecClock ClockProofs WorldClockProofs ModelObservation ModelSnapshot ModelGauge ModelMeter
  ModelHistogram ModelSwitches ModelInstrument ModelTree ModelChannel ModelProcessor ModelDriver SpecWriting WritingProofs AppendProofs
  SpecQueue QueueProofs SpecCollect CollectProofs GroupProofs SpecDriver DriverProofs DriverLoopProofs.
Import ListNotations.
Open Scope string_scope.
Open Scope list_scope.
Open Scope Z_scope.

(** ** Single instruments *)

Definition meter_is (n : string) (m : meter) : Prop := m_name m = n /\ m_descr m = no_descr.
Definition histo_is {H} (n : string) (h : histogram H) : Prop := h_name h = n /\ h_descr h = no_descr.
Definition gauge_is (n : string) (g : gauge) : Prop := g_name g = n /\ g_descr g = no_descr /\ g_group_values g = true.
Definition stair_is (n : string) (t : staircase_timer) : Prop :=
  st_name t = n /\ st_descr t = no_descr /\ st_invert t = false /\ st_show_inverted t = None
  /\ st_switch_off_after t = 60 * nanos_per_sec.
Definition absence_is (n : string) (t : non_occurrence_indicator) : Prop :=
  ni_name t = n /\ ni_descr t = no_descr /\ ni_invert t = false /\ ni_show_inverted t = None
  /\ ni_if_not_happened_within t = 60 * nanos_per_sec.

Lemma postfixed_nothing : forall n into d, put_postfixed_descriptives no_descr n into d = into.
Proof. intros n into []; reflexivity. Qed.

Lemma maybe_tick_is : forall n m k c m' c', meter_is n m -> meter_maybe_tick m k c = Ok m' c' -> meter_is n m'.
Proof.
  intros n m k c m' c' H E. unfold meter_maybe_tick in E. apply bind_ok in E. destruct E as (e & c1 & _ & E).
  destruct (_ <=? e); [|injection E as <- _; exact H].
  apply bind_ok in E. destruct E as (s & c2 & _ & E). apply bind_ok in E. destruct E as (t & c3 & _ & E).
  injection E as <- _. exact H.
Qed.
Lemma mark_is : forall n m x k c m' c', meter_is n m -> meter_mark m x k c = Ok m' c' -> meter_is n m'.
Proof.
  intros n m x k c m' c' H E. unfold meter_mark in E. apply bind_ok in E. destruct E as (s & c2 & _ & E). injection E as <- _. exact H.
Qed.
Lemma meter_update_is : forall n m u k c m' x c', meter_is n m -> meter_update m u k c = Ok (m', x) c' -> meter_is n m'.
Proof.
  intros n m u k c m' x c' H E. unfold meter_update in E. apply bind_ok in E. destruct E as (m1 & c1 & E1 & E).
  apply (maybe_tick_is n) in E1; [|exact H].
  assert (T : forall z, (let* m := meter_mark m1 z in ret (m, 1)) k c1 = Ok (m', x) c' -> meter_is n m').
  { intros z E'. apply bind_ok in E'. destruct E' as (m2 & c2 & E2 & E'). injection E' as <- _ _. exact (mark_is _ _ _ _ _ _ _ E1 E2). }
  destruct u; [destruct (_ && _)|..]; eauto. injection E as <- _ _. exact E1.
Qed.
Lemma meter_put_is : forall n m d into k c m' s c', meter_is n m -> meter_put m d into k c = Ok (m', s) c' ->
  meter_is n m' /\ exists v, s = into ++ [(n, v)].
Proof.
  intros n m d into k c m' s c' H E. unfold meter_put in E. apply bind_ok in E. destruct E as ([m1 sn] & c1 & E1 & E).
  assert (H1 : meter_is n m1).
  { unfold meter_get_snapshot in E1. apply bind_ok in E1. destruct E1 as (m2 & c2 & E2 & E1).
    apply (maybe_tick_is n) in E2; [|exact H]. apply bind_ok in E1. destruct E1 as ([s3 sn3] & c3 & _ & E1).
    injection E1 as <- _ _. exact E2. }
  injection E as <- <- _. split; [exact H1|]. destruct H1 as (-> & ->). unfold meter_snapshot_put. rewrite postfixed_nothing.
  eexists. reflexivity.
Qed.

Lemma histo_update_is : forall H n (h : histogram H) u k c h' x c', histo_is n h -> histogram_update h u k c = Ok (h', x) c' -> histo_is n h'.
Proof.
  intros H n h u k c h' x c' Hi E. unfold histogram_update in E. apply bind_ok in E. destruct E as (h1 & c1 & E1 & E).
  assert (H1 : histo_is n h1).
  { unfold histogram_maybe_reset in E1. destruct (h_max_inactivity h); [|injection E1 as <- _; exact Hi].
    destruct (h_reset_after_inactivity h); [|injection E1 as <- _; exact Hi].
    apply bind_ok in E1. destruct E1 as (e & c2 & _ & E1). destruct (_ <? e); [|injection E1 as <- _; exact Hi].
    apply bind_ok in E1. destruct E1 as (i & c3 & _ & E1). injection E1 as <- _. exact Hi. }
  assert (R : forall v k c h2 c2, histogram_record h1 v k c = Ok h2 c2 -> histo_is n h2).
  { clear - H1. intros v k c h2 c2 E. unfold histogram_record in E. apply bind_ok in E. destruct E as (i & c3 & _ & E).
    apply bind_ok in E. destruct E as (t & c4 & _ & E). injection E as <- _. exact H1. }
  assert (R' : forall v k c, (let* h := histogram_record h1 v in ret (h, 1)) k c = Ok (h', x) c' -> histo_is n h').
  { intros v k0 c0 E'. apply bind_ok in E'. destruct E' as (h2 & c2 & E2 & E'). injection E' as <- _ _. eauto. }
  destruct u as [z t|t|v t]; [injection E as <- _ _; exact H1..|].
  destruct v; try (destruct (convert_to_i64 _); [exact (R' _ _ _ E) | injection E as <- _ _; exact H1]).
  apply bind_ok in E. destruct E as (dv & c2 & _ & E). exact (R' _ _ _ E).
Qed.
Lemma histo_put_is : forall H n (h : histogram H) d into k c s c', histo_is n h -> histogram_put h d into k c = Ok s c' ->
  exists v, s = into ++ [(n, v)].
Proof.
  intros H n h d into k c s c' (Hn & Hd) E. unfold histogram_put in E. rewrite Hn, Hd, postfixed_nothing in E.
  apply bind_ok in E. destruct E as (l & c1 & _ & E). injection E as <- _. eexists. reflexivity.
Qed.

Lemma gauge_update_is : forall n g u k c g' x c', gauge_is n g -> gauge_update g u k c = Ok (g', x) c' -> gauge_is n g'.
Proof.
  intros n g u k c g' x c' H E. unfold gauge_update in E. destruct u; [injection E as <- _ _; exact H..|].
  apply bind_ok in E. destruct E as (g1 & c1 & E1 & E). injection E as <- _ _. unfold gauge_set in E1.
  destruct (g_value g); apply bind_ok in E1; destruct E1 as (nv & c2 & _ & E1);
    (destruct nv; [apply bind_ok in E1; destruct E1 as (t1 & c3 & _ & E1)|]; injection E1 as <- _; exact H).
Qed.
Lemma gauge_put_is : forall n g d into k c g' s c', gauge_is n g -> gauge_put g d into k c = Ok (g', s) c' ->
  gauge_is n g' /\ exists v, s = into ++ [(n, v)].
Proof.
  intros n g d into k c g' s c' H E. unfold gauge_put in E. assert (H' := H). destruct H' as (Hn & Hd & Hg).
  rewrite Hn, Hd, Hg, postfixed_nothing in E. apply bind_ok in E. destruct E as ([g1 l] & c1 & E1 & E). injection E as <- <- _.
  split; [|eexists; reflexivity]. unfold gauge_put_values in E1. destruct (g_value g); [|injection E1 as <- _ _; exact H].
  rewrite Hg in E1. destruct (g_tracking g); [|injection E1 as <- _ _; exact H].
  apply bind_ok in E1. destruct E1 as ([b' st] & c2 & _ & E1). destruct st; injection E1 as <- _ _; exact H.
Qed.

Lemma stair_put_is : forall n t d into k c s c', stair_is n t -> staircase_put t d into k c = Ok s c' ->
  s = into ++ [(n, Boolean (match st_stay_on_until t with Some u => c O <=? u | None => false end))].
Proof.
  intros n t d into k c s c' (Hn & Hd & Hi & Hs & _) E. unfold staircase_put, put_timed_switch in E.
  rewrite Hn, Hd, Hs, postfixed_nothing in E. apply bind_ok in E. destruct E as (b & c1 & E1 & E). injection E as <- _.
  unfold staircase_state in E1. rewrite Hi in E1. apply bind_ok in E1. destruct E1 as (v & c2 & E2 & E1). injection E1 as <- _.
  destruct (st_stay_on_until t).
  - apply bind_ok in E2. destruct E2 as (t0 & c3 & E3 & E2). rewrite now_eq in E3. injection E3 as <- _. injection E2 as <- _. reflexivity.
  - injection E2 as <- _. reflexivity.
Qed.
Lemma stair_update_is : forall n t u k c t' x c', stair_is n t -> staircase_update t u k c = Ok (t', x) c' ->
  stair_is n t' /\ st_stay_on_until t' = Some (c O + 60 * nanos_per_sec).
Proof.
  intros n t u k c t' x c' (Hn & Hd & Hi & Hs & Hp) E. unfold staircase_update in E. rewrite Hp in E.
  apply bind_ok in E. destruct E as (t0 & c1 & E1 & E). rewrite now_eq in E1. injection E1 as <- _.
  apply bind_ok in E. destruct E as (un & c2 & E2 & E). apply instant_add_inv in E2. destruct E2 as (-> & _).
  injection E as <- _ _. unfold stair_is. cbn [st_name st_descr st_invert st_show_inverted st_switch_off_after st_stay_on_until]. auto 6.
Qed.
Lemma absence_put_is : forall n t d into k c s c', absence_is n t -> non_occurrence_put t d into k c = Ok s c' ->
  s = into ++ [(n, Boolean (ni_happened_last t <=? c O - 60 * nanos_per_sec))].
Proof.
  intros n t d into k c s c' (Hn & Hd & Hi & Hs & Hp) E. unfold non_occurrence_put, put_timed_switch in E.
  rewrite Hn, Hd, Hs, postfixed_nothing in E. apply bind_ok in E. destruct E as (b & c1 & E1 & E). injection E as <- _.
  unfold non_occurrence_state in E1. rewrite Hi, Hp in E1. apply bind_ok in E1. destruct E1 as (t0 & c2 & E2 & E1).
  rewrite now_eq in E2. injection E2 as <- _. apply bind_ok in E1. destruct E1 as (m & c3 & E3 & E1).
  apply instant_sub_inv in E3. destruct E3 as (-> & _). cbv zeta in E1. injection E1 as <- _. reflexivity.
Qed.
Lemma absence_update_is : forall n t u k c t' x c', absence_is n t -> non_occurrence_update t u k c = Ok (t', x) c' ->
  absence_is n t' /\ ni_happened_last t' = c O.
Proof.
  intros n t u k c t' x c' (Hn & Hd & Hi & Hs & Hp) E. unfold non_occurrence_update in E.
  apply bind_ok in E. destruct E as (t0 & c1 & E1 & E). rewrite now_eq in E1. injection E1 as <- _.
  injection E as <- _ _. unfold absence_is. cbn [ni_name ni_descr ni_invert ni_show_inverted ni_if_not_happened_within ni_happened_last]. auto 6.
Qed.

Lemma updated_inv : forall A (m : M (A * Z)) k c a c', updated m k c = Ok a c' -> exists x, m k c = Ok (a, x) c'.
Proof.
  intros A m k c a c' E. unfold updated in E. apply bind_ok in E. destruct E as ([b x] & c1 & E1 & E). injection E as <- <-. eauto.
Qed.
Lemma updated_if_inv : forall A b (m : A -> M (A * Z)) a0 k c a c', updated_if b m a0 k c = Ok a c' ->
  (b = true /\ exists x, m a0 k c = Ok (a, x) c') \/ (b = false /\ a = a0 /\ c' = c).
Proof.
  intros A b m a0 k c a c' E. unfold updated_if in E. destruct b.
  - left. split; [reflexivity|]. exact (updated_inv _ _ _ _ _ _ E).
  - right. injection E as <- <-. auto.
Qed.

(** ** All instruments *)

Section Metrics.
  Context {X : ext} {Y : pext}.

  Record metrix_ok (i : driver_instruments X) : Prop := MetrixOk {
    mo1 : meter_is "collections_per_second" (di_collections_per_second i);
    mo2 : histo_is "collection_times_us" (di_collection_times_us i);
    mo3 : meter_is "observations_processed_per_second" (di_observations_processed_per_second i);
    mo4 : histo_is "observations_processed_per_collection" (di_observations_processed_per_collection i);
    mo5 : meter_is "observations_dropped_per_second" (di_observations_dropped_per_second i);
    mo6 : histo_is "observations_dropped_per_collection" (di_observations_dropped_per_collection i);
    mo7 : gauge_is "observations_enqueued" (di_observations_enqueued i);
    mo8 : meter_is "instruments_updated_per_second" (di_instruments_updated_per_second i);
    mo9 : meter_is "snapshots_per_second" (di_snapshots_per_second i);
    mo10 : histo_is "snapshots_times_us" (di_snapshots_times_us i);
    mo11 : stair_is "dropped_observations_alarm" (di_dropped_observations_alarm i);
    mo12 : absence_is "inactivity_alarm" (di_inactivity_alarm i);
    mo13 : histo_is "iteration_update_ratio_per_mille_histo" (di_per_mille_ratio_histo i);
    mo14 : gauge_is "iteration_update_ratio_per_mille" (di_per_mille_ratio i)
  }.

  (** The two alarms are as before. *)
  Definition alarms_same (i i' : driver_instruments X) : Prop :=
    di_dropped_observations_alarm i' = di_dropped_observations_alarm i /\ di_inactivity_alarm i' = di_inactivity_alarm i.

  Lemma gauge_new_is : forall n k c g c', tracking_gauge n k c = Ok g c' -> gauge_is n g.
  Proof.
    intros n k c g c' E. unfold tracking_gauge in E. apply bind_ok in E. destruct E as (g1 & c1 & E1 & E). injection E as <- _.
    unfold gauge_set_tracking in E1. apply bind_ok in E1. destruct E1 as (b & c2 & _ & E1). injection E1 as <- _. repeat split.
  Qed.
  Lemma meter_new_is : forall al n k c m c', meter_new al n k c = Ok m c' -> meter_is n m.
  Proof.
    intros al n k c m c' E. unfold meter_new in E. apply bind_ok in E. destruct E as (t & c1 & _ & E).
    apply bind_ok in E. destruct E as (s & c2 & _ & E). injection E as <- _. repeat split.
  Qed.
  Lemma histo_new_is : forall H n k c h c', histogram_new H n k c = Ok h c' -> histo_is n h.
  Proof.
    intros H n k c h c' E. unfold histogram_new in E. apply bind_ok in E. destruct E as (t & c1 & _ & E).
    apply bind_ok in E. destruct E as (s & c2 & _ & E). injection E as <- _. repeat split.
  Qed.

  Context (HX : parts_tick X).

  Lemma histogram_new_ticks : forall n, ticks (histogram_new (ex_histo X) n).
  Proof.
    intros n. unfold histogram_new. apply ticks_bind; [apply (pt_histo_new X HX)|]. intros i.
    apply ticks_bind; [apply ticks_now|]. intros t. apply ticks_ret.
  Qed.

  Lemma default_ok : forall k c i c', driver_instruments_default (X := X) k c = Ok i c' ->
    metrix_ok i /\ st_stay_on_until (di_dropped_observations_alarm i) = None
    /\ exists c1 c2, later c c1 /\ ni_happened_last (di_inactivity_alarm i) = c1 O /\ later (clock_tail c1) c2 /\ later c2 c'.
  Proof.
    intros k c i c' E. unfold driver_instruments_default in E.
    apply bind_ok in E. destruct E as (a1 & c1 & E1 & E).
    apply bind_ok in E. destruct E as (a2 & c2 & E2 & E).
    apply bind_ok in E. destruct E as (a3 & c3 & E3 & E).
    apply bind_ok in E. destruct E as (a4 & c4 & E4 & E).
    apply bind_ok in E. destruct E as (a5 & c5 & E5 & E).
    apply bind_ok in E. destruct E as (a6 & c6 & E6 & E).
    apply bind_ok in E. destruct E as (a7 & c7 & E7 & E).
    apply bind_ok in E. destruct E as (a8 & c8 & E8 & E).
    apply bind_ok in E. destruct E as (a9 & c9 & E9 & E).
    apply bind_ok in E. destruct E as (a10 & c10 & E10 & E). cbv zeta in E.
    apply bind_ok in E. destruct E as (a12 & c12 & E12 & E).
    apply bind_ok in E. destruct E as (a13 & c13 & E13 & E).
    apply bind_ok in E. destruct E as (a14 & c14 & E14 & E). injection E as <- <-.
    unfold non_occurrence_new in E12. apply bind_ok in E12. destruct E12 as (t & c11 & E11 & E12). rewrite now_eq in E11.
    injection E11 as <- <-. injection E12 as <- <-.
    split; [|split; [reflexivity|]].
    - split; cbn; eauto using meter_new_is, histo_new_is, gauge_new_is; repeat split.
    - cbn [di_inactivity_alarm ni_happened_last]. exists c10, c13.
      assert (TM : forall n, ticks (meter_new (ex_alphas X) n)) by (intro n; unfold meter_new, std_meter_default; tick).
      assert (TG : forall n, ticks (tracking_gauge n)) by (intro n; unfold tracking_gauge, gauge_set_tracking, ModelBuckets.buckets_new, ModelBuckets.buckets_initialized; tick).
      split; [|split; [reflexivity|split]].
      + eapply later_trans; [exact (TM _ _ _ _ _ E1)|]. eapply later_trans; [exact (histogram_new_ticks _ _ _ _ _ E2)|].
        eapply later_trans; [exact (TM _ _ _ _ _ E3)|]. eapply later_trans; [exact (histogram_new_ticks _ _ _ _ _ E4)|].
        eapply later_trans; [exact (TM _ _ _ _ _ E5)|]. eapply later_trans; [exact (histogram_new_ticks _ _ _ _ _ E6)|].
        eapply later_trans; [exact (TG _ _ _ _ _ E7)|]. eapply later_trans; [exact (TM _ _ _ _ _ E8)|].
        eapply later_trans; [exact (TM _ _ _ _ _ E9)|]. exact (histogram_new_ticks _ _ _ _ _ E10).
      + exact (histogram_new_ticks _ _ _ _ _ E13).
      + exact (TG _ _ _ _ _ E14).
  Qed.

  Lemma value_of_duration_ticks : forall d, ticks (value_of_duration d).
  Proof. intro d. unfold value_of_duration. tick. Qed.
  Lemma updated_ticks : forall A (m : M (A * Z)), ticks m -> ticks (updated m).
  Proof. intros A m H. unfold updated. apply ticks_bind; [exact H|]. intros [? ?]. apply ticks_ret. Qed.
  Lemma updated_if_ticks : forall A b (m : A -> M (A * Z)) a, (forall a, ticks (m a)) -> ticks (updated_if b m a).
  Proof. intros A b m a H. unfold updated_if. destruct b; [apply updated_ticks, H | apply ticks_ret]. Qed.

  (** Bookkeeping: the alarm for dropped observations is touched iff some were
      dropped, the inactivity alarm always. *)
  Lemma post_collection : forall i o t0 k c i' c', metrix_ok i -> update_post_collection i o t0 k c = Ok i' c' ->
    metrix_ok i' /\ later c c'
    /\ (0 < oc_dropped o ->
          exists c1, later c c1 /\ later c1 c' /\ st_stay_on_until (di_dropped_observations_alarm i') = Some (c1 O + 60 * nanos_per_sec))
    /\ (oc_dropped o <= 0 -> di_dropped_observations_alarm i' = di_dropped_observations_alarm i)
    /\ exists c2, later c c2 /\ later c2 c' /\ ni_happened_last (di_inactivity_alarm i') = c2 O.
  Proof.
    intros i o t0 k c i' c' H E. unfold update_post_collection in E.
    apply bind_ok in E. destruct E as (t & c0 & E0 & E). rewrite now_eq in E0. injection E0 as <- <-.
    apply bind_ok in E. destruct E as (a1 & c1 & E1 & E).
    apply bind_ok in E. destruct E as (tm & c1' & E1' & E).
    apply bind_ok in E. destruct E as (a2 & c2 & E2 & E). cbv zeta in E.
    apply bind_ok in E. destruct E as (a3 & c3 & E3 & E).
    apply bind_ok in E. destruct E as (a4 & c4 & E4 & E).
    apply bind_ok in E. destruct E as (a7 & c7 & E7 & E).
    apply bind_ok in E. destruct E as (a5 & c5 & E5 & E).
    apply bind_ok in E. destruct E as (a6 & c6 & E6 & E).
    apply bind_ok in E. destruct E as (a11 & c11 & E11 & E).
    apply bind_ok in E. destruct E as (a8 & c8 & E8 & E).
    apply bind_ok in E. destruct E as (a12 & c12 & E12 & E). injection E as <- <-.
    assert (L6 : later c c6).
    { eapply later_trans; [apply later_tail|].
      eapply later_trans; [exact (updated_ticks _ _ (meter_update_ticks _ _) _ _ _ _ E1)|].
      eapply later_trans; [exact (value_of_duration_ticks _ _ _ _ _ E1')|].
      eapply later_trans; [exact (updated_ticks _ _ (histogram_update_ticks HX _ _) _ _ _ _ E2)|].
      eapply later_trans; [exact (updated_if_ticks _ _ _ _ (fun a => meter_update_ticks a _) _ _ _ _ E3)|].
      eapply later_trans; [exact (updated_if_ticks _ _ _ _ (fun a => histogram_update_ticks HX a _) _ _ _ _ E4)|].
      eapply later_trans; [exact (updated_ticks _ _ (gauge_update_ticks _ _) _ _ _ _ E7)|].
      eapply later_trans; [exact (updated_if_ticks _ _ _ _ (fun a => meter_update_ticks a _) _ _ _ _ E5)|].
      exact (updated_if_ticks _ _ _ _ (fun a => histogram_update_ticks HX a _) _ _ _ _ E6). }
    assert (L11 : later c6 c11) by exact (updated_if_ticks _ _ _ _ (fun a => staircase_update_ticks a _) _ _ _ _ E11).
    assert (L8 : later c11 c8) by exact (updated_if_ticks _ _ _ _ (fun a => meter_update_ticks a _) _ _ _ _ E8).
    assert (L12 : later c8 c12) by exact (updated_ticks _ _ (non_occurrence_update_ticks _ _) _ _ _ _ E12).
    assert (Lall : later c6 c12) by (eapply later_trans; [exact L11|]; eapply later_trans; eassumption).
    destruct H as [M1 M2 M3 M4 M5 M6 M7 M8 M9 M10 M11 M12 M13 M14].
    apply updated_inv in E1, E2, E7, E12. destruct E1 as (x1 & E1), E2 as (x2 & E2), E7 as (x7 & E7), E12 as (x12 & E12).
    destruct (absence_update_is _ _ _ _ _ _ _ _ M12 E12) as (N12 & T12).
    assert (K3 : meter_is "observations_processed_per_second" a3)
      by (destruct (updated_if_inv _ _ _ _ _ _ _ _ E3) as [(_ & x & E')|(_ & -> & _)]; [exact (meter_update_is _ _ _ _ _ _ _ _ M3 E') | exact M3]).
    assert (K4 : histo_is "observations_processed_per_collection" a4)
      by (destruct (updated_if_inv _ _ _ _ _ _ _ _ E4) as [(_ & x & E')|(_ & -> & _)]; [exact (histo_update_is _ _ _ _ _ _ _ _ _ M4 E') | exact M4]).
    assert (K5 : meter_is "observations_dropped_per_second" a5)
      by (destruct (updated_if_inv _ _ _ _ _ _ _ _ E5) as [(_ & x & E')|(_ & -> & _)]; [exact (meter_update_is _ _ _ _ _ _ _ _ M5 E') | exact M5]).
    assert (K6 : histo_is "observations_dropped_per_collection" a6)
      by (destruct (updated_if_inv _ _ _ _ _ _ _ _ E6) as [(_ & x & E')|(_ & -> & _)]; [exact (histo_update_is _ _ _ _ _ _ _ _ _ M6 E') | exact M6]).
    assert (K8 : meter_is "instruments_updated_per_second" a8)
      by (destruct (updated_if_inv _ _ _ _ _ _ _ _ E8) as [(_ & x & E')|(_ & -> & _)]; [exact (meter_update_is _ _ _ _ _ _ _ _ M8 E') | exact M8]).
    assert (K11 : stair_is "dropped_observations_alarm" a11
      /\ (0 < oc_dropped o -> st_stay_on_until a11 = Some (c6 O + 60 * nanos_per_sec))
      /\ (oc_dropped o <= 0 -> a11 = di_dropped_observations_alarm i)).
    { destruct (updated_if_inv _ _ _ _ _ _ _ _ E11) as [(D & x & E')|(D & -> & _)].
      - apply Z.ltb_lt in D. destruct (stair_update_is _ _ _ _ _ _ _ _ M11 E') as (S1 & S2). split; [exact S1|]. split; [auto|]. intro D'. clear - D D'. lia.
      - apply Z.ltb_ge in D. split; [exact M11|]. split; [intro D'; clear - D D'; lia|auto]. }
    destruct K11 as (K11 & T11 & F11).
    split; [|split; [exact (later_trans _ _ _ L6 Lall)|split; [|split]]].
    - split; cbn; auto.
      + exact (meter_update_is _ _ _ _ _ _ _ _ M1 E1).
      + exact (histo_update_is _ _ _ _ _ _ _ _ _ M2 E2).
      + exact (gauge_update_is _ _ _ _ _ _ _ _ M7 E7).
    - intros D. exists c6. cbn [di_dropped_observations_alarm]. auto.
    - exact F11.
    - exists c8. cbn [di_inactivity_alarm]. split; [|auto]. exact (later_trans _ _ _ L6 (later_trans _ _ _ L11 L8)).
  Qed.

  Lemma post_snapshot : forall i t0 k c i' c', metrix_ok i -> update_post_snapshot i t0 k c = Ok i' c' ->
    metrix_ok i' /\ later c c' /\ alarms_same i i'.
  Proof.
    intros i t0 k c i' c' H E. unfold update_post_snapshot in E.
    apply bind_ok in E. destruct E as (t & c0 & E0 & E). rewrite now_eq in E0. injection E0 as <- <-.
    apply bind_ok in E. destruct E as (a1 & c1 & E1 & E).
    apply bind_ok in E. destruct E as (tm & c1' & E1' & E).
    apply bind_ok in E. destruct E as (a2 & c2 & E2 & E). injection E as <- <-.
    split; [|split].
    - destruct H as [M1 M2 M3 M4 M5 M6 M7 M8 M9 M10 M11 M12 M13 M14].
      apply updated_inv in E1, E2. destruct E1 as (x1 & E1), E2 as (x2 & E2). split; cbn; auto.
      + exact (meter_update_is _ _ _ _ _ _ _ _ M9 E1).
      + exact (histo_update_is _ _ _ _ _ _ _ _ _ M10 E2).
    - eapply later_trans; [apply later_tail|].
      eapply later_trans; [exact (updated_ticks _ _ (meter_update_ticks _ _) _ _ _ _ E1)|].
      eapply later_trans; [exact (value_of_duration_ticks _ _ _ _ _ E1')|].
      exact (updated_ticks _ _ (histogram_update_ticks HX _ _) _ _ _ _ E2).
    - split; reflexivity.
  Qed.

  Lemma run_ratio : forall i r k c i' c', metrix_ok i -> update_run_ratio i r k c = Ok i' c' ->
    metrix_ok i' /\ later c c' /\ alarms_same i i'.
  Proof.
    intros i r k c i' c' H E. unfold update_run_ratio in E.
    apply bind_ok in E. destruct E as (t & c0 & E0 & E). rewrite now_eq in E0. injection E0 as <- <-. cbv zeta in E.
    apply bind_ok in E. destruct E as (a1 & c1 & E1 & E).
    apply bind_ok in E. destruct E as (a2 & c2 & E2 & E). injection E as <- <-.
    split; [|split].
    - destruct H as [M1 M2 M3 M4 M5 M6 M7 M8 M9 M10 M11 M12 M13 M14].
      apply updated_inv in E1, E2. destruct E1 as (x1 & E1), E2 as (x2 & E2). split; cbn; auto.
      + exact (histo_update_is _ _ _ _ _ _ _ _ _ M13 E1).
      + exact (gauge_update_is _ _ _ _ _ _ _ _ M14 E2).
    - eapply later_trans; [apply later_tail|].
      eapply later_trans; [exact (updated_ticks _ _ (histogram_update_ticks HX _ _) _ _ _ _ E1)|].
      exact (updated_ticks _ _ (gauge_update_ticks _ _) _ _ _ _ E2).
    - split; reflexivity.
  Qed.

  Lemma elapsed_stats : forall t0 rt m k c m' c', (forall i, m = Some i -> metrix_ok i) -> report_elapsed_stats t0 rt m k c = Ok m' c' ->
    later c c' /\ (m = None -> m' = None) /\ forall i, m = Some i -> exists i', m' = Some i' /\ metrix_ok i' /\ alarms_same i i'.
  Proof.
    intros t0 rt m k c m' c' H E. unfold report_elapsed_stats in E. destruct m as [i|].
    - apply bind_ok in E. destruct E as (e & c1 & E1 & E). apply elapsed_ticks in E1. cbv zeta in E. specialize (H _ eq_refl).
      destruct (f64_ltb _ _).
      + apply bind_ok in E. destruct E as (i1 & c2 & E2 & E). injection E as <- <-.
        destruct (run_ratio _ _ _ _ _ _ H E2) as (H1 & H2 & H3). split; [eapply later_trans; eassumption|].
        split; [discriminate|]. intros j J. injection J as <-. eauto.
      + injection E as <- <-. split; [exact E1|]. split; [discriminate|]. intros j J. injection J as <-.
        exists i. split; [reflexivity|]. split; [exact H|]. split; reflexivity.
    - injection E as <- <-. split; [apply later_refl|]. split; [auto|]. discriminate.
  Qed.

  (** The content of [_metrix]. *)
  Lemma put_instruments : forall i d into k c i' s c', metrix_ok i -> instruments_put i d into k c = Ok (i', s) c' ->
    metrix_ok i' /\ later c c' /\ alarms_same i i'
    /\ exists inner c1 c2, s = into ++ [("_metrix", ItemSnapshot inner)]
         /\ keys inner = metrix_names
         /\ later c c1 /\ later c1 c'
         /\ lookup "dropped_observations_alarm" inner
            = Some (Boolean (match st_stay_on_until (di_dropped_observations_alarm i) with Some u => c1 O <=? u | None => false end))
         /\ later c c2 /\ later c2 c'
         /\ lookup "inactivity_alarm" inner = Some (Boolean (ni_happened_last (di_inactivity_alarm i) <=? c2 O - 60 * nanos_per_sec)).
  Proof.
    intros i d into k c i' s c' H E. unfold instruments_put in E. cbv zeta in E. unfold snapshot_default in E.
    destruct H as [M1 M2 M3 M4 M5 M6 M7 M8 M9 M10 M11 M12 M13 M14].
    apply bind_ok in E. destruct E as ([a1 s1] & c1 & E1 & E).
    apply bind_ok in E. destruct E as (s2 & c2 & E2 & E).
    apply bind_ok in E. destruct E as ([a3 s3] & c3 & E3 & E).
    apply bind_ok in E. destruct E as (s4 & c4 & E4 & E).
    apply bind_ok in E. destruct E as ([a5 s5] & c5 & E5 & E).
    apply bind_ok in E. destruct E as (s6 & c6 & E6 & E).
    apply bind_ok in E. destruct E as ([a7 s7] & c7 & E7 & E).
    apply bind_ok in E. destruct E as ([a8 s8] & c8 & E8 & E).
    apply bind_ok in E. destruct E as ([a9 s9] & c9 & E9 & E).
    apply bind_ok in E. destruct E as (s10 & c10 & E10 & E).
    apply bind_ok in E. destruct E as (s11 & c11 & E11 & E).
    apply bind_ok in E. destruct E as (s12 & c12 & E12 & E).
    apply bind_ok in E. destruct E as ([a14 s14] & c14 & E14 & E).
    apply bind_ok in E. destruct E as (s13 & c13 & E13 & E). injection E as <- <- <-.
    assert (L10 : later c c10).
    { eapply later_trans; [exact (meter_put_ticks _ _ _ _ _ _ _ E1)|]. eapply later_trans; [exact (histogram_put_ticks _ _ _ _ _ _ _ E2)|].
      eapply later_trans; [exact (meter_put_ticks _ _ _ _ _ _ _ E3)|]. eapply later_trans; [exact (histogram_put_ticks _ _ _ _ _ _ _ E4)|].
      eapply later_trans; [exact (meter_put_ticks _ _ _ _ _ _ _ E5)|]. eapply later_trans; [exact (histogram_put_ticks _ _ _ _ _ _ _ E6)|].
      eapply later_trans; [exact (gauge_put_ticks _ _ _ _ _ _ _ E7)|]. eapply later_trans; [exact (meter_put_ticks _ _ _ _ _ _ _ E8)|].
      eapply later_trans; [exact (meter_put_ticks _ _ _ _ _ _ _ E9)|]. exact (histogram_put_ticks _ _ _ _ _ _ _ E10). }
    assert (L11 : later c10 c11) by exact (staircase_put_ticks _ _ _ _ _ _ _ E11).
    assert (L12 : later c11 c12) by exact (non_occurrence_put_ticks _ _ _ _ _ _ _ E12).
    assert (L13 : later c12 c13).
    { eapply later_trans; [exact (gauge_put_ticks _ _ _ _ _ _ _ E14) | exact (histogram_put_ticks _ _ _ _ _ _ _ E13)]. }
    destruct (meter_put_is _ _ _ _ _ _ _ _ _ M1 E1) as (N1 & v1 & ->).
    destruct (histo_put_is _ _ _ _ _ _ _ _ _ M2 E2) as (v2 & ->).
    destruct (meter_put_is _ _ _ _ _ _ _ _ _ M3 E3) as (N3 & v3 & ->).
    destruct (histo_put_is _ _ _ _ _ _ _ _ _ M4 E4) as (v4 & ->).
    destruct (meter_put_is _ _ _ _ _ _ _ _ _ M5 E5) as (N5 & v5 & ->).
    destruct (histo_put_is _ _ _ _ _ _ _ _ _ M6 E6) as (v6 & ->).
    destruct (gauge_put_is _ _ _ _ _ _ _ _ _ M7 E7) as (N7 & v7 & ->).
    destruct (meter_put_is _ _ _ _ _ _ _ _ _ M8 E8) as (N8 & v8 & ->).
    destruct (meter_put_is _ _ _ _ _ _ _ _ _ M9 E9) as (N9 & v9 & ->).
    destruct (histo_put_is _ _ _ _ _ _ _ _ _ M10 E10) as (v10 & ->).
    apply (stair_put_is _ _ _ _ _ _ _ _ M11) in E11. subst s11.
    apply (absence_put_is _ _ _ _ _ _ _ _ M12) in E12. subst s12.
    destruct (gauge_put_is _ _ _ _ _ _ _ _ _ M14 E14) as (N14 & v14 & ->).
    destruct (histo_put_is _ _ _ _ _ _ _ _ _ M13 E13) as (v13 & ->).
    split; [split; cbn; assumption|]. split.
    { eapply later_trans; [exact L10|]. eapply later_trans; [exact L11|]. eapply later_trans; eassumption. }
    split; [split; reflexivity|].
    eexists. exists c10, c11. split; [reflexivity|]. split; [reflexivity|]. split; [exact L10|]. split.
    { eapply later_trans; [exact L11|]. eapply later_trans; eassumption. }
    split; [reflexivity|]. split; [eapply later_trans; eassumption|]. split; [eapply later_trans; eassumption|]. reflexivity.
  Qed.
End Metrics.
