(** Drivers do not panic while their numbers are far from the limits. *)
From Coq Require Import ZArith Bool String List Lia.
From Verif Require Import Base SpecRun MonadFacts ModelObservation ModelLabelFilter ModelSnapshot ModelCounter ModelBuckets ModelGauge ModelMeter
  ModelHistogram ModelSwitches ModelInstrument ModelTree ModelChannel ModelProcessor ModelDriver SpecTree SpecDriver SpecSafe SpecRoom SpecRoomWorld SpecRoomDriver
  SpecClock TreeInd TreeEqs ClockProofs WorldClockProofs SafeProofs SafeTreeProofs SafeWorldProofs SafeDriverProofs RoomProofs RoomTreeProofs RoomWorldProofs
  DriverProofs DriverShapeProofs SpecRatio RatioProofs.
Import ListNotations.
Open Scope Z_scope.

(** ** What the messages in a channel bring *)

Section Weights.
  Context {B D : Type} (f : B -> list D).
  Definition weight (l : list B) : nat := length (flat_map f l).
  Lemma weight_app : forall a b, weight (a ++ b) = (weight a + weight b)%nat.
  Proof. intros a b. unfold weight. rewrite flat_map_app, app_length. reflexivity. Qed.
  Lemma weight_cons : forall x l, weight (x :: l) = (weight [x] + weight l)%nat.
  Proof. intros x l. exact (weight_app [x] l). Qed.

  Lemma act_weight : forall (c : chan B) a, (weight (chan_messages (chan_act c a)) <= weight (chan_messages c) + weight (action_messages a))%nat.
  Proof.
    intros c a. unfold chan_messages. rewrite !weight_app. destruct a as [m|m|i| | |]; cbn [chan_act action_messages].
    - destruct (ch_senders c); [lia|]. unfold chan_send. destruct (negb _); [cbn [chan_refuse ch_queue ch_waiting]; lia|].
      destruct (chan_full c); cbn [chan_enqueue ch_queue ch_waiting]; rewrite weight_app; lia.
    - destruct (ch_senders c); [lia|]. unfold chan_try_send. destruct (negb _); [cbn [chan_refuse ch_queue ch_waiting]; lia|].
      destruct (chan_full c); cbn [chan_refuse chan_enqueue ch_queue ch_waiting]; [lia|]. rewrite weight_app; lia.
    - unfold chan_wake. destruct (nth_error (ch_waiting c) i) as [m|] eqn:E; [|lia]. destruct (chan_full c); [lia|].
      destruct (nth_error_split _ _ E) as (l1 & l2 & E1 & E2). cbn [chan_enqueue ch_queue ch_waiting]. rewrite E1. subst i.
      rewrite firstn_app, firstn_all, Nat.sub_diag, skipn_app, !weight_app, (weight_cons m l2).
      replace (Datatypes.S (length l1) - length l1)%nat with 1%nat by lia. rewrite (skipn_all2 l1) by lia.
      cbn [firstn skipn app]. rewrite ?weight_app. change (weight []) with 0%nat. lia.
    - unfold chan_clone_sender. destruct (ch_senders c); cbn [ch_queue ch_waiting]; lia.
    - unfold chan_drop_sender. destruct (ch_senders c) as [|[|]]; [lia| |]; destruct (ch_waiting c) eqn:E; cbn [ch_queue ch_waiting]; rewrite ?E; lia.
    - unfold chan_drop_receiver. cbn [ch_queue ch_waiting]. change (weight []) with 0%nat. lia.
  Qed.

  Lemma recv_weight : forall (c : chan B),
    (weight (chan_messages (fst (chan_try_recv c))) + match snd (chan_try_recv c) with Message m => weight [m] | _ => 0 end <= weight (chan_messages c))%nat.
  Proof.
    intros c. unfold chan_try_recv, chan_messages. destruct (ch_queue c) as [|m q] eqn:E.
    - destruct (ch_cap c) as [[|n]|]; [destruct (ch_waiting c) as [|m w] eqn:Ew|..]; cbn [fst snd ch_queue ch_waiting app]; rewrite ?E, ?Ew;
        try (destruct (ch_senders c)); rewrite ?weight_app, ?(weight_cons m w); cbn [app]; change (weight []) with 0%nat; lia.
    - cbn [fst snd ch_queue ch_waiting app]. rewrite !weight_app, (weight_cons m (q ++ ch_waiting c)), weight_app. lia.
  Qed.
End Weights.

(** ** What the driver does with the clock *)

Section Ticks.
  Context {X : ext} {Y : pext}.
  Context (HX : parts_tick X) (HY : processors_tick Y).

  Lemma ticks_updated : forall B (m : M (B * Z)), ticks m -> ticks (updated m).
  Proof. intros B m H. unfold updated. apply ticks_bind; [exact H|]. intros [a n]. apply ticks_ret. Qed.
  Lemma ticks_updated_if : forall B b (m : B -> M (B * Z)) a, (forall a, ticks (m a)) -> ticks (updated_if b m a).
  Proof. intros B [|] m a H; cbn [updated_if]; [apply ticks_updated, H | apply ticks_ret]. Qed.
  Lemma of_duration_ticks : forall d, ticks (value_of_duration d).
  Proof. intros d. unfold value_of_duration. tick. Qed.
  Hint Resolve ticks_updated ticks_updated_if of_duration_ticks (histogram_update_ticks HX) (@histogram_put_ticks X) : ticks.

  Lemma post_collection_ticks : forall (i : driver_instruments X) o t, ticks (update_post_collection i o t).
  Proof. intros i o t. unfold update_post_collection. tick. Qed.
  Lemma post_snapshot_ticks : forall (i : driver_instruments X) t, ticks (update_post_snapshot i t).
  Proof. intros i t. unfold update_post_snapshot. tick. Qed.
  Lemma instruments_put_ticks : forall (i : driver_instruments X) de s, ticks (instruments_put i de s).
  Proof. intros i de s. unfold instruments_put. tick. Qed.
  Lemma elapsed_stats_ticks : forall t r (m : option (driver_instruments X)), ticks (report_elapsed_stats t r m).
  Proof. intros t r m. unfold report_elapsed_stats, update_run_ratio. tick. Qed.

  Lemma snapshot_values_ticks : forall (d : driver X Y) de t s, ticks (add_snapshot_values d de t s).
  Proof.
    intros d de t s. unfold add_snapshot_values. cbv zeta. apply ticks_bind.
    { apply ticks_traverse. apply Forall_forall. intros x _ s0. apply (processor_put_ticks HX HY). }
    intros [ps s1]. apply ticks_bind.
    { apply ticks_traverse. apply Forall_forall. intros x _ s0. apply (tree_put_ticks HX). }
    intros [ss s2]. destruct (dr_metrics d); [|apply ticks_ret].
    apply ticks_bind; [apply post_snapshot_ticks|]. intros i. apply ticks_bind; [apply instruments_put_ticks|]. intros [i' s3]. apply ticks_ret.
  Qed.
  Lemma driver_snapshot_ticks : forall (d : driver X Y) de s, ticks (put_values_into_snapshot d de s).
  Proof.
    intros d de s. unfold put_values_into_snapshot. apply ticks_bind; [apply ticks_now|]. intros t.
    destruct (dr_name d); [|apply snapshot_values_ticks]. apply ticks_bind; [apply snapshot_values_ticks|]. intros [d' s']. apply ticks_ret.
  Qed.
End Ticks.

Section Driver.
  Context {X : ext} {Y : pext}.
  Variables (k : cfg) (lo hi V N S P Q T R W : Z).
  Notation safe := (safe k lo hi).
  Notation sound := (sound (X := X) k lo hi).
  Notation processor_room := (processor_room (X := X) (Y := Y) k lo hi V N S P).
  Notation leaf_calm := (leaf_calm (X := X) k lo hi V).
  Notation driver_room := (driver_room (X := X) (Y := Y) k lo hi V N S P T W).
  Notation command_room := (command_room (X := X) (Y := Y) k lo hi V N S P).
  Notation dworld_room := (dworld_room (X := X) (Y := Y) k lo hi V N S P Q).
  Hypothesis HE : plenty V N S P Q T R W.
  Hypothesis Htime : manageable k lo hi 0.
  Hypothesis Hspan : hi - lo <= i64_max.
  Hypothesis HX : parts_calm (X := X) k lo hi V.
  Hypothesis HXW : parts_calm (X := X) k lo hi W.
  Hypothesis HY : processors_safe k lo hi Y.
  Hypothesis TX : parts_tick X.
  Hypothesis TY : processors_tick Y.
  Notation calm := (calm (X := X) k lo hi W).

  Lemma W_range : 1 <= W <= i64_max.
  Proof. pose proof (pl_value _ _ _ _ _ _ _ _ HE). lia. Qed.
  Let HW : 1 <= W <= i64_max := W_range.
  Lemma span_u64 : hi - lo <= u64_max.
  Proof. clear - Hspan. lia. Qed.
  Let Hspan' : hi - lo <= u64_max := span_u64.

  Lemma square_R : forall n, 0 <= n <= R -> n * n * W <= i64_max.
  Proof.
    intros n Hn. etransitivity; [|exact (pl_square _ _ _ _ _ _ _ _ HE)]. apply Z.mul_le_mono_nonneg_r; [lia|]. apply Z.mul_le_mono_nonneg; lia.
  Qed.

  (** ** The driver's own metrics *)

  Lemma safe_unwrap2 : forall B C D (f : B -> C) (m : M (B * D)) (G : C -> Prop),
    safe (wrap f m) (fun r => G (fst r)) -> safe m (fun r => G (f (fst r))).
  Proof. intros B C D f m G H. exact (safe_unwrap k lo hi _ _ _ f m G H). Qed.

  Lemma one_update : forall B (f : B -> instrument X) (m : M (B * Z)) n u i, instrument_update i u = wrap f m ->
    0 <= n -> n + 1 <= R -> fits W u -> calm n i -> safe (updated m) (fun a => calm (n + 1) (f a)).
  Proof.
    intros B f m n u i E Hn Hn1 Hu Hi. apply (safe_updated k lo hi _ _ f m (calm (n + 1))). rewrite <- E.
    eapply safe_weak; [apply (room_update k lo hi W HW Htime HXW n i u Hn (square_R (n + 1) ltac:(lia)) Hu Hi)|]. intros r Hr. apply Hr.
  Qed.

  Lemma upd_meter : forall n m u, 0 <= n -> n + 1 <= R -> fits W u -> calm n (IMeter m) -> safe (updated (meter_update m u)) (fun m => calm (n + 1) (IMeter m)).
  Proof. intros n m u. exact (one_update _ (IMeter (X := X)) (meter_update m u) n u (IMeter m) eq_refl). Qed.
  Lemma upd_gauge : forall n m u, 0 <= n -> n + 1 <= R -> fits W u -> calm n (IGauge m) -> safe (updated (gauge_update m u)) (fun m => calm (n + 1) (IGauge m)).
  Proof. intros n m u. exact (one_update _ (IGauge (X := X)) (gauge_update m u) n u (IGauge m) eq_refl). Qed.
  Lemma upd_staircase : forall n m t, 0 <= n -> n + 1 <= R -> calm n (IStaircase m) -> safe (updated (staircase_update m (OneObservation t))) (fun m => calm (n + 1) (IStaircase m)).
  Proof. intros n m t Hn Hn1. exact (one_update _ (IStaircase (X := X)) (staircase_update m _) n (OneObservation t) (IStaircase m) eq_refl Hn Hn1 I). Qed.
  Lemma upd_non_occurrence : forall n m t, 0 <= n -> n + 1 <= R -> calm n (INonOccurrence m) ->
    safe (updated (non_occurrence_update m (OneObservation t))) (fun m => calm (n + 1) (INonOccurrence m)).
  Proof. intros n m t Hn Hn1. exact (one_update _ (INonOccurrence (X := X)) (non_occurrence_update m _) n (OneObservation t) (INonOccurrence m) eq_refl Hn Hn1 I). Qed.

  (** Histograms take any number. *)
  Lemma upd_histogram : forall n h u, fits i64_max u -> calm n (IHistogram h) -> safe (updated (histogram_update h u)) (fun h => calm (n + 1) (IHistogram h)).
  Proof.
    assert (HXM : parts_calm (X := X) k lo hi i64_max).
    { destruct HXW as [A1 A2 A3]. constructor; [exact A1| |]; intros i u; (eapply safe_weak; [apply A2 || apply A3|]); cbv beta; lia. }
    intros n h u Hu [Hs _].
    eapply safe_weak; [apply (safe_updated k lo hi _ _ (IHistogram (X := X)) (histogram_update h u) (fun i => SpecRoom.calm (X := X) k lo hi i64_max 1 i))|].
    - eapply safe_weak; [apply (room_update k lo hi i64_max ltac:(lia) Htime HXM 0 (IHistogram h) u); [lia | lia | exact Hu | split; [exact Hs | exact I]]|].
      intros r Hr. apply Hr.
    - intros h' [Hs' _]. split; [exact Hs' | exact I].
  Qed.

  Lemma safe_of_span : forall d, 0 <= d <= hi - lo -> safe (value_of_duration d) (fun v => forall t, fits i64_max (ObservationWithValue v t)).
  Proof.
    intros d Hd. unfold value_of_duration. unfold as_secs, subsec_nanos.
    pose proof (Z.div_mod d nanos_per_sec ltac:(lia)) as DM. pose proof (Z.mod_pos_bound d nanos_per_sec ltac:(lia)) as Hr.
    assert (0 <= d / nanos_per_sec) by (apply Z.div_pos; lia).
    eapply safe_bind; [apply safe_u64; lia|]. intros a ->. eapply safe_bind; [apply safe_u64; lia|]. intros b ->. apply safe_ret.
    intros t. cbn [fits fits_value nanos_of]. lia.
  Qed.

  Lemma upd_if : forall B b (m : B -> M (B * Z)) a (G : B -> Prop),
    (b = false -> G a) -> (b = true -> safe (updated (m a)) G) -> safe (updated_if b m a) G.
  Proof. intros B [|] m a G H1 H2; cbn [updated_if]; [apply H2; reflexivity | apply safe_ret, H1; reflexivity]. Qed.

  Lemma calm_later : forall n n' i, 0 <= n <= n' -> calm n i -> calm n' i.
  Proof. exact (calm_mono k lo hi W HW). Qed.

  (** Three groups of instruments: the ones for snapshots, for collections and for the ratio *)
  Record metrics_calm (s c r : Z) (i : driver_instruments X) : Prop := MetricsCalm {
    mc_1 : calm c (IMeter (di_collections_per_second i));
    mc_2 : calm c (IHistogram (di_collection_times_us i));
    mc_3 : calm c (IMeter (di_observations_processed_per_second i));
    mc_4 : calm c (IHistogram (di_observations_processed_per_collection i));
    mc_5 : calm c (IMeter (di_observations_dropped_per_second i));
    mc_6 : calm c (IHistogram (di_observations_dropped_per_collection i));
    mc_7 : calm c (IGauge (di_observations_enqueued i));
    mc_8 : calm c (IMeter (di_instruments_updated_per_second i));
    mc_9 : calm s (IMeter (di_snapshots_per_second i));
    mc_10 : calm s (IHistogram (di_snapshots_times_us i));
    mc_11 : calm c (IStaircase (di_dropped_observations_alarm i));
    mc_12 : calm c (INonOccurrence (di_inactivity_alarm i));
    mc_13 : calm r (IHistogram (di_per_mille_ratio_histo i));
    mc_14 : calm r (IGauge (di_per_mille_ratio i))
  }.

  Lemma metrics_calm_iff : forall n i, Forall (calm n) (metrics_instruments i) <-> metrics_calm n n n i.
  Proof.
    intros n i. unfold metrics_instruments. split.
    - intros H. repeat match goal with H0 : Forall _ (_ :: _) |- _ => let Ha := fresh "Ha" in let Hb := fresh "Hb" in
        apply Forall_cons_iff in H0; destruct H0 as [Ha Hb] end. constructor; assumption.
    - intros []. repeat (apply Forall_cons; [assumption|]). apply Forall_nil.
  Qed.

  Lemma metrics_later : forall s c r s' c' r' i, 0 <= s <= s' -> 0 <= c <= c' -> 0 <= r <= r' -> metrics_calm s c r i -> metrics_calm s' c' r' i.
  Proof.
    intros s c r s' c' r' i Hs Hc Hr []. constructor;
      match goal with H : SpecRoom.calm _ _ _ _ ?n ?x |- SpecRoom.calm _ _ _ _ _ ?x => apply (calm_later n); [assumption | exact H] end.
  Qed.

  Lemma post_collection_room : forall n s r i o t0, 0 <= n -> n + 1 <= R -> lo <= t0 <= hi -> bounded V P Q 1000 T o -> metrics_calm s n r i ->
    safe (update_post_collection i o t0) (metrics_calm s (n + 1) r).
  Proof.
    intros n s r i o t0 Hn Hn1 Ht0 (O1 & O2 & O3 & O4) M.
    pose proof (metrics_later s n r s (n + 1) r) as ML. destruct HE as [_ _ _ E4 _ E6 E7 E8]. destruct M.
    assert (L : forall x, calm n x -> calm (n + 1) x) by (intros x; apply calm_later; lia).
    unfold update_post_collection.
    eapply safe_bind; [apply safe_now|]. intros t Ht. cbv beta in Ht.
    eapply safe_bind; [apply (upd_meter n); [exact Hn | exact Hn1 | exact I | eassumption]|]. intros a1 ?.
    eapply safe_bind; [apply safe_of_span; lia|]. intros time Htm.
    eapply safe_bind; [apply (upd_histogram n); [apply Htm | eassumption]|]. intros a2 ?. cbv zeta.
    assert (Fm : forall x, 0 <= x <= W -> fits W (Observations x t)) by (intros x Hx; exact Hx).
    assert (Fh : forall x, 0 <= x -> fits i64_max (ObservationWithValue (UnsignedInteger x) t)).
    { intros x Hx z Hz. cbn [convert_to_i64] in Hz. destruct (x <=? i64_max) eqn:Ex; [|discriminate Hz]. injection Hz as <-. apply Z.leb_le in Ex. lia. }
    assert (Fg : forall x, 0 <= x <= W -> fits W (ObservationWithValue (UnsignedInteger x) t)).
    { intros x Hx z Hz. cbn [convert_to_i64] in Hz. destruct (x <=? i64_max) eqn:Ex; [|discriminate Hz]. injection Hz as <-. lia. }
    eapply safe_bind; [apply (upd_if _ _ _ _ (fun m => calm (n + 1) (IMeter m))); intros _; [auto | apply (upd_meter n); [exact Hn | exact Hn1 | apply Fm; lia | assumption]]|]. intros a3 ?.
    eapply safe_bind; [apply (upd_if _ _ _ _ (fun m => calm (n + 1) (IHistogram m))); intros _; [auto | apply (upd_histogram n); [apply Fh; lia | assumption]]|]. intros a4 ?.
    eapply safe_bind; [apply (upd_gauge n); [exact Hn | exact Hn1 | apply Fg; lia | eassumption]|]. intros a7 ?.
    eapply safe_bind; [apply (upd_if _ _ _ _ (fun m => calm (n + 1) (IMeter m))); intros _; [auto | apply (upd_meter n); [exact Hn | exact Hn1 | apply Fm; lia | assumption]]|]. intros a5 ?.
    eapply safe_bind; [apply (upd_if _ _ _ _ (fun m => calm (n + 1) (IHistogram m))); intros _; [auto | apply (upd_histogram n); [apply Fh; lia | assumption]]|]. intros a6 ?.
    eapply safe_bind; [apply (upd_if _ _ _ _ (fun m => calm (n + 1) (IStaircase m))); intros _; [auto | apply (upd_staircase n); assumption]|]. intros a11 ?.
    eapply safe_bind; [apply (upd_if _ _ _ _ (fun m => calm (n + 1) (IMeter m))); intros _; [auto | apply (upd_meter n); [exact Hn | exact Hn1 | apply Fm; lia | assumption]]|]. intros a8 ?.
    eapply safe_bind; [apply (upd_non_occurrence n); eassumption|]. intros a12 ?.
    apply safe_ret. constructor; assumption.
  Qed.

  Lemma post_snapshot_room : forall n c r i t0, 0 <= n -> n + 1 <= R -> lo <= t0 <= hi -> metrics_calm n c r i ->
    safe (update_post_snapshot i t0) (metrics_calm (n + 1) c r).
  Proof.
    intros n c r i t0 Hn Hn1 Ht0 []. unfold update_post_snapshot.
    eapply safe_bind; [apply safe_now|]. intros t Ht. cbv beta in Ht.
    eapply safe_bind; [apply (upd_meter n); [exact Hn | exact Hn1 | exact I | eassumption]|]. intros a1 ?.
    eapply safe_bind; [apply safe_of_span; lia|]. intros time Htm.
    eapply safe_bind; [apply (upd_histogram n); [apply Htm | eassumption]|]. intros a2 ?.
    apply safe_ret. constructor; assumption.
  Qed.

  Lemma run_ratio_room : forall n s c i ratio, 0 <= n -> n + 1 <= R -> 0 <= f64_as_u64 (f64_mul ratio (f64_of_Z 1000)) <= 1000 -> metrics_calm s c n i ->
    safe (update_run_ratio i ratio) (metrics_calm s c (n + 1)).
  Proof.
    intros n s c i ratio Hn Hn1 Hr []. pose proof (pl_value _ _ _ _ _ _ _ _ HE) as E4. unfold update_run_ratio. cbv zeta. set (x := f64_as_u64 _) in *.
    eapply safe_bind; [apply safe_now|]. intros t _.
    assert (F : forall B, 1000 <= B -> fits B (ObservationWithValue (UnsignedInteger x) t)).
    { intros B HB z Hz. cbn [convert_to_i64] in Hz. destruct (x <=? i64_max); [|discriminate Hz]. injection Hz as <-. lia. }
    eapply safe_bind; [apply (upd_histogram n); [apply F; lia | eassumption]|]. intros a1 ?.
    eapply safe_bind; [apply (upd_gauge n); [exact Hn | exact Hn1 | apply F; lia | eassumption]|]. intros a2 ?.
    apply safe_ret. constructor; assumption.
  Qed.

  Lemma one_put : forall B (f : B -> instrument X) (m : M (B * snapshot)) n i de into, instrument_put i de into = wrap f m ->
    0 <= n <= R -> calm n i -> safe m (fun r => calm n (f (fst r))).
  Proof.
    intros B f m n i de into E Hn Hi. apply (safe_unwrap2 _ _ _ f m (calm n)). rewrite <- E.
    apply (room_put k lo hi W HW Htime Hspan' HXW n i de into (proj1 Hn) (square_R n Hn) Hi).
  Qed.
  Lemma put_meter : forall n m de into, 0 <= n <= R -> calm n (IMeter m) -> safe (meter_put m de into) (fun r => calm n (IMeter (fst r))).
  Proof. intros n m de into. exact (one_put _ (IMeter (X := X)) (meter_put m de into) n (IMeter m) de into eq_refl). Qed.
  Lemma put_gauge : forall n m de into, 0 <= n <= R -> calm n (IGauge m) -> safe (gauge_put m de into) (fun r => calm n (IGauge (fst r))).
  Proof. intros n m de into. exact (one_put _ (IGauge (X := X)) (gauge_put m de into) n (IGauge m) de into eq_refl). Qed.
  Lemma put_staircase : forall n m de into, 0 <= n <= R -> calm n (IStaircase m) -> safe (staircase_put m de into) (fun _ => True).
  Proof.
    intros n m de into Hn H. exact (safe_unkeep k lo hi _ _ _ _ _ (room_put k lo hi W HW Htime Hspan' HXW n (IStaircase m) de into (proj1 Hn) (square_R n Hn) H)).
  Qed.
  Lemma put_non_occurrence : forall n m de into, 0 <= n <= R -> calm n (INonOccurrence m) -> safe (non_occurrence_put m de into) (fun _ => True).
  Proof.
    intros n m de into Hn H. exact (safe_unkeep k lo hi _ _ _ _ _ (room_put k lo hi W HW Htime Hspan' HXW n (INonOccurrence m) de into (proj1 Hn) (square_R n Hn) H)).
  Qed.
  Lemma put_histogram : forall n m de into, 0 <= n <= R -> calm n (IHistogram m) -> safe (histogram_put m de into) (fun _ => True).
  Proof.
    intros n m de into Hn H. exact (safe_unkeep k lo hi _ _ _ _ _ (room_put k lo hi W HW Htime Hspan' HXW n (IHistogram m) de into (proj1 Hn) (square_R n Hn) H)).
  Qed.

  Lemma instruments_put_room : forall s c r i de into, 0 <= s <= R -> 0 <= c <= R -> 0 <= r <= R -> metrics_calm s c r i ->
    safe (instruments_put i de into) (fun x => metrics_calm s c r (fst x)).
  Proof.
    intros s c r i de into Hs Hc Hr []. unfold instruments_put. cbv zeta.
    eapply safe_bind; [apply (put_meter c); eassumption|]. intros [a1 c1] ?.
    eapply safe_bind; [apply (put_histogram c); assumption|]. intros c2 _.
    eapply safe_bind; [apply (put_meter c); eassumption|]. intros [a3 c3] ?.
    eapply safe_bind; [apply (put_histogram c); assumption|]. intros c4 _.
    eapply safe_bind; [apply (put_meter c); eassumption|]. intros [a5 c5] ?.
    eapply safe_bind; [apply (put_histogram c); assumption|]. intros c6 _.
    eapply safe_bind; [apply (put_gauge c); eassumption|]. intros [a7 c7] ?.
    eapply safe_bind; [apply (put_meter c); eassumption|]. intros [a8 c8] ?.
    eapply safe_bind; [apply (put_meter s); eassumption|]. intros [a9 c9] ?.
    eapply safe_bind; [apply (put_histogram s); assumption|]. intros c10 _.
    eapply safe_bind; [apply (put_staircase c); eassumption|]. intros c11 _.
    eapply safe_bind; [apply (put_non_occurrence c); eassumption|]. intros c12 _.
    eapply safe_bind; [apply (put_gauge r); eassumption|]. intros [a14 c14] ?.
    eapply safe_bind; [apply (put_histogram r); assumption|]. intros c13 _.
    cbn [fst] in *. apply safe_ret. constructor; assumption.
  Qed.

  (** ** Snapshots *)

  Let HEn := pl_enough _ _ _ _ _ _ _ _ HE.
  Let HV := en_value _ _ _ _ _ _ HEn.
  Let HN : 1000 * R <= N := pl_messages _ _ _ _ _ _ _ _ HE.
  Let HT : 0 <= T := pl_teles _ _ _ _ _ _ _ _ HE.

  (** [n] iterations and a part of one *)
  Record stage (s c r m n C : Z) (d : driver X Y) : Prop := Stage {
    sg_processors : Forall (processor_room m) (dr_processors d);
    sg_teles : Z.of_nat (length (flat_map processor_teles (dr_processors d))) + C <= T;
    sg_snapshooters : Forall (leaf_calm m) (flat_map snapshooter_leaves (dr_snapshooters d));
    sg_strategy : strategy_sound k lo hi (dr_strategy d);
    sg_dropped : 0 <= dr_dropped_since_last_logged d <= n * (T * 1000);
    sg_metrics : match dr_metrics d with Some i => metrics_calm s c r i | None => True end
  }.

  Lemma snapshot_values_room : forall n C d de t0 into, 0 <= n -> n + 1 <= R -> lo <= t0 <= hi -> stage n n n (1000 * n) n C d ->
    safe (add_snapshot_values d de t0 into) (fun r => stage (n + 1) n n (1000 * n) n C (fst r)).
  Proof.
    intros n C d de t0 into Hn Hn1 Ht0 [H1 H2 H3 H4 H5 H6]. unfold add_snapshot_values. cbv zeta.
    assert (Hm : 0 <= 1000 * n <= N) by lia.
    pose proof (put_room k lo hi V N S P Q T HEn Htime Hspan' HX HY (1000 * n) Hm) as [Pp _].
    eapply safe_bind; [apply (traverse_put_room k lo hi V N S P (1000 * n) de (dr_processors d)); [apply Forall_forall; intros p _; apply Pp | exact H1]|].
    intros [ps i1] [A1 A2]. cbn [fst] in A1, A2.
    eapply safe_bind.
    { apply (put_all k lo hi V snapshooter_leaves _ (1000 * n) (1000 * n)); [exact H3|]. apply Forall_forall. intros x _ s0.
      apply (tree_put_room k lo hi V HV Htime Hspan' HX (1000 * n) (proj1 Hm) (square_N V N S P Q T HEn (1000 * n) Hm)). }
    intros [ss i2] [B1 B2]. cbn [fst] in B1, B2.
    destruct (dr_metrics d) as [i|] eqn:Em.
    - eapply safe_bind; [apply (post_snapshot_room n n n); eassumption|]. intros i' Hi.
      eapply safe_bind; [apply (instruments_put_room (n + 1) n n); [lia | lia | lia | exact Hi]|]. intros [i'' i3] Hi'. cbn [fst] in Hi'.
      apply safe_ret. constructor; cbn; try assumption. rewrite A2. exact H2.
    - apply safe_ret. constructor; cbn; try assumption. rewrite A2. exact H2.
  Qed.

  Lemma driver_snapshot_room : forall n C d de into, 0 <= n -> n + 1 <= R -> stage n n n (1000 * n) n C d ->
    safe (put_values_into_snapshot d de into) (fun r => stage (n + 1) n n (1000 * n) n C (fst r)).
  Proof.
    intros n C d de into Hn Hn1 H. unfold put_values_into_snapshot. eapply safe_bind; [apply safe_now|]. intros t Ht. cbv beta in Ht.
    destruct (dr_name d); [|apply snapshot_values_room; assumption].
    eapply safe_bind; [apply snapshot_values_room; eassumption|]. intros [d' s'] Hd. apply safe_ret, Hd.
  Qed.

  (** ** The thread *)

  Definition time (w : dworld X Y) : Z := w_clock (dw_world w) O.

  (** [t]: a time that has passed; [C]: what is to come *)
  Definition droom {B} (t C : Z) (m : St (dworld X Y) B) (G : Z -> Z -> B -> Prop) : Prop :=
    forall w, dworld_room C w -> t <= time w ->
      match m k w with
      | Ok a w' => exists C', 0 <= C' /\ dworld_room C' w' /\ t <= time w' /\ G (time w') C' a
      | Panic => False
      | NoFuel => True
      end.

  Lemma room_nonneg : forall C w, dworld_room C w -> 0 <= C.
  Proof. intros C w Hw. pose proof (wd_total _ _ _ _ _ _ _ _ _ _ Hw O). lia. Qed.

  Lemma droom_ret : forall B t C (a : B) (G : Z -> Z -> B -> Prop), (forall t', t <= t' -> G t' C a) -> droom t C (ret a) G.
  Proof. intros B t C a G H w Hw Ht. cbn. exists C. pose proof (room_nonneg _ _ Hw). auto. Qed.

  Lemma droom_bind : forall B D t C (m : St (dworld X Y) B) (f : B -> St (dworld X Y) D) G G',
    droom t C m G -> (forall t' C' a, t <= t' -> 0 <= C' -> G t' C' a -> droom t' C' (f a) G') -> droom t C (bind m f) G'.
  Proof.
    intros B D t C m f G G' Hm Hf w Hw Ht. unfold bind. specialize (Hm w Hw Ht). destruct (m k w) as [a w1| |]; auto.
    destruct Hm as (C1 & HC1 & Hw1 & Ht1 & Ha). specialize (Hf _ _ _ Ht1 HC1 Ha w1 Hw1 (Z.le_refl _)). destruct (f a k w1) as [b w2| |]; auto.
    destruct Hf as (C2 & HC2 & Hw2 & Ht2 & Hb). exists C2. split; [exact HC2|]. split; [exact Hw2|]. split; [lia | exact Hb].
  Qed.

  (** Computations that leave the commands alone *)
  Definition kept {B} (C : Z) (G : Z -> B -> Prop) : Z -> Z -> B -> Prop := fun t' C' a => C' = C /\ G t' a.

  Lemma droom_in : forall B t C (m : St (world X Y) B) (G : B -> Prop), wroom k lo hi V S Q m G -> wticks m -> droom t C (in_world m) (kept C (fun _ => G)).
  Proof.
    intros B t C m G H Hm w Hw Ht. pose proof (room_nonneg _ _ Hw) as HC. destruct Hw as [H1 H2 H3 H4 H5]. unfold in_world. specialize (H _ H1).
    destruct (m k (dw_world w)) as [a w'| |] eqn:E; auto.
    destruct H as [Hw Ha]. pose proof (Hm _ _ _ _ E) as L. unfold time in *. cbn [dw_world]. exists C. split; [exact HC|].
    split; [constructor; cbn [dw_world dw_commands dw_sched]; try assumption; exact (later_monotone _ _ H2 L)|].
    split; [|split; [reflexivity | exact Ha]]. pose proof (later_first _ _ H2 L). lia.
  Qed.

  Lemma droom_timed : forall B t C (m : M B) (G : B -> Prop), safe m G -> ticks m -> droom t C (timed m) (kept C (fun _ => G)).
  Proof. intros B t C m G H Hm. apply droom_in; [apply wroom_lift, H | apply lift_wticks, Hm]. Qed.

  (** A computation that needs the time that has passed *)
  Lemma droom_timed_at : forall B t C (m : M B) (G : Z -> B -> Prop),
    (forall c, clock_within lo hi c -> monotone c -> t <= c O -> exists a c', m k c = Ok a c' /\ later c c' /\ clock_within lo hi c' /\ G (c' O) a) ->
    droom t C (timed m) (kept C G).
  Proof.
    intros B t C m G H w Hw Ht. pose proof (room_nonneg _ _ Hw) as HC. destruct Hw as [H1 H2 H3 H4 H5].
    destruct (H _ (wr_clock _ _ _ _ _ _ _ H1) H2 Ht) as (a & c' & E & L & Hc & Ha).
    unfold timed, in_world, lift. rewrite E. pose proof (later_first _ _ H2 L) as F. unfold time in *. cbn [dw_world w_clock]. exists C. split; [exact HC|].
    split; [|split; [lia | split; [reflexivity | exact Ha]]].
    constructor; cbn [dw_world dw_commands dw_sched w_clock]; [|exact (later_monotone _ _ H2 L)|assumption|assumption|assumption].
    destruct H1. constructor; assumption.
  Qed.

  Lemma droom_now : forall t C, droom t C (timed now) (kept C (fun t' a => t <= a <= t' /\ lo <= a <= hi)).
  Proof.
    intros t C. apply droom_timed_at. intros c Hc Mc Ht. exists (c O), (clock_tail c). split; [reflexivity|]. split; [apply later_tail|].
    split; [intros i; apply Hc|]. pose proof (Hc O). pose proof (Mc O). unfold clock_tail. lia.
  Qed.

  Lemma droom_elapsed : forall t C s, lo <= s <= hi -> droom t C (timed (elapsed s)) (kept C (fun t' e => 0 <= e <= hi - lo /\ (s <= t -> s + e <= t'))).
  Proof.
    intros t C s Hs. apply droom_timed_at. intros c Hc Mc Ht. exists (Z.max 0 (c O - s)), (clock_tail c). split; [reflexivity|]. split; [apply later_tail|].
    split; [intros i; apply Hc|]. pose proof (Hc O). pose proof (Mc O). unfold clock_tail. lia.
  Qed.

  Lemma droom_u64 : forall t C r, 0 <= r <= u64_max -> droom t C (u64_arith r) (kept C (fun _ x => x = r)).
  Proof.
    intros t C r H w Hw Ht. unfold u64_arith, arith.
    rewrite (proj2 (Z.leb_le _ _) (proj1 H)), (proj2 (Z.leb_le _ _) (proj2 H)). cbn [andb]. exists C. pose proof (room_nonneg _ _ Hw). unfold kept. auto.
  Qed.

  (** What a client does before the next operation: its commands go to the queue. *)
  Notation wt := (weight (command_teles (X := X) (Y := Y))).

  Lemma client_room : forall a (w : dworld X Y),
    (forall c, In c (chan_messages (dw_commands w)) -> command_room c) -> (forall c, a = Call c -> command_room c) ->
    let w' := client_act w a in
    (forall c, In c (chan_messages (dw_commands w')) -> command_room c) /\ dw_world w' = dw_world w /\ dw_sched w' = dw_sched w
    /\ (wt (chan_messages (dw_commands w')) <= wt (chan_messages (dw_commands w)) + wt (called a))%nat.
  Proof.
    intros a w H3 Ha.
    assert (Hb : forall m n b, (forall x, In x (action_messages m) -> command_room x) -> (wt (action_messages m) <= wt (called a))%nat ->
      let w' := dw_with w (chan_act (dw_commands w) m) n b in
      (forall c, In c (chan_messages (dw_commands w')) -> command_room c) /\ dw_world w' = dw_world w /\ dw_sched w' = dw_sched w
      /\ (wt (chan_messages (dw_commands w')) <= wt (chan_messages (dw_commands w)) + wt (called a))%nat).
    { intros m n b Hm Hw w'. subst w'. cbn [dw_with dw_commands dw_world dw_sched]. split; [|split; [reflexivity | split; [reflexivity|]]].
      - intros c Hc. apply act_messages in Hc. destruct Hc; auto.
      - pose proof (act_weight command_teles (dw_commands w) m). lia. }
    assert (H0 : forall g b, let w' := dw_with w (dw_commands w) g b in
      (forall c, In c (chan_messages (dw_commands w')) -> command_room c) /\ dw_world w' = dw_world w /\ dw_sched w' = dw_sched w
      /\ (wt (chan_messages (dw_commands w')) <= wt (chan_messages (dw_commands w)) + wt (called a))%nat).
    { intros g b w'. subst w'. cbn [dw_with dw_commands dw_world dw_sched]. repeat split; try assumption. lia. }
    assert (H1 : (forall c, In c (chan_messages (dw_commands w)) -> command_room c) /\ dw_world w = dw_world w /\ dw_sched w = dw_sched w
      /\ (wt (chan_messages (dw_commands w)) <= wt (chan_messages (dw_commands w)) + wt (called a))%nat).
    { repeat split; try assumption. lia. }
    cbv zeta in *. destruct a as [c| | |]; cbn [client_act].
    - destruct (dw_guards w); [exact H1|]. apply Hb; [|cbn [action_messages called]; lia]. cbn. intros x [<-|[]]. apply Ha. reflexivity.
    - destruct (dw_guards w); [exact H1|]. apply Hb; [|cbn; lia]. cbn. intros x [].
    - destruct (dw_guards w) as [|[|n]]; [exact H1|apply H0|apply H0].
    - destruct (_ <? _)%nat; [|exact H1]. apply Hb; [|cbn; lia]. cbn. intros x [].
  Qed.

  Lemma clients_room : forall l (w : dworld X Y),
    (forall c, In c (chan_messages (dw_commands w)) -> command_room c) -> (forall c, In (Call c) l -> command_room c) ->
    let w' := fold_left client_act l w in
    (forall c, In c (chan_messages (dw_commands w')) -> command_room c) /\ dw_world w' = dw_world w /\ dw_sched w' = dw_sched w
    /\ (wt (chan_messages (dw_commands w')) <= wt (chan_messages (dw_commands w)) + wt (flat_map called l))%nat.
  Proof.
    induction l as [|a l IH]; intros w Hw Hl; cbn [fold_left flat_map].
    - cbv zeta. repeat split; try assumption. lia.
    - destruct (client_room a w Hw) as (C1 & C2 & C3 & C4). { intros c ->. apply Hl. left. reflexivity. }
      destruct (IH _ C1) as (I1 & I2 & I3 & I4). { intros c Hc. apply Hl. right. exact Hc. }
      cbv zeta in *. split; [exact I1|]. split; [congruence|]. split; [congruence|]. rewrite weight_app. lia.
  Qed.

  Lemma droom_clients : forall t C, droom t C clients (kept C (fun _ _ => True)).
  Proof.
    intros t C w Hw Ht. unfold clients. cbv zeta. pose proof (room_nonneg _ _ Hw) as HC. destruct Hw as [H1 H2 H3 H4 H5].
    destruct (clients_room (dw_sched w O) w H3) as (A1 & A2 & A3 & A4). { intros c Hc. eapply H4, Hc. }
    unfold time in *. cbn [dw_world]. rewrite A2. exists C. split; [exact HC|]. split; [|split; [exact Ht | split; [reflexivity | exact I]]].
    constructor; cbn [dw_world dw_commands dw_sched]; rewrite ?A2, ?A3; try assumption.
    - intros n c Hc. eapply H4, Hc.
    - intros n. specialize (H5 (Datatypes.S n)). cbn [seq flat_map] in H5. rewrite !flat_map_app, app_length in H5.
      rewrite <- seq_shift, (flat_map_concat_map _ (map _ _)), map_map, <- flat_map_concat_map in H5. unfold weight in A4. lia.
  Qed.

  Lemma droom_running : forall t C, droom t C load_running (kept C (fun _ _ => True)).
  Proof.
    intros t C. unfold load_running. eapply droom_bind; [apply droom_clients|]. intros t' C' _ Ht' HC' [-> _] w Hw Ht.
    exists C. unfold kept. auto.
  Qed.

  Lemma droom_command : forall t C, droom t C command_try_recv
    (fun _ C' r => (forall c, r = Message c -> command_room c) /\ C' <= C /\ match r with Message c => Z.of_nat (length (command_teles c)) + C' <= C | _ => True end).
  Proof.
    intros t C. unfold command_try_recv. eapply droom_bind; [apply droom_clients|]. intros t' C0 _ Ht' HC' [-> _] w Hw Ht.
    pose proof (recv_weight command_teles (dw_commands w)) as W0. destruct (chan_try_recv (dw_commands w)) as [c r] eqn:E. cbn [fst snd] in W0.
    apply recv_messages in E. destruct E as [E1 E2].
    unfold time in *. cbn [dw_with dw_world]. destruct Hw as [H1 H2 H3 H4 H5].
    set (x := match r with Message m => Z.of_nat (length (command_teles m)) | _ => 0 end).
    assert (Wx : Z.of_nat (weight command_teles (chan_messages c)) + x <= Z.of_nat (weight command_teles (chan_messages (dw_commands w)))).
    { subst x. destruct r as [m| |]; try lia. unfold weight in *. cbn [flat_map] in W0. rewrite app_nil_r in W0. lia. }
    assert (X0 : 0 <= x) by (subst x; destruct r; lia).
    exists (C - x). assert (G : dworld_room (C - x) (dw_with w c (dw_guards w) (dw_running w))).
    { constructor; cbn [dw_with dw_world dw_commands dw_sched]; auto. intros n. specialize (H5 n). unfold weight in Wx. lia. }
    split; [exact (room_nonneg _ _ G)|]. split; [exact G|]. split; [exact Ht|]. split; [intros m Hm; auto|]. split; [lia|].
    subst x. destruct r; try exact I. lia.
  Qed.

  Lemma droom_hang_up : forall t C, droom t C hang_up (kept C (fun _ _ => True)).
  Proof.
    intros t C w Hw Ht. pose proof (room_nonneg _ _ Hw) as HC. destruct Hw as [H1 H2 H3 H4 H5]. unfold hang_up. exists C. split; [exact HC|].
    split; [|split; [exact Ht | split; [reflexivity | exact I]]].
    constructor; cbn [dw_world dw_commands dw_sched]; try assumption.
    - intros c Hc. apply H3. apply act_messages in Hc. destruct Hc as [Hc|[]]. exact Hc.
    - intros n. specialize (H5 n). pose proof (act_weight command_teles (dw_commands w) DropReceiver) as W0. unfold weight in W0. cbn [action_messages flat_map length] in W0. lia.
  Qed.

  Lemma command_stage : forall n t C C' d c, 0 <= n -> n + 1 <= R -> driver_room n C d -> command_room c -> C' <= C -> Z.of_nat (length (command_teles c)) + C' <= C ->
    droom t C' (driver_command d c) (kept C' (fun _ d' => stage (n + 1) n n (1000 * n) n C' d')).
  Proof.
    intros n t C C' d c Hn Hn1 [H1 H2 H3 H4 H5 H6] Hc HC HC'.
    assert (M : match dr_metrics d with Some i => metrics_calm n n n i | None => True end).
    { destruct (dr_metrics d); [apply metrics_calm_iff, H6 | exact I]. }
    assert (M1 : match dr_metrics d with Some i => metrics_calm (n + 1) n n i | None => True end).
    { destruct (dr_metrics d); [|exact I]. apply (metrics_later n n n); [lia | lia | lia | exact M]. }
    assert (Hsnap : forall into b de, droom t C' (let* '(d, s) := timed (put_values_into_snapshot d de into) in
        let* _ := answer b s in ret d) (kept C' (fun _ d' => stage (n + 1) n n (1000 * n) n C' d'))).
    { intros into b de. eapply droom_bind.
      { apply droom_timed; [apply (driver_snapshot_room n C'); [exact Hn | exact Hn1 | constructor; try assumption; lia] | apply (driver_snapshot_ticks TX TY)]. }
      intros t' C1 [d' s] Ht' _ [-> Hd']. cbn [fst] in Hd'.
      eapply (droom_bind _ _ _ _ _ _ (kept C' (fun _ _ => True))); [|intros t'' C1 _ _ _ [-> _]; apply droom_ret; intros; split; [reflexivity | exact Hd']].
      intros w Hw Ht. pose proof (room_nonneg _ _ Hw) as HC0. destruct Hw as [G1 G2 G3 G4 G5]. unfold answer. exists C'. split; [exact HC0|].
      split; [constructor; assumption|]. split; [exact Ht | split; [reflexivity | exact I]]. }
    destruct c as [p|s|into b de|into b de|s| |]; cbn [driver_command]; try apply Hsnap; apply droom_ret; intros t' _; (split; [reflexivity|]); constructor; cbn in Hc |- *; cbn [command_teles] in HC';
      try assumption; try lia.
    - apply Forall_app. split; [assumption|]. constructor; [|constructor].
      apply (processor_later k lo hi V N S P Q T HEn 0 (1000 * n)); [lia | lia | exact Hc].
    - rewrite flat_map_app, app_length. cbn [flat_map]. rewrite app_nil_r. lia.
    - rewrite flat_map_app. cbn [flat_map]. rewrite app_nil_r. apply Forall_app. split; [assumption|].
      apply (leaves_mono k lo hi V HV 0 (1000 * n)); [lia | exact Hc].
  Qed.

  Lemma bounded_later : forall x y o, 0 <= x <= y -> bounded V P Q 1000 x o -> bounded V P Q 1000 y o.
  Proof.
    intros x y o H (B1 & B2 & B3 & B4). pose proof (en_queues _ _ _ _ _ _ HEn) as [Q0 _]. pose proof (en_parts _ _ _ _ _ _ HEn) as [_ P0].
    assert (0 <= P * V) by (apply Z.mul_nonneg_nonneg; lia).
    assert (x * (1000 * (P * V)) <= y * (1000 * (P * V))) by (apply Z.mul_le_mono_nonneg_r; lia).
    assert (x * Q <= y * Q) by (apply Z.mul_le_mono_nonneg_r; lia).
    repeat split; lia.
  Qed.

  Lemma do_a_run_room : forall n ps s, 0 <= n -> n + 1 <= R -> Forall (processor_room (1000 * n)) ps -> strategy_sound k lo hi s ->
    Z.of_nat (length (flat_map processor_teles ps)) <= T ->
    wroom k lo hi V S Q (do_a_run ps 1000 s)
      (fun r => Forall (processor_room (1000 * (n + 1))) (fst r)
                /\ length (flat_map processor_teles (fst r)) = length (flat_map processor_teles ps)
                /\ bounded V P Q 1000 T (snd r)).
  Proof.
    intros n ps s Hn Hn1 Hp Hs Ht. unfold do_a_run.
    assert (H : wroom k lo hi V S Q (traverse (collect_one (fun p => processor_process (fuel k) p 1000 s)) ps outcome_default)
      (fun r => Forall (processor_room (1000 * (n + 1))) (fst r) /\ length (flat_map processor_teles (fst r)) = length (flat_map processor_teles ps)
                /\ bounded V P Q 1000 T (snd r))); [|exact H].
    eapply wroom_weak.
    - apply (collect_all_room k lo hi V N S P Q T HEn ltac:(lia) (1000 * (n + 1)) 1000 (fun p => processor_process (fuel k) p 1000 s) ps 0 outcome_default);
        [lia | lia | lia | apply bounded_zero |].
      apply Forall_forall. intros p Ip Hc. rewrite Forall_forall in Hp.
      pose proof (process_room k lo hi V N S P Q T HEn ltac:(lia) Htime HX (fuel k) (1000 * n) p 1000 s ltac:(lia)) as G.
      change (Z.of_nat 1000) with 1000 in G. assert (E : 1000 * n + 1000 = 1000 * (n + 1)) by lia. rewrite E in G. apply G; auto. lia.
    - intros [ps' o] (R1 & R2 & R3). cbn [fst snd] in *. split; [exact R1|]. split; [exact R2|]. apply (bounded_later _ _ _ (conj (Nat2Z.is_nonneg _) Ht)). exact R3.
  Qed.

  Lemma elapsed_stats_room : forall n s c t C t0 rt m, 0 <= n -> n + 1 <= R -> lo <= t0 <= hi -> 0 <= rt -> t0 + rt <= t ->
    match m with Some i => metrics_calm s c n i | None => True end ->
    droom t C (timed (report_elapsed_stats t0 rt m)) (kept C (fun _ m' => match m' with Some i => metrics_calm s c (n + 1) i | None => True end)).
  Proof.
    intros n s c t C t0 rt m Hn Hn1 Ht0 Hrt Ht Hm. apply droom_timed_at.
    intros cl Hcl Mcl Hcl0. destruct m as [i|]; cbn [report_elapsed_stats]; [|exists None, cl; pose proof (later_refl cl); auto].
    set (e := Z.max 0 (cl O - t0)). pose proof (Hcl O) as H0.
    assert (Htail : clock_within lo hi (clock_tail cl)) by (intros j; apply Hcl).
    assert (Ml : metrics_calm s c n i -> metrics_calm s c (n + 1) i).
    { destruct 1. constructor; try assumption; (eapply calm_later; [|eassumption]); lia. }
    assert (G : safe (if f64_ltb f64_zero (as_secs_f64 e) then let* i := update_run_ratio i (f64_div (as_secs_f64 rt) (as_secs_f64 e)) in ret (Some i) else ret (Some i))
      (fun m' => match m' with Some i => metrics_calm s c (n + 1) i | None => True end)).
    { destruct (f64_ltb f64_zero (as_secs_f64 e)) eqn:Le; [|apply safe_ret, Ml, Hm].
      eapply safe_bind; [apply (run_ratio_room n); [exact Hn | exact Hn1 | | exact Hm]|intros i' Hi; apply safe_ret, Hi].
      assert (He : 0 < e).
      { destruct (Z.eq_dec e 0) as [E|E]; [|subst e; lia]. rewrite E in Le. vm_compute in Le. discriminate Le. }
      assert (Hw : in_duration e) by (unfold in_duration; subst e; lia).
      pose proof (per_mille_range rt e ltac:(subst e; lia) He Hw) as Pm. unfold SpecMetrix.per_mille in Pm.
      rewrite (Z.max_r 0 rt), (Z.max_r 0 e) in Pm by lia. exact Pm. }
    destruct (G _ Htail) as (a & c' & E & H1 & H2). exists a, c'. split; [exact E|]. split; [exact (elapsed_stats_ticks TX t0 rt (Some i) k cl a c' E)|]. split; assumption.
  Qed.

  Lemma run_room : forall n t C t0 d, 0 <= n -> n + 1 <= R -> lo <= t0 <= hi -> t0 <= t -> stage (n + 1) n n (1000 * n) n C d ->
    droom t C (driver_run d t0) (kept C (fun _ d' => driver_room (n + 1) C d')).
  Proof.
    intros n t C t0 d Hn Hn1 Ht0 Htt [H1 H2 H3 H4 H5 H6]. unfold driver_run.
    intros w0 Hw0. pose proof (room_nonneg _ _ Hw0) as HC. revert w0 Hw0. fold (droom (B := driver X Y) t C).
    eapply droom_bind; [apply droom_now|]. intros t1 C1 rs L1 _ [-> [Hrs Hrs']]. cbv beta in *.
    eapply droom_bind; [apply droom_in; [apply (do_a_run_room n); try assumption; lia | apply (do_a_run_wticks TX TY)]|].
    intros t2 C1 [ps o] L2 _ [-> (R1 & R2 & R3)]. cbn [fst snd] in R1, R2, R3. cbv zeta.
    set (d0 := driver_with d ps (dr_snapshooters d) (dr_metrics d)).
    eapply droom_bind; [apply (droom_elapsed _ C rs); exact Hrs'|]. intros t3 C1 rt L3 _ [-> [Hrt Hrt2]]. specialize (Hrt2 ltac:(lia)).
    pose proof R3 as (O1 & O2 & O3 & O4).
    assert (Hsum : 0 <= dr_dropped_since_last_logged d + oc_dropped o <= (n + 1) * (T * 1000)) by lia.
    assert (Hmax : (n + 1) * (T * 1000) <= u64_max).
    { etransitivity; [|exact (en_counts _ _ _ _ _ _ HEn)]. assert (E : (n + 1) * (T * 1000) = T * (1000 * (n + 1))) by ring. rewrite E.
      apply Z.mul_le_mono_nonneg_l; lia. }
    change (dr_dropped_since_last_logged d0) with (dr_dropped_since_last_logged d).
    eapply droom_bind; [apply droom_u64; lia|]. intros t4 C1 dropped L4 _ [-> ->].
    set (logged := fun d' => exists a b, d' = driver_set_log d0 a b /\ 0 <= b <= (n + 1) * (T * 1000)).
    assert (Hlog : 0 <= (n + 1) * (T * 1000)) by lia.
    eapply (droom_bind _ _ _ _ _ _ (kept C (fun _ => logged))).
    { assert (D0 : forall a, logged (driver_set_log d0 a (dr_dropped_since_last_logged d + oc_dropped o))).
      { intros a. eexists _, _. split; [reflexivity | lia]. }
      destruct (0 <? _); [|apply droom_ret; intros; split; [reflexivity | apply D0]].
      eapply (droom_bind _ _ _ _ _ _ (kept C (fun _ _ => True))); [apply droom_timed; [apply safe_elapsed | apply elapsed_ticks]|]. intros t5 C1 e L5 _ [-> _].
      destruct (_ <? e); [|apply droom_ret; intros; split; [reflexivity | apply D0]].
      eapply droom_bind; [apply droom_now|]. intros t6 C1 a L6 _ [-> _]. apply droom_ret. intros. split; [reflexivity|]. eexists _, _. split; [reflexivity | lia]. }
    intros t5 C1 d' L5 _ [-> (la & lb & -> & Hlb)]. change (dr_metrics (driver_set_log d0 la lb)) with (dr_metrics d0).
    set (mc := fun r m => match m with Some i => metrics_calm (n + 1) (n + 1) r i | None => True end).
    assert (Done : forall m, mc (n + 1) m -> driver_room (n + 1) C (driver_with (driver_set_log d0 la lb) (dr_processors (driver_set_log d0 la lb)) (dr_snapshooters (driver_set_log d0 la lb)) m)).
    { pose proof (leaves_mono k lo hi V HV (1000 * n) (1000 * (n + 1)) _ ltac:(lia) H3) as H3'. rewrite <- R2 in H2.
      intros m Hm. constructor; [exact R1 | exact H2 | exact H3' | exact H4 | exact Hlb|].
      destruct m; [apply metrics_calm_iff; exact Hm | exact I]. }
    eapply (droom_bind _ _ _ _ _ _ (kept C (fun _ => mc n))).
    { destruct (dr_metrics d0) as [i|] eqn:Em; [|apply droom_ret; intros; split; [reflexivity | exact I]]. cbn in Em. rewrite Em in H6.
      eapply droom_bind; [apply droom_timed; [apply (post_collection_room n (n + 1) n); eassumption | apply (post_collection_ticks TX)]|].
      intros t6 C1 i' L6 _ [-> Hi]. apply droom_ret. intros. split; [reflexivity | exact Hi]. }
    intros t6 C1 m L6 _ [-> Hm].
    assert (Hm1 : mc (n + 1) m).
    { destruct m as [i|]; [|exact I]. apply (metrics_later (n + 1) (n + 1) n); [lia | lia | lia | exact Hm]. }
    destruct (_ || _); [apply droom_ret; intros; split; [reflexivity | apply Done, Hm1]|].
    eapply droom_bind; [apply droom_now|]. intros t7 C1 fin L7 _ [-> _].
    eapply droom_bind; [apply (elapsed_stats_room n (n + 1) (n + 1)); [exact Hn | exact Hn1 | exact Ht0 | lia | lia | exact Hm]|].
    intros t8 C1 m' L8 _ [-> Hm']. apply droom_ret. intros. split; [reflexivity | apply Done, Hm'].
  Qed.

  Lemma idle_stage : forall n C C' d, 0 <= n -> C' <= C -> driver_room n C d -> stage (n + 1) n n (1000 * n) n C' d.
  Proof.
    intros n C C' d Hn HC [H1 H2 H3 H4 H5 H6]. constructor; try assumption; [lia|].
    destruct (dr_metrics d); [|exact I]. apply (metrics_later n n n); [lia | lia | lia | apply metrics_calm_iff, H6].
  Qed.

  Lemma paused_room : forall n C d, 0 <= n -> n + 1 <= R -> stage (n + 1) n n (1000 * n) n C d -> driver_room (n + 1) C d.
  Proof.
    intros n C d Hn Hn1 [H1 H2 H3 H4 H5 H6]. assert (E : (n + 1) * (T * 1000) = n * (T * 1000) + T * 1000) by ring. constructor; try assumption.
    - rewrite Forall_forall in *. intros p Hp. apply (processor_later k lo hi V N S P Q T HEn (1000 * n) (1000 * (n + 1))); [lia | lia | auto].
    - apply (leaves_mono k lo hi V HV (1000 * n)); [lia | exact H3].
    - lia.
    - destruct (dr_metrics d); [|exact I]. apply metrics_calm_iff, (metrics_later (n + 1) n n); [lia | lia | lia | exact H6].
  Qed.

  Lemma iteration_room : forall n t C d, 0 <= n -> n + 1 <= R -> driver_room n C d -> droom t C (driver_iteration d) (fun _ C' r => driver_room (n + 1) C' (fst r)).
  Proof.
    intros n t C d Hn Hn1 Hd.
    assert (Hi : forall C', C' <= C -> driver_room (n + 1) C' d) by (intros C' HC'; apply paused_room; [exact Hn | exact Hn1 | apply (idle_stage n C); assumption]).
    unfold driver_iteration. eapply droom_bind; [apply droom_running|]. intros t1 C1 [|] L1 _ [-> _]; cbn [negb].
    - eapply droom_bind; [apply droom_now|]. intros t2 C1 t0 L2 _ [-> [Ht0 Ht0']]. cbv beta in *.
      eapply droom_bind; [apply droom_command|]. intros t3 C3 r L3 HC3 (Hr & HC & Hrc). cbv beta in Hr.
      assert (H : forall t4 d', t0 <= t4 -> stage (n + 1) n n (1000 * n) n C3 d' -> droom t4 C3 (if dr_paused d' then ret (d', true)
          else let* d := driver_run d' t0 in ret (d, true)) (fun _ C' r => driver_room (n + 1) C' (fst r))).
      { intros t4 d' L4 Hd'. destruct (dr_paused d'); [apply droom_ret; intros; apply (paused_room n); assumption|].
        eapply droom_bind; [apply (run_room n); [exact Hn | exact Hn1 | exact Ht0' | exact L4 | exact Hd']|]. intros t5 C5 d'' L5 _ [-> Hd'']. apply droom_ret. intros. exact Hd''. }
      destruct r as [c| |].
      + eapply droom_bind; [apply (command_stage n t3 C C3); [exact Hn | exact Hn1 | exact Hd | apply Hr; reflexivity | exact HC | exact Hrc]|]. intros t4 C4 d' L4 _ [-> Hd']. apply H; [lia | exact Hd'].
      + eapply (droom_bind _ _ _ _ _ _ (kept C3 (fun _ x => x = d))); [apply droom_ret; intros; split; reflexivity|]. intros t4 C4 d' L4 _ [-> ->].
        apply H; [lia | apply (idle_stage n C); assumption].
      + eapply droom_bind; [apply droom_hang_up|]. intros t4 C4 _ L4 _ [-> _]. apply droom_ret. intros. apply Hi, HC.
    - eapply droom_bind; [apply droom_hang_up|]. intros t4 C4 _ L4 _ [-> _]. apply droom_ret. intros. apply Hi, Z.le_refl.
  Qed.

  Theorem iterations_room : forall m n t C d, 0 <= n -> n + Z.of_nat m <= R -> driver_room n C d ->
    droom t C (run_iterations m d) (fun _ C' r => match r with Some d => driver_room (n + Z.of_nat m) C' d | None => True end).
  Proof.
    induction m as [|m IH]; intros n t C d Hn Hm Hd; cbn [run_iterations].
    - apply droom_ret. intros. rewrite Z.add_0_r. exact Hd.
    - rewrite Nat2Z.inj_succ in Hm |- *. eapply droom_bind; [apply (iteration_room n); [exact Hn | lia | exact Hd]|]. intros t' C' [d' [|]] L _ Hd'; cbn [fst] in Hd'.
      + assert (E : n + Z.succ (Z.of_nat m) = n + 1 + Z.of_nat m) by lia. rewrite E. apply IH; [lia | lia | exact Hd'].
      + apply droom_ret. intros. exact I.
  Qed.
End Driver.

(** ** New drivers *)

Section Start.
  Context {X : ext} {Y : pext}.
  Variables (k : cfg) (lo hi W : Z).
  Notation safe := (safe k lo hi).
  Notation calm := (calm (X := X) k lo hi W).
  Hypothesis HX : parts_safe k lo hi X.
  Hypothesis Hfive : manageable k lo hi (5 * nanos_per_sec).
  Hypothesis Hminute : manageable k lo hi (60 * nanos_per_sec).

  Lemma meter_new_room : forall al name, safe (meter_new al name) (fun m => calm 0 (IMeter m)).
  Proof.
    intros al name. unfold meter_new, std_meter_default. eapply safe_bind; [apply safe_now|]. intros t _.
    eapply (safe_bind _ _ _ _ _ _ _ (fun s => sm_count s = 0 /\ lo <= sm_start s)).
    { eapply safe_bind; [apply safe_now|]. intros n Hn. cbv beta in Hn.
      eapply safe_bind; [apply safe_add_instant, (manageable_up k lo hi); eassumption|]. intros ? _. apply safe_ret. cbn [sm_count sm_start]. lia. }
    intros s [Hs1 Hs2]. apply safe_ret. split; [split; [repeat constructor; apply Hfive|exact I]|].
    split; [|exact Hs2]. cbn [m_inner]. rewrite Hs1. apply Z.le_refl.
  Qed.

  Lemma histogram_new_room : forall name, safe (histogram_new (ex_histo X) name) (fun h => calm 0 (IHistogram h)).
  Proof. intros name. eapply safe_weak; [apply (histogram_new_safe (X := X) k lo hi HX name)|]. intros h H. split; [exact H | exact I]. Qed.

  Lemma tracking_gauge_room : forall name, safe (tracking_gauge name) (fun g => calm 0 (IGauge g)).
  Proof.
    intros name. unfold tracking_gauge, gauge_set_tracking, buckets_new, buckets_initialized.
    assert (Hr : forall t, calm 0 (IGauge (Gauge name (g_descr (gauge_new name)) None (Some (Buckets (repeat bucket_default 60) t 59)) (g_display_time_unit (gauge_new name)) true))).
    { intros t. split; [split; [constructor | cbn; lia]|]. split; [exact I|]. split; [|vm_compute; discriminate].
      apply Forall_forall. intros b Hb. apply repeat_spec in Hb. subst b. repeat split; vm_compute; discriminate. }
    intros c Hc. eexists _, (clock_tail c). split; [reflexivity|]. split; [intros i; apply Hc | apply (Hr (c O))].
  Qed.

  Lemma default_metrics_room : safe (driver_instruments_default (X := X)) (fun i => Forall (calm 0) (metrics_instruments i)).
  Proof.
    unfold driver_instruments_default.
    eapply safe_bind; [apply meter_new_room|]. intros a1 ?.
    eapply safe_bind; [apply histogram_new_room|]. intros a2 ?.
    eapply safe_bind; [apply meter_new_room|]. intros a3 ?.
    eapply safe_bind; [apply histogram_new_room|]. intros a4 ?.
    eapply safe_bind; [apply meter_new_room|]. intros a5 ?.
    eapply safe_bind; [apply histogram_new_room|]. intros a6 ?.
    eapply safe_bind; [apply tracking_gauge_room|]. intros a7 ?.
    eapply safe_bind; [apply meter_new_room|]. intros a8 ?.
    eapply safe_bind; [apply meter_new_room|]. intros a9 ?.
    eapply safe_bind; [apply histogram_new_room|]. intros a10 ?. cbv zeta.
    assert (calm 0 (IStaircase (staircase_new "dropped_observations_alarm"))) by (split; [split; [repeat constructor; apply Hminute|exact I] | exact I]).
    eapply (safe_bind _ _ _ _ _ _ _ (fun n => calm 0 (INonOccurrence n))).
    { unfold non_occurrence_new. eapply safe_bind; [apply safe_now|]. intros n _. apply safe_ret.
      split; [split; [repeat constructor; apply Hminute|exact I] | exact I]. }
    intros a12 ?.
    eapply safe_bind; [apply histogram_new_room|]. intros a13 ?.
    eapply safe_bind; [apply tracking_gauge_room|]. intros a14 ?.
    apply safe_ret. unfold metrics_instruments. cbv beta in *.
    repeat (apply Forall_cons; [assumption|]). apply Forall_nil.
  Qed.

  Lemma start_room : forall V N S P T C name ds s b, C <= T -> strategy_sound k lo hi s ->
    safe (driver_start (X := X) (Y := Y) name ds s b) (driver_room k lo hi V N S P T W 0 C).
  Proof.
    intros V N S P T C name ds s b HT Hs. unfold driver_start.
    eapply (safe_bind _ _ _ _ _ _ _ (fun m => match m with Some i => Forall (calm 0) (metrics_instruments i) | None => True end)).
    { destruct b; [|apply safe_ret; exact I]. eapply safe_bind; [apply default_metrics_room|]. intros i Hi. apply safe_ret, Hi. }
    intros m Hm. eapply safe_bind; [apply safe_now|]. intros t Ht. cbv beta in Ht.
    eapply safe_bind; [apply safe_sub_instant, (manageable_down k lo hi); eassumption|]. intros l _.
    apply safe_ret. constructor; cbn [dr_processors dr_snapshooters dr_strategy dr_metrics dr_dropped_since_last_logged flat_map];
      [constructor | cbn [length]; change (Z.of_nat 0) with 0; lia | constructor | exact Hs | lia | exact Hm].
  Qed.
End Start.

Lemma parts_calm_up : forall (X : ext) k lo hi V W, V <= W -> parts_calm (X := X) k lo hi V -> parts_calm (X := X) k lo hi W.
Proof.
  intros X k lo hi V W H [A1 A2 A3]. constructor; [exact A1| |]; intros i u; (eapply safe_weak; [apply A2 || apply A3|]); cbv beta; lia.
Qed.

Lemma driver_lives : forall (X : ext) (Y : pext) k lo hi V N S P Q T R W C m (d : driver X Y) w,
  plenty V N S P Q T R W -> manageable k lo hi 0 -> hi - lo <= i64_max -> parts_calm (X := X) k lo hi V -> processors_safe k lo hi Y ->
  parts_tick X -> processors_tick Y ->
  Z.of_nat m <= R -> driver_room k lo hi V N S P T W 0 C d -> dworld_room k lo hi V N S P Q C w ->
  match run_iterations m d k w with
  | Ok r w' => exists C', dworld_room k lo hi V N S P Q C' w'
               /\ match r with Some d' => driver_room k lo hi V N S P T W (Z.of_nat m) C' d' | None => True end
  | Panic => False
  | NoFuel => True
  end.
Proof.
  intros X Y k lo hi V N S P Q T R W C m d w HE H1 H2 H3 H4 H5 H6 Hm Hd Hw.
  pose proof (parts_calm_up X k lo hi V W (proj2 (pl_value _ _ _ _ _ _ _ _ HE)) H3) as H3'.
  pose proof (iterations_room k lo hi V N S P Q T R W HE H1 H2 H3 H3' H4 H5 H6 m 0 (time w) C d (Z.le_refl 0) Hm Hd w Hw (Z.le_refl _)) as H.
  destruct (run_iterations m d k w) as [r w'| |]; auto. destruct H as (C' & _ & G1 & _ & G2). exists C'. split; [exact G1 | exact G2].
Qed.
