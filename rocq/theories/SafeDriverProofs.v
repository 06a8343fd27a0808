(** Drivers do not panic without overflow checks. *)
From Coq Require Import ZArith Bool String List Lia.
From Verif Require Import Base SpecRun MonadFacts ModelObservation ModelSnapshot ModelCounter ModelBuckets
  ModelLabelFilter ModelGauge ModelMeter ModelHistogram ModelSwitches ModelInstrument ModelTree ModelChannel
  ModelProcessor ModelDriver SpecTree SpecDriver SpecSafe TreeInd TreeEqs SafeProofs SafeTreeProofs SafeWorldProofs.
Import ListNotations.
Open Scope Z_scope.

Section Driver.
  Context {X : ext} {Y : pext}.
  Variables (k : cfg) (lo hi : Z).
  Notation safe := (safe k lo hi).
  Notation sound := (sound (X := X) k lo hi).
  Notation world_sound := (world_sound (X := X) (Y := Y) k lo hi).
  Notation dworld_sound := (dworld_sound (X := X) (Y := Y) k lo hi).
  Notation command_sound := (command_sound (X := X) (Y := Y) k lo hi).
  Hypothesis Hrel : overflow_checks k = false.
  Hypothesis Htime : manageable k lo hi 0.
  Hypothesis HX : parts_safe k lo hi X.
  Hypothesis HY : processors_safe k lo hi Y.

  Notation processor_sound := (processor_sound (X := X) (Y := Y) k lo hi).

  (** ** The driver's own metrics *)

  Lemma safe_unwrap : forall A B C (f : A -> B) (m : M (A * C)) (P : B -> Prop),
    safe (wrap f m) (fun r => P (fst r)) -> safe m (fun r => P (f (fst r))).
  Proof.
    intros A B C f m P H c Hc. destruct (H c Hc) as (r & c' & E & Hc' & HP). unfold wrap in E.
    apply bind_ok in E. destruct E as ([a x] & c1 & E1 & E). injection E as <- <-. exists (a, x), c1. auto.
  Qed.

  Lemma safe_updated : forall A B (f : A -> B) (m : M (A * Z)) (P : B -> Prop),
    safe (wrap f m) (fun r => P (fst r)) -> safe (updated m) (fun a => P (f a)).
  Proof.
    intros A B f m P H. unfold updated. eapply safe_bind; [apply safe_unwrap, H|]. intros [a n] Ha. apply safe_ret, Ha.
  Qed.

  Lemma upd_meter : forall m u, sound (IMeter m) -> safe (updated (meter_update m u)) (fun m => sound (IMeter m)).
  Proof. intros m u H. apply safe_updated. apply (instrument_update_safe k lo hi Hrel Htime HX (IMeter m) u H). Qed.
  Lemma upd_histogram : forall m u, sound (IHistogram m) ->
    safe (updated (histogram_update m u)) (fun m => sound (IHistogram m)).
  Proof. intros m u H. apply safe_updated. apply (instrument_update_safe k lo hi Hrel Htime HX (IHistogram m) u H). Qed.
  Lemma upd_gauge : forall m u, sound (IGauge m) -> safe (updated (gauge_update m u)) (fun m => sound (IGauge m)).
  Proof. intros m u H. apply safe_updated. apply (instrument_update_safe k lo hi Hrel Htime HX (IGauge m) u H). Qed.
  Lemma upd_staircase : forall m u, sound (IStaircase m) ->
    safe (updated (staircase_update m u)) (fun m => sound (IStaircase m)).
  Proof. intros m u H. apply safe_updated. apply (instrument_update_safe k lo hi Hrel Htime HX (IStaircase m) u H). Qed.
  Lemma upd_non_occurrence : forall m u, sound (INonOccurrence m) ->
    safe (updated (non_occurrence_update m u)) (fun m => sound (INonOccurrence m)).
  Proof. intros m u H. apply safe_updated. apply (instrument_update_safe k lo hi Hrel Htime HX (INonOccurrence m) u H). Qed.

  Lemma upd_if : forall A b (m : A -> M (A * Z)) a (P : A -> Prop),
    P a -> safe (updated (m a)) P -> safe (updated_if b m a) P.
  Proof. intros A [|] m a P Ha H; cbn [updated_if]; [exact H|apply safe_ret, Ha]. Qed.

  Definition metrics_sound (i : driver_instruments X) : Prop := Forall sound (metrics_instruments i).

  Ltac split_metrics H :=
    unfold metrics_sound, metrics_instruments in H;
    repeat match goal with
           | H0 : Forall _ (_ :: _) |- _ => let Ha := fresh "Ha" in let Hb := fresh "Hb" in
               apply Forall_cons_iff in H0; destruct H0 as [Ha Hb]
           end.
  Ltac join_metrics :=
    unfold metrics_sound, metrics_instruments; cbv beta in *; cbn -[SpecSafe.sound staircase_new];
    repeat (apply Forall_cons; [assumption|]); apply Forall_nil.

  Lemma post_collection_safe : forall i o t0, metrics_sound i ->
    safe (update_post_collection i o t0) metrics_sound.
  Proof.
    intros i o t0 H. split_metrics H. unfold update_post_collection.
    eapply safe_bind; [apply safe_now|]. intros t _.
    eapply safe_bind; [apply upd_meter; eassumption|]. intros a1 ?.
    eapply safe_bind; [apply safe_of_duration, Hrel|]. intros time _.
    eapply safe_bind; [apply upd_histogram; eassumption|]. intros a2 ?. cbv zeta.
    eapply safe_bind; [apply upd_if; [|apply upd_meter]; eassumption|]. intros a3 ?.
    eapply safe_bind; [apply upd_if; [|apply upd_histogram]; eassumption|]. intros a4 ?.
    eapply safe_bind; [apply upd_gauge; eassumption|]. intros a7 ?.
    eapply safe_bind; [apply upd_if; [|apply upd_meter]; eassumption|]. intros a5 ?.
    eapply safe_bind; [apply upd_if; [|apply upd_histogram]; eassumption|]. intros a6 ?.
    eapply safe_bind; [apply upd_if; [|apply upd_staircase]; eassumption|]. intros a11 ?.
    eapply safe_bind; [apply upd_if; [|apply upd_meter]; eassumption|]. intros a8 ?.
    eapply safe_bind; [apply upd_non_occurrence; eassumption|]. intros a12 ?.
    apply safe_ret. join_metrics.
  Qed.

  Lemma post_snapshot_safe : forall i t0, metrics_sound i -> safe (update_post_snapshot i t0) metrics_sound.
  Proof.
    intros i t0 H. split_metrics H. unfold update_post_snapshot.
    eapply safe_bind; [apply safe_now|]. intros t _.
    eapply safe_bind; [apply upd_meter; eassumption|]. intros a1 ?.
    eapply safe_bind; [apply safe_of_duration, Hrel|]. intros time _.
    eapply safe_bind; [apply upd_histogram; eassumption|]. intros a2 ?.
    apply safe_ret. join_metrics.
  Qed.

  Lemma run_ratio_safe : forall i r, metrics_sound i -> safe (update_run_ratio i r) metrics_sound.
  Proof.
    intros i r H. split_metrics H. unfold update_run_ratio. cbv zeta.
    eapply safe_bind; [apply safe_now|]. intros t _.
    eapply safe_bind; [apply upd_histogram; eassumption|]. intros a1 ?.
    eapply safe_bind; [apply upd_gauge; eassumption|]. intros a2 ?.
    apply safe_ret. join_metrics.
  Qed.

  Lemma put_meter : forall m de into, sound (IMeter m) -> safe (meter_put m de into) (fun r => sound (IMeter (fst r))).
  Proof. intros m de into H. apply safe_unwrap. apply (instrument_put_safe k lo hi Hrel Htime HX (IMeter m) de into H). Qed.
  Lemma put_gauge : forall m de into, sound (IGauge m) -> safe (gauge_put m de into) (fun r => sound (IGauge (fst r))).
  Proof. intros m de into H. apply safe_unwrap. apply (instrument_put_safe k lo hi Hrel Htime HX (IGauge m) de into H). Qed.

  Lemma safe_unkeep : forall A C (a : A) (m : M C) P, safe (keep a m) P -> safe m (fun _ => True).
  Proof.
    intros A C a m P H c Hc. destruct (H c Hc) as (r & c' & E & Hc' & _). unfold keep in E.
    apply bind_ok in E. destruct E as (x & c1 & E1 & E). injection E as _ <-. exists x, c1. auto.
  Qed.
  Lemma put_staircase : forall m de into, sound (IStaircase m) -> safe (staircase_put m de into) (fun _ => True).
  Proof. intros m de into H. eapply safe_unkeep, (instrument_put_safe k lo hi Hrel Htime HX (IStaircase m) de into H). Qed.
  Lemma put_non_occurrence : forall m de into, sound (INonOccurrence m) -> safe (non_occurrence_put m de into) (fun _ => True).
  Proof. intros m de into H. eapply safe_unkeep, (instrument_put_safe k lo hi Hrel Htime HX (INonOccurrence m) de into H). Qed.

  Lemma instruments_put_safe : forall i de into, metrics_sound i ->
    safe (instruments_put i de into) (fun r => metrics_sound (fst r)).
  Proof.
    intros i de into H. split_metrics H. unfold instruments_put. cbv zeta.
    eapply safe_bind; [apply put_meter; eassumption|]. intros [a1 c1] ?.
    eapply safe_bind; [apply safe_histogram_put; assumption|]. intros c2 _.
    eapply safe_bind; [apply put_meter; eassumption|]. intros [a3 c3] ?.
    eapply safe_bind; [apply safe_histogram_put; assumption|]. intros c4 _.
    eapply safe_bind; [apply put_meter; eassumption|]. intros [a5 c5] ?.
    eapply safe_bind; [apply safe_histogram_put; assumption|]. intros c6 _.
    eapply safe_bind; [apply put_gauge; eassumption|]. intros [a7 c7] ?.
    eapply safe_bind; [apply put_meter; eassumption|]. intros [a8 c8] ?.
    eapply safe_bind; [apply put_meter; eassumption|]. intros [a9 c9] ?.
    eapply safe_bind; [apply safe_histogram_put; assumption|]. intros c10 _.
    eapply safe_bind; [apply put_staircase; eassumption|]. intros c11 _.
    eapply safe_bind; [apply put_non_occurrence; eassumption|]. intros c12 _.
    eapply safe_bind; [apply put_gauge; eassumption|]. intros [a14 c14] ?.
    eapply safe_bind; [apply safe_histogram_put; assumption|]. intros c13 _.
    cbn [fst] in *. apply safe_ret. join_metrics.
  Qed.

  Definition opt_metrics_sound (m : option (driver_instruments X)) : Prop :=
    match m with Some i => metrics_sound i | None => True end.

  Lemma elapsed_stats_safe : forall t r m, opt_metrics_sound m -> safe (report_elapsed_stats t r m) opt_metrics_sound.
  Proof.
    intros t r [i|] H; cbn [report_elapsed_stats]; [|apply safe_ret, H].
    eapply safe_bind; [apply safe_elapsed|]. intros e _. cbv zeta. destruct (f64_ltb _ _); [|apply safe_ret, H].
    eapply safe_bind; [apply run_ratio_safe, H|]. intros i' Hi. apply safe_ret, Hi.
  Qed.

  (** ** Snapshots *)

  Notation driver_sound := (driver_sound (X := X) (Y := Y) k lo hi).

  Lemma driver_sound_iff : forall d, driver_sound d <->
    (Forall processor_sound (dr_processors d)
     /\ Forall (snapshooter_sound k lo hi) (dr_snapshooters d) /\ opt_metrics_sound (dr_metrics d))
    /\ strategy_sound k lo hi (dr_strategy d).
  Proof.
    intros d. unfold driver_sound, driver_all_instruments. rewrite !Forall_app, !Forall_flat_map.
    unfold opt_metrics_sound, metrics_sound. destruct (dr_metrics d); [reflexivity|]. rewrite Forall_nil_iff. reflexivity.
  Qed.

  Lemma snapshot_values_safe : forall d de t0 into, driver_sound d ->
    safe (add_snapshot_values d de t0 into) (fun r => driver_sound (fst r)).
  Proof.
    intros d de t0 into H. apply driver_sound_iff in H. destruct H as ((Hp & Hs & Hm) & Hst). unfold add_snapshot_values.
    cbv zeta. eapply safe_bind.
    { apply (put_list k lo hi _ processor_sound); [|exact Hp]. apply Forall_forall. intros x _.
      apply (processor_put_safe k lo hi Hrel Htime HX HY). }
    intros [ps i1] H1. eapply safe_bind; [apply snapshooters_put_safe; eassumption|]. intros [ss i2] H2.
    destruct (dr_metrics d) as [i|]; [|apply safe_ret, driver_sound_iff; cbn; auto].
    eapply safe_bind; [apply post_snapshot_safe, Hm|]. intros i' Hi.
    eapply safe_bind; [apply instruments_put_safe, Hi|]. intros [i'' i3] Hi'.
    apply safe_ret, driver_sound_iff. cbn. auto.
  Qed.

  Lemma driver_snapshot_safe : forall d de into, driver_sound d ->
    safe (put_values_into_snapshot d de into) (fun r => driver_sound (fst r)).
  Proof.
    intros d de into H. unfold put_values_into_snapshot. eapply safe_bind; [apply safe_now|]. intros t _.
    destruct (dr_name d); [|apply snapshot_values_safe, H].
    eapply safe_bind; [apply snapshot_values_safe, H|]. intros [d' s'] Hd. apply safe_ret, Hd.
  Qed.

  (** ** The thread *)

  Definition dsafe {A} (m : St (dworld X Y) A) (P : A -> Prop) : Prop :=
    forall w, dworld_sound w ->
      match m k w with Ok a w' => dworld_sound w' /\ P a | Panic => False | NoFuel => True end.

  Lemma dsafe_ret : forall A (a : A) (P : A -> Prop), P a -> dsafe (ret a) P.
  Proof. intros A a P H w Hw. cbn. auto. Qed.

  Lemma dsafe_bind : forall A B (m : St (dworld X Y) A) (f : A -> St (dworld X Y) B) P Q,
    dsafe m P -> (forall a, P a -> dsafe (f a) Q) -> dsafe (bind m f) Q.
  Proof.
    intros A B m f P Q Hm Hf w Hw. unfold bind. specialize (Hm w Hw). destruct (m k w) as [a w1| |]; auto.
    destruct Hm as [Hw1 Ha]. apply Hf; assumption.
  Qed.

  Lemma dsafe_in : forall A (m : St (world X Y) A) (P : A -> Prop), wsafe k lo hi m P -> dsafe (in_world m) P.
  Proof.
    intros A m P H w [H1 H2 H3]. unfold in_world. specialize (H _ H1). destruct (m k (dw_world w)) as [a w'| |]; auto.
    destruct H as [Hw Ha]. split; [|exact Ha]. constructor; assumption.
  Qed.

  Lemma dsafe_timed : forall A (m : M A) (P : A -> Prop), safe m P -> dsafe (timed m) P.
  Proof. intros A m P H. apply dsafe_in, wsafe_lift, H. Qed.

  Lemma dsafe_arith : forall l h w r, dsafe (arith l h w r) (fun _ => True).
  Proof. intros l h wr r w Hw. unfold arith. destruct (_ && _); [auto|]. rewrite Hrel. auto. Qed.

  Lemma client_sound : forall a w, dworld_sound w -> (forall c, a = Call c -> command_sound c) ->
    dworld_sound (client_act w a).
  Proof.
    intros a w [H1 H2 H3] Ha.
    assert (Hb : forall m, (forall x, In x (action_messages m) -> command_sound x) -> forall n b,
      dworld_sound (dw_with w (chan_act (dw_commands w) m) n b)).
    { intros m Hm n b. constructor; cbn; auto. intros c Hc. apply act_messages in Hc. destruct Hc; auto. }
    assert (H0 : dworld_sound w) by (constructor; assumption).
    destruct a as [c| | |]; cbn [client_act].
    - destruct (dw_guards w); [exact H0|]. apply Hb. cbn. intros x [<-|[]]. apply Ha. reflexivity.
    - destruct (dw_guards w); [exact H0|]. apply Hb. cbn. intros x [].
    - destruct (dw_guards w) as [|[|n]]; [exact H0|constructor; assumption|constructor; assumption].
    - destruct (_ <? _)%nat; [|exact H0]. apply Hb. cbn. intros x [].
  Qed.

  Lemma clients_sound : forall l w, dworld_sound w -> (forall c, In (Call c) l -> command_sound c) ->
    dworld_sound (fold_left client_act l w).
  Proof.
    induction l as [|a l IH]; intros w Hw Hl; cbn [fold_left]; [exact Hw|]. apply IH.
    - apply client_sound; [exact Hw|]. intros c ->. apply Hl. left. reflexivity.
    - intros c Hc. apply Hl. right. exact Hc.
  Qed.

  Lemma dsafe_clients : dsafe clients (fun _ => True).
  Proof.
    intros w Hw. unfold clients. cbv zeta. split; [|exact I].
    assert (H : dworld_sound (fold_left client_act (dw_sched w O) w)).
    { apply clients_sound; [exact Hw|]. intros c Hc. destruct Hw. eapply ws_actions, Hc. }
    destruct H. constructor; cbn; auto. intros n c Hc. eapply ws_actions, Hc.
  Qed.

  Lemma dsafe_running : dsafe load_running (fun _ => True).
  Proof. unfold load_running. eapply dsafe_bind; [apply dsafe_clients|]. intros _ _ w Hw. auto. Qed.

  Lemma dsafe_command : dsafe command_try_recv (fun r => forall c, r = Message c -> command_sound c).
  Proof.
    unfold command_try_recv. eapply dsafe_bind; [apply dsafe_clients|]. intros _ _ w Hw.
    destruct (chan_try_recv (dw_commands w)) as [c r] eqn:E. apply recv_messages in E. destruct E as [E1 E2].
    destruct Hw. split; [constructor; cbn; auto|]. intros m Hm. auto.
  Qed.

  Lemma dsafe_hang_up : dsafe hang_up (fun _ => True).
  Proof.
    intros w [H1 H2 H3]. cbn -[chan_drop_receiver]. split; [|exact I]. constructor; cbn; auto.
    intros c Hc. apply H2. unfold chan_messages in *. cbn in Hc. rewrite app_nil_r in Hc. apply in_app_iff. auto.
  Qed.

  Lemma driver_command_safe : forall d c, driver_sound d -> command_sound c -> dsafe (driver_command d c) driver_sound.
  Proof.
    intros d c Hd Hc. pose proof Hd as H. apply driver_sound_iff in H. destruct H as ((Hp & Hs & Hm) & Hst).
    assert (Hsnap : forall into b de, dsafe (let* '(d, s) := timed (put_values_into_snapshot d de into) in
        let* _ := answer b s in ret d) driver_sound).
    { intros into b de. eapply dsafe_bind; [apply dsafe_timed, driver_snapshot_safe, Hd|]. intros [d' s] Hd'.
      eapply (dsafe_bind _ _ _ _ (fun _ => True)); [|intros _ _; apply dsafe_ret, Hd'].
      intros w [H1 H2 H3]. cbn. split; [constructor; assumption|exact I]. }
    destruct c as [p|s|into b de|into b de|s| |]; cbn [driver_command]; try apply Hsnap; apply dsafe_ret, driver_sound_iff;
      cbn in Hc |- *; rewrite ?Forall_app; auto 10.
  Qed.

  Lemma do_a_run_safe : forall ps max s, Forall processor_sound ps -> strategy_sound k lo hi s ->
    wsafe k lo hi (do_a_run ps max s) (fun r => Forall processor_sound (fst r)).
  Proof.
    intros ps max s Hp Hs. unfold do_a_run.
    assert (H : wsafe k lo hi (traverse (collect_one (fun p => processor_process (fuel k) p max s)) ps outcome_default)
      (fun r => Forall processor_sound (fst r))); [|exact H].
    apply wsafe_traverse. eapply Forall_impl; [|exact Hp]. cbv beta. intros p Hpp acc.
    apply collect_one_safe; [exact Hrel|]. apply processor_process_safe; assumption.
  Qed.

  Lemma driver_run_safe : forall d t0, driver_sound d -> dsafe (driver_run d t0) driver_sound.
  Proof.
    intros d t0 Hd. apply driver_sound_iff in Hd. destruct Hd as ((Hp & Hs & Hm) & Hst). unfold driver_run.
    eapply dsafe_bind; [apply dsafe_timed, safe_now|]. intros t _.
    eapply dsafe_bind; [apply dsafe_in, do_a_run_safe; assumption|]. intros [ps o] Hps. cbn [fst] in Hps. cbv zeta.
    eapply dsafe_bind; [apply dsafe_timed, safe_elapsed|]. intros rt _.
    eapply dsafe_bind; [apply dsafe_arith|]. intros dropped _.
    eapply (dsafe_bind _ _ _ _ driver_sound).
    { set (d' := driver_with d ps (dr_snapshooters d) (dr_metrics d)).
      assert (H : forall a b, driver_sound (driver_set_log d' a b)).
      { intros a b. apply driver_sound_iff. cbn. auto. }
      destruct (0 <? dropped); [|apply dsafe_ret, H].
      eapply dsafe_bind; [apply dsafe_timed, safe_elapsed|]. intros e _.
      destruct (_ <? e); [|apply dsafe_ret, H].
      eapply dsafe_bind; [apply dsafe_timed, safe_now|]. intros n _. apply dsafe_ret, H. }
    intros d' Hd'. clear Hp Hs Hm Hst Hps. apply driver_sound_iff in Hd'. destruct Hd' as ((Hp & Hs & Hm) & Hst).
    eapply (dsafe_bind _ _ _ _ opt_metrics_sound).
    { destruct (dr_metrics d') as [i|]; [|apply dsafe_ret; exact I].
      eapply dsafe_bind; [apply dsafe_timed, post_collection_safe, Hm|]. intros i' Hi. apply dsafe_ret. exact Hi. }
    intros m Hm'. assert (H : forall m, opt_metrics_sound m -> driver_sound (driver_with d' (dr_processors d') (dr_snapshooters d') m)).
    { intros m0 H0. apply driver_sound_iff. cbn. auto. }
    destruct (_ || _); [apply dsafe_ret, H, Hm'|].
    eapply dsafe_bind; [apply dsafe_timed, safe_now|]. intros n _.
    eapply dsafe_bind; [apply dsafe_timed, elapsed_stats_safe, Hm'|]. intros m' Hm''. apply dsafe_ret, H, Hm''.
  Qed.

  Lemma driver_iteration_safe : forall d, driver_sound d -> dsafe (driver_iteration d) (fun r => driver_sound (fst r)).
  Proof.
    intros d Hd. unfold driver_iteration. eapply dsafe_bind; [apply dsafe_running|]. intros [|] _; cbn [negb].
    - eapply dsafe_bind; [apply dsafe_timed, safe_now|]. intros t _.
      eapply dsafe_bind; [apply dsafe_command|]. intros r Hr. cbv beta in Hr.
      assert (H : forall d', driver_sound d' -> dsafe (if dr_paused d' then ret (d', true)
          else let* d := driver_run d' t in ret (d, true)) (fun r => driver_sound (fst r))).
      { intros d' Hd'. destruct (dr_paused d'); [apply dsafe_ret, Hd'|].
        eapply dsafe_bind; [apply driver_run_safe, Hd'|]. intros d'' Hd''. apply dsafe_ret, Hd''. }
      destruct r as [c| |].
      + eapply dsafe_bind; [apply driver_command_safe; [exact Hd|apply Hr; reflexivity]|]. intros d' Hd'. apply H, Hd'.
      + eapply dsafe_bind; [apply dsafe_ret, Hd|]. intros d' Hd'. apply H, Hd'.
      + eapply dsafe_bind; [apply dsafe_hang_up|]. intros _ _. apply dsafe_ret, Hd.
    - eapply dsafe_bind; [apply dsafe_hang_up|]. intros _ _. apply dsafe_ret, Hd.
  Qed.

  Lemma run_iterations_safe : forall n d, driver_sound d ->
    dsafe (run_iterations n d) (fun r => match r with Some d => driver_sound d | None => True end).
  Proof.
    induction n as [|n IH]; intros d Hd; cbn [run_iterations]; [apply dsafe_ret, Hd|].
    eapply dsafe_bind; [apply driver_iteration_safe, Hd|]. intros [d' [|]] Hd'; [apply IH, Hd'|].
    apply dsafe_ret. exact I.
  Qed.

  (** ** What constructors yield *)

  Lemma meter_new_safe : forall al name, manageable k lo hi (5 * nanos_per_sec) ->
    safe (meter_new al name) (fun m => sound (IMeter m)).
  Proof.
    intros al name H. unfold meter_new, std_meter_default. eapply safe_bind; [apply safe_now|]. intros t _.
    eapply (safe_bind _ _ _ _ _ _ _ (fun _ => True)).
    { eapply safe_bind; [apply safe_now|]. intros n Hn. cbv beta in Hn.
      eapply safe_bind; [apply safe_add_instant, (manageable_up k lo hi); eassumption|]. intros ? _. apply safe_done. }
    intros s _. apply safe_ret. split; [repeat constructor; apply H|exact I].
  Qed.

  Lemma histogram_new_safe : forall name, safe (histogram_new (ex_histo X) name) (fun h => sound (IHistogram h)).
  Proof.
    intros name. unfold histogram_new. eapply safe_bind; [apply (ps_histo_new _ _ _ _ HX)|]. intros h _.
    eapply safe_bind; [apply safe_now|]. intros t _. apply safe_ret. split; [constructor|exact I].
  Qed.

  Lemma set_tracking_safe : forall g n, sound (IGauge g) -> safe (gauge_set_tracking g n) (fun g => sound (IGauge g)).
  Proof.
    intros g [|n] H; cbn [gauge_set_tracking]; [apply safe_ret, H|]. unfold buckets_new, buckets_initialized.
    eapply (safe_bind _ _ _ _ _ _ _ (fun b => (b_current_idx b < length (b_buckets b))%nat)).
    { eapply safe_bind; [apply safe_now|]. intros t _. apply safe_ret. cbn. clear. lia. }
    intros b Hb. apply safe_ret. split; [constructor|exact Hb].
  Qed.

  Lemma tracking_gauge_safe : forall name, safe (tracking_gauge name) (fun g => sound (IGauge g)).
  Proof.
    intros name. unfold tracking_gauge.
    eapply safe_bind; [apply set_tracking_safe; split; [constructor|exact I]|]. intros g Hg. apply safe_ret.
    destruct Hg as [_ Hg]. split; [constructor|exact Hg].
  Qed.

  Hypothesis Hfive : manageable k lo hi (5 * nanos_per_sec).
  Hypothesis Hminute : manageable k lo hi (60 * nanos_per_sec).

  Lemma default_metrics_safe : safe (driver_instruments_default (X := X)) metrics_sound.
  Proof.
    unfold driver_instruments_default.
    eapply safe_bind; [apply meter_new_safe, Hfive|]. intros a1 ?.
    eapply safe_bind; [apply histogram_new_safe|]. intros a2 ?.
    eapply safe_bind; [apply meter_new_safe, Hfive|]. intros a3 ?.
    eapply safe_bind; [apply histogram_new_safe|]. intros a4 ?.
    eapply safe_bind; [apply meter_new_safe, Hfive|]. intros a5 ?.
    eapply safe_bind; [apply histogram_new_safe|]. intros a6 ?.
    eapply safe_bind; [apply tracking_gauge_safe|]. intros a7 ?.
    eapply safe_bind; [apply meter_new_safe, Hfive|]. intros a8 ?.
    eapply safe_bind; [apply meter_new_safe, Hfive|]. intros a9 ?.
    eapply safe_bind; [apply histogram_new_safe|]. intros a10 ?. cbv zeta.
    assert (sound (IStaircase (staircase_new "dropped_observations_alarm"))) by (split; [repeat constructor; apply Hminute|exact I]).
    eapply (safe_bind _ _ _ _ _ _ _ (fun n => sound (INonOccurrence n))).
    { unfold non_occurrence_new. eapply safe_bind; [apply safe_now|]. intros n _. apply safe_ret.
      split; [repeat constructor; apply Hminute|exact I]. }
    intros a12 ?.
    eapply safe_bind; [apply histogram_new_safe|]. intros a13 ?.
    eapply safe_bind; [apply tracking_gauge_safe|]. intros a14 ?.
    apply safe_ret. join_metrics.
  Qed.

  Lemma driver_start_safe : forall name ds s b, strategy_sound k lo hi s ->
    safe (driver_start (X := X) (Y := Y) name ds s b) driver_sound.
  Proof.
    intros name ds s b Hs. unfold driver_start. eapply (safe_bind _ _ _ _ _ _ _ opt_metrics_sound).
    { destruct b; [|apply safe_ret; exact I]. eapply safe_bind; [apply default_metrics_safe|]. intros i Hi.
      apply safe_ret, Hi. }
    intros m Hm. eapply safe_bind; [apply safe_now|]. intros t Ht. cbv beta in Ht.
    eapply safe_bind; [apply safe_sub_instant, (manageable_down k lo hi); eassumption|]. intros l _.
    apply safe_ret, driver_sound_iff. cbn. auto.
  Qed.
End Driver.
