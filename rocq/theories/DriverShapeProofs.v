(** The driver's snapshot and the alarms in it. *)
From Coq Require Import ZArith Bool String List Lia.
From Verif Require Import Base SpecRun MonadFacts SpecClock ClockProofs ModelObservation ModelSnapshot ModelGauge ModelMeter
  ModelHistogram ModelSwitches ModelInstrument ModelTree ModelChannel ModelProcessor ModelDriver SpecWriting WritingProofs AppendProofs
  SpecActivity WorldClockProofs TreeInd SpecQueue QueueProofs SpecCollect CollectProofs GroupProofs SpecDriver DriverProofs DriverLoopProofs DriverMetricsProofs.
Import ListNotations.
Open Scope string_scope.
Open Scope list_scope.
Open Scope Z_scope.

(** ** Shape *)

Section Shape.
  Context {X : ext} {Y : pext}.

  Lemma traverse_in_turn : forall A (put : A -> snapshot -> M (A * snapshot)) l into k c l' s c',
    (forall a into, grows into (put a into)) ->
    traverse put l into k c = Ok (l', s) c' ->
    exists pieces, in_turn k put l into c l' pieces c' /\ s = into ++ concat pieces.
  Proof.
    intros A put l. induction l as [|a l IH]; intros into k c l' s c' H E; cbn [traverse] in E.
    - injection E as <- <- <-. exists []. split; [constructor | rewrite app_nil_r; reflexivity].
    - apply bind_ok in E. destruct E as ([a' s1] & c1 & E1 & E). apply bind_ok in E. destruct E as ([l1 s2] & c2 & E2 & E).
      injection E as <- <- <-. destruct (H _ _ _ _ _ _ _ E1) as (piece & ->).
      destruct (IH _ _ _ _ _ _ H E2) as (pieces & T & ->). exists (piece :: pieces). split; [econstructor; eassumption|].
      cbn [concat]. rewrite app_assoc. reflexivity.
  Qed.

  Lemma described_text : forall ds into d, exists texts, put_default_descriptives ds into d = into ++ texts
    /\ (d = false -> texts = []) /\ (d = true -> adds_texts (keys into) [] texts)
    /\ (d = true -> into = [] -> title_of ds texts).
  Proof.
    intros ds into [].
    - destruct (default_added ds into) as (t & E & H). exists t. split; [exact E|]. split; [discriminate|]. split; [auto|].
      intros _ ->. cbn [app] in E. rewrite <- E. apply described_title; reflexivity.
    - exists []. rewrite app_nil_r. split; [reflexivity|]. split; [auto|]. split; discriminate.
  Qed.

  Context (HX : parts_append X) (HY : forall u, appends (user_proc_put Y u)).

  Lemma values_shape : forall (d : driver X Y) de st level k c d' s c',
    add_snapshot_values d de st level k c = Ok (d', s) c' ->
    exists body, s = level ++ body /\ consists_of k d de level c d' body.
  Proof.
    intros d de st level k c d' s c' E. unfold add_snapshot_values in E. cbv zeta in E.
    destruct (described_text (dr_descr d) level de) as (texts & Et & T1 & T2 & T3). rewrite Et in E.
    apply bind_ok in E. destruct E as ([ps s1] & c1 & E1 & E). apply bind_ok in E. destruct E as ([ss s2] & c2 & E2 & E).
    apply traverse_in_turn in E1; [|intros a into; exact (proj1 (processor_appends HX Y HY) a de into)].
    destruct E1 as (pieces & I1 & ->).
    apply traverse_in_turn in E2; [|intros a into; exact (proj2 (proj2 (proj2 (tree_appends HX))) a de into)].
    destruct E2 as (pieces' & I2 & ->). rewrite <- app_assoc in I2.
    assert (R : forall metrix, ((level ++ texts) ++ concat pieces) ++ concat pieces' ++ metrix
      = level ++ texts ++ concat pieces ++ concat pieces' ++ metrix) by (intros; rewrite <- !app_assoc; reflexivity).
    destruct (dr_metrics d) as [i|] eqn:M.
    - apply bind_ok in E. destruct E as (i1 & c3 & E3 & E). apply bind_ok in E. destruct E as ([i2 s3] & c4 & E4 & E).
      injection E as <- <- <-. cbn [driver_with dr_processors dr_snapshooters].
      assert (P : exists inner, s3 = (((level ++ texts) ++ concat pieces) ++ concat pieces') ++ [("_metrix", ItemSnapshot inner)]).
      { unfold instruments_put in E4. cbv zeta in E4.
        do 14 (apply bind_ok in E4; destruct E4 as (? & ? & _ & E4);
               match type of E4 with (match ?y with (_, _) => _ end) _ _ = _ => destruct y | _ => idtac end).
        injection E4 as _ <- _. eexists. reflexivity. }
      destruct P as (inner & ->). exists (texts ++ concat pieces ++ concat pieces' ++ [("_metrix", ItemSnapshot inner)]).
      split; [rewrite <- R, <- app_assoc; reflexivity|]. exists texts, pieces, c1, pieces', c2, [("_metrix", ItemSnapshot inner)].
      cbn [driver_with dr_processors dr_snapshooters]. rewrite M. do 6 (split; [auto; fail|]). split; [discriminate | eauto].
    - injection E as <- <- <-. exists (texts ++ concat pieces ++ concat pieces' ++ []).
      split; [rewrite <- R, app_nil_r; reflexivity|]. exists texts, pieces, c1, pieces', c2, [].
      cbn [driver_with dr_processors dr_snapshooters]. rewrite M. do 6 (split; [auto; fail|]). split; [auto | congruence].
  Qed.

  Lemma snapshot_shape : forall (d : driver X Y) de into k c d' s c',
    put_values_into_snapshot d de into k c = Ok (d', s) c' ->
    exists body, shows_on_level d into body s /\ consists_of k d de (level_of d into) (clock_tail c) d' body.
  Proof.
    intros d de into k c d' s c' E. unfold put_values_into_snapshot in E.
    apply bind_ok in E. destruct E as (st & c0 & E0 & E). rewrite now_eq in E0. injection E0 as <- <-.
    unfold shows_on_level, level_of. destruct (dr_name d) as [n|].
    - apply bind_ok in E. destruct E as ([d1 l] & c1 & E1 & E). injection E as <- <- <-.
      destruct (values_shape _ _ _ _ _ _ _ _ _ E1) as (body & -> & B). exists body. split; [reflexivity | exact B].
    - exact (values_shape _ _ _ _ _ _ _ _ _ E).
  Qed.
End Shape.

(** ** Histories *)

Section History.
  Context {X : ext} {Y : pext}.
  Implicit Types (d : driver X Y) (w : dworld X Y).

  Lemma iterates_history : forall k n d w d' w', iterates k n d w d' w' <-> exists log, history k n d w log d' w'.
  Proof.
    intros k n d w d' w'. split.
    - intros H. induction H as [d w|n d w d1 w1 d2 w2 E H (log & IH)]; [exists []; constructor|].
      unfold driver_iteration in E.
      apply bind_ok in E. destruct E as (b & wa & E1 & E). destruct b; cbn [negb] in E.
      2: { apply bind_ok in E. destruct E as (u & wx & _ & E). discriminate E. }
      apply bind_ok in E. destruct E as (t0 & wb & E2 & E). apply bind_ok in E. destruct E as (r & wc & E3 & E).
      assert (D : r <> Disconnected).
      { intros ->. apply bind_ok in E. destruct E as (u & wx & _ & E). discriminate E. }
      assert (E' : (let* d := match r with Message c => driver_command d c | _ => ret d end in
        if dr_paused d then ret (d, true) else let* d := driver_run d t0 in ret (d, true)) k wc = Ok (d1, true) w1).
      { destruct r; [exact E | exact E | destruct (D eq_refl)]. }
      clear E. apply bind_ok in E'. destruct E' as (dm & wd & E4 & E). destruct (dr_paused dm) eqn:P.
      + injection E as <- <-. exists ([] ++ log). eapply hi_step; eauto. constructor. exact P.
      + apply bind_ok in E. destruct E as (d3 & w3 & E5 & E). injection E as <- <-. assert (E5' := E5).
        unfold driver_run in E5'. apply bind_ok in E5'. destruct E5' as (t & we & E6 & E5').
        apply in_world_inv in E6. destruct E6 as (v1 & E6 & ->).
        apply bind_ok in E5'. destruct E5' as ([ps o] & wf & E7 & _). apply in_world_inv in E7.
        destruct E7 as (v2 & E7 & _). exists ([(w_clock v2 O, o, w_clock (dw_world w3) O)] ++ log).
        eapply hi_step; eauto. eapply co_collects; eauto.
    - intros (log & H). induction H as [d w|n d w wa t0 wb r wc dm wd e d1 w1 log d2 w2 E1 E2 E3 D E4 C H IH]; [constructor|].
      eapply it_step; [|exact IH]. unfold driver_iteration, bind at 1. rewrite E1. cbn [negb].
      unfold bind at 1. rewrite E2. unfold bind at 1. rewrite E3.
      assert (G : (let* d := match r with Message c => driver_command d c | _ => ret d end in
        if dr_paused d then ret (d, true) else let* d := driver_run d t0 in ret (d, true)) k wc = Ok (d1, true) w1).
      { unfold bind at 1. rewrite E4. destruct C as [dx tx wx P|dx tx wx dy wy t v1 ps o v2 P R _ _]; rewrite P; [reflexivity|].
        unfold bind. rewrite R. reflexivity. }
      destruct r; [exact G | exact G | destruct (D eq_refl)].
  Qed.

  Lemma history_definite : forall k n d w log d1 w1, history k n d w log d1 w1 ->
    forall log' d1' w1', history k n d w log' d1' w1' -> log' = log /\ d1' = d1 /\ w1' = w1.
  Proof.
    intros k n d w log d1 w1 H. induction H as [d w|n d w wa t0 wb r wc dm wd e d1 w1 log d2 w2 E1 E2 E3 D E4 C H IH];
      intros log' d1' w1' H'.
    - inversion H'. subst. auto.
    - inversion H' as [|n' d' w' wa' t0' wb' r' wc' dm' wd' e' dx wx logx dy wy F1 F2 F3 F4 F5 C' Hx]. subst.
      rewrite E1 in F1. injection F1 as <-. rewrite E2 in F2. injection F2 as <- <-. rewrite E3 in F3. injection F3 as <- <-.
      rewrite E4 in F5. injection F5 as <- <-.
      assert (Ce : e' = e /\ dx = d1 /\ wx = w1).
      { clear - C C'. destruct C as [d t0 w P|d t0 w d1 w1 t v1 ps o v2 P R E1 E2];
          inversion C' as [d' t0' w' P'|d' t0' w' d1' w1' t' v1' ps' o' v2' P' R' E1' E2']; subst; auto; try congruence.
        rewrite R in R'. injection R' as <- <-. rewrite E1 in E1'. injection E1' as <- <-. rewrite E2 in E2'. injection E2' as <- <- <-. auto. }
      destruct Ce as (-> & -> & ->). destruct (IH _ _ _ Hx) as (-> & -> & ->). auto.
  Qed.

  Lemma later_first : forall c c', monotone c -> later c c' -> c O <= c' O.
  Proof. intros c c' H (n & E). rewrite E. apply monotone_le; [exact H | lia]. Qed.
  Lemma later_monotone : forall c c', monotone c -> later c c' -> monotone c'.
  Proof. intros c c' H (n & E) i. rewrite !E. apply monotone_le; [exact H | lia]. Qed.

  Lemma clients_world : forall k w u w1, clients k w = Ok u w1 -> dw_world w1 = dw_world w.
  Proof.
    intros k w u w1 E. unfold clients in E. injection E as _ <-. cbn [dw_world].
    assert (G : forall l w, dw_world (fold_left client_act l w) = dw_world w).
    { induction l as [|a l IH]; intros v; [reflexivity|]. cbn [fold_left]. rewrite IH. apply client_act_others. }
    apply G.
  Qed.

  Context (HX : parts_tick X) (HY : processors_tick Y).

  Lemma do_a_run_wticks : forall ps max s, wticks (do_a_run (X := X) (Y := Y) ps max s).
  Proof.
    intros ps max s k w a w' E. unfold do_a_run in E.
    refine (wticks_traverse _ _ _ _ _ _ k w a w' E). intros x st. unfold collect_one.
    apply wticks_bind; [apply processor_process_wticks; assumption|]. intros [p o].
    apply wticks_bind; [apply combine_wticks|]. intros. apply wticks_ret.
  Qed.

  Definition metrics_ok d : Prop := forall i, dr_metrics d = Some i -> metrix_ok i.

  Lemma processor_put_ticks :
    (forall p : processor X Y, forall de into, ticks (processor_put p de into))
    /\ (forall m : mount X Y, forall de into, ticks (mount_put m de into)).
  Proof.
    destruct (tree_put_ticks HX) as (_ & _ & _ & Ls). apply processor_ind'.
    - intros t de into. apply ticks_wrap, (tele_put_ticks HX).
    - intros m H de into. apply ticks_wrap, H.
    - intros r m H de into. apply ticks_wrap, H.
    - intros h de into. apply ticks_wrap. unfold driver_put. apply ticks_bind; [apply (pt_driver_snapshot Y HY)|].
      intros [? ?]. apply ticks_ret.
    - intros u de into. apply ticks_wrap, (pt_proc_put Y HY).
    - intros d ps ss Hp de into. cbn [mount_put]. apply named_ticks. intros. apply activity_ticks. intros.
      apply ticks_bind. { apply ticks_traverse. eapply Forall_impl; [|exact Hp]. cbv beta. auto. }
      intros [? ?]. apply ticks_bind. { apply ticks_traverse. apply Forall_forall. auto. }
      intros [? ?]. apply ticks_ret.
  Qed.

  (** The snapshot of a driver and the alarms it shows. *)
  Lemma values_alarms : forall d de st level k c d' s c', metrics_ok d ->
    add_snapshot_values d de st level k c = Ok (d', s) c' ->
    later c c' /\ metrics_ok d'
    /\ (dr_metrics d = None -> dr_metrics d' = None)
    /\ forall i, dr_metrics d = Some i -> exists i', dr_metrics d' = Some i' /\ alarms_same i i'
       /\ exists before inner c1 c2, s = before ++ [("_metrix", ItemSnapshot inner)]
            /\ keys inner = metrix_names
            /\ later c c1 /\ later c1 c'
            /\ lookup "dropped_observations_alarm" inner
               = Some (Boolean (match st_stay_on_until (di_dropped_observations_alarm i) with Some u => c1 O <=? u | None => false end))
            /\ later c c2 /\ later c2 c'
            /\ lookup "inactivity_alarm" inner = Some (Boolean (ni_happened_last (di_inactivity_alarm i) <=? c2 O - 60 * nanos_per_sec)).
  Proof.
    intros d de st level k c d' s c' Hd E. unfold add_snapshot_values in E. cbv zeta in E.
    apply bind_ok in E. destruct E as ([ps s1] & c1 & E1 & E). apply bind_ok in E. destruct E as ([ss s2] & c2 & E2 & E).
    assert (L2 : later c c2).
    { eapply later_trans.
      - refine (ticks_traverse _ _ _ _ _ _ _ _ _ _ E1). apply Forall_forall. intros x _ s0. apply processor_put_ticks.
      - refine (ticks_traverse _ _ _ _ _ _ _ _ _ _ E2). apply Forall_forall. intros x _ s0. apply (tree_put_ticks HX). }
    destruct (dr_metrics d) as [i|] eqn:M.
    - apply bind_ok in E. destruct E as (i1 & c3 & E3 & E). apply bind_ok in E. destruct E as ([i2 s3] & c4 & E4 & E).
      injection E as <- <- <-. destruct (post_snapshot HX _ _ _ _ _ _ (Hd _ M) E3) as (O1 & L3 & A1 & A2).
      destruct (put_instruments _ _ _ _ _ _ _ _ O1 E4) as (O2 & L4 & (B1 & B2) & inner & c5 & c6 & -> & K & P1 & P2 & P3 & P4 & P5 & P6).
      assert (L23 : later c c3) by exact (later_trans _ _ _ L2 L3).
      split; [exact (later_trans _ _ _ L23 L4)|]. split; [intros j J; injection J as <-; exact O2|]. split; [discriminate|].
      intros j J. injection J as <-. exists i2. split; [reflexivity|]. split; [split; congruence|].
      exists s2, inner, c5, c6. rewrite A1 in P3. rewrite A2 in P6.
      repeat (split; [solve [auto | eapply later_trans; eassumption]|]). exact P6.
    - injection E as <- <- <-. split; [exact L2|]. split; [intros j J; discriminate J|]. split; [auto|]. discriminate.
  Qed.

  Lemma snapshot_alarms : forall d de into k c d' s c', metrics_ok d ->
    put_values_into_snapshot d de into k c = Ok (d', s) c' ->
    later c c' /\ metrics_ok d'
    /\ (dr_metrics d = None -> dr_metrics d' = None)
    /\ forall i, dr_metrics d = Some i -> exists i', dr_metrics d' = Some i' /\ alarms_same i i'
         /\ exists inner c1 c2, shows_metrix d into s inner /\ keys inner = metrix_names
              /\ later c c1 /\ later c1 c'
              /\ lookup "dropped_observations_alarm" inner
                 = Some (Boolean (match st_stay_on_until (di_dropped_observations_alarm i) with Some u => c1 O <=? u | None => false end))
              /\ later c c2 /\ later c2 c'
              /\ lookup "inactivity_alarm" inner = Some (Boolean (ni_happened_last (di_inactivity_alarm i) <=? c2 O - 60 * nanos_per_sec)).
  Proof.
    intros d de into k c d' s c' Hd E. unfold put_values_into_snapshot in E.
    apply bind_ok in E. destruct E as (st & c0 & E0 & E). assert (L0 := ticks_now _ _ _ _ E0). clear E0.
    unfold shows_metrix. destruct (dr_name d) as [n|].
    - apply bind_ok in E. destruct E as ([d1 l] & c1 & E1 & E). injection E as <- <- <-.
      destruct (values_alarms _ _ _ _ _ _ _ _ _ Hd E1) as (L1 & O1 & N1 & H).
      split; [exact (later_trans _ _ _ L0 L1)|]. split; [exact O1|]. split; [exact N1|]. intros i Hi.
      destruct (H i Hi) as (i' & H1 & H2 & before & inner & c2 & c3 & -> & H3 & H4 & H5 & H6 & H7 & H8 & H9).
      exists i'. split; [exact H1|]. split; [exact H2|]. exists inner, c2, c3. split; [exists before; reflexivity|].
      repeat (split; [solve [auto | eapply later_trans; eassumption]|]). exact H9.
    - destruct (values_alarms _ _ _ _ _ _ _ _ _ Hd E) as (L1 & O1 & N1 & H).
      split; [exact (later_trans _ _ _ L0 L1)|]. split; [exact O1|]. split; [exact N1|]. intros i Hi.
      destruct (H i Hi) as (i' & H1 & H2 & before & inner & c2 & c3 & -> & H3 & H4 & H5 & H6 & H7 & H8 & H9).
      exists i'. split; [exact H1|]. split; [exact H2|]. exists inner, c2, c3. split; [exists before; reflexivity|].
      repeat (split; [solve [auto | eapply later_trans; eassumption]|]). exact H9.
  Qed.

  Lemma command_alarms : forall d cmd k w d' w', metrics_ok d -> driver_command d cmd k w = Ok d' w' ->
    later (w_clock (dw_world w)) (w_clock (dw_world w')) /\ metrics_ok d'
    /\ forall i, dr_metrics d = Some i -> exists i', dr_metrics d' = Some i' /\ alarms_same i i'.
  Proof.
    intros d cmd k w d' w' Hd E.
    assert (Same : forall d1, dr_metrics d1 = dr_metrics d -> Ok d1 w = Ok d' w' ->
      later (w_clock (dw_world w)) (w_clock (dw_world w')) /\ metrics_ok d'
      /\ forall i, dr_metrics d = Some i -> exists i', dr_metrics d' = Some i' /\ alarms_same i i').
    { intros d1 M F. injection F as <- <-. split; [apply later_refl|]. split; [intros i Hi; apply Hd; congruence|].
      intros i Hi. exists i. split; [congruence|]. split; reflexivity. }
    assert (Put : forall into b de, (let* '(d, s) := timed (put_values_into_snapshot d de into) in let* _ := answer b s in ret d) k w = Ok d' w' ->
      later (w_clock (dw_world w)) (w_clock (dw_world w')) /\ metrics_ok d'
      /\ forall i, dr_metrics d = Some i -> exists i', dr_metrics d' = Some i' /\ alarms_same i i').
    { intros into b de F. apply bind_ok in F. destruct F as ([d1 s] & w1 & F1 & F). apply timed_inv in F1. destruct F1 as (c1 & F1 & ->).
      apply bind_ok in F. destruct F as (u & w2 & F2 & F). injection F as <- <-. injection F2 as _ <-. cbn [dw_world w_clock].
      destruct (snapshot_alarms _ _ _ _ _ _ _ _ Hd F1) as (L & O1 & _ & H). split; [exact L|]. split; [exact O1|].
      intros i Hi. destruct (H i Hi) as (i' & H1 & H2 & _). eauto. }
    destruct cmd; cbn [driver_command] in E; eauto; unfold ret in E; refine (Same _ _ E); reflexivity.
  Qed.

  (** ** Alarms *)

  Lemma collected_alarms : forall k d t0 w e d1 w1, metrics_ok d -> monotone (w_clock (dw_world w)) ->
    collected k d t0 w e d1 w1 ->
    later (w_clock (dw_world w)) (w_clock (dw_world w1)) /\ metrics_ok d1
    /\ Forall (fun e => w_clock (dw_world w) O <= fst (fst e) /\ snd e <= w_clock (dw_world w1) O) e
    /\ forall i, dr_metrics d = Some i -> exists i1, dr_metrics d1 = Some i1
         /\ (e = [] /\ alarms_same i i1
             \/ exists x tap, e = [x] /\ within tap x /\ ni_happened_last (di_inactivity_alarm i1) = tap
                  /\ (oc_dropped (snd (fst x)) <= 0 -> di_dropped_observations_alarm i1 = di_dropped_observations_alarm i)
                  /\ (0 < oc_dropped (snd (fst x)) -> exists t, within t x
                        /\ st_stay_on_until (di_dropped_observations_alarm i1) = Some (t + 60 * nanos_per_sec))).
  Proof.
    intros k d t0 w e d1 w1 Hd Mo C. destruct C as [d t0 w P|d t0 w d1 w1 t v1 ps o v2 P R E1 E2].
    - split; [apply later_refl|]. split; [exact Hd|]. split; [constructor|]. intros i Hi. exists i. split; [exact Hi|].
      left. repeat split.
    - unfold driver_run in R.
      apply bind_ok in R. destruct R as (t' & wa & R1 & R). apply in_world_inv in R1. destruct R1 as (v1' & R1 & ->).
      rewrite E1 in R1. injection R1 as <- <-.
      apply bind_ok in R. destruct R as ([ps' o'] & wb & R2 & R). apply in_world_inv in R2. destruct R2 as (v2' & R2 & ->).
      cbn [dw_world] in R2. rewrite E2 in R2. injection R2 as <- <- <-.
      assert (L1 := lift_wticks _ _ ticks_now _ _ _ _ E1). assert (L2 := do_a_run_wticks _ _ _ _ _ _ _ E2).
      assert (L12 := later_trans _ _ _ L1 L2).
      set (w2 := DWorld v2 _ _ _ _ _ _) in R. cbn [dw_commands dw_guards dw_running dw_answers dw_unanswered dw_sched] in w2.
      apply bind_ok in R. destruct R as (rt & wc & R3 & R). apply timed_inv in R3. destruct R3 as (c3 & R3 & ->).
      apply elapsed_ticks in R3. cbn [dw_world] in R3.
      apply bind_ok in R. destruct R as (dropped & wc' & R4 & R).
      assert (Lw : dw_world wc' = World c3 (w_queues v2) (w_mounts v2) (w_sched v2)).
      { unfold add_usize, u64_arith, arith in R4. destruct (_ && _); [|destruct (overflow_checks k); [discriminate R4|]];
          injection R4 as _ <-; reflexivity. }
      clear R4. apply bind_ok in R. destruct R as (d2 & wd & R5 & R).
      set (dm := driver_with d ps (dr_snapshooters d) (dr_metrics d)) in *.
      assert (S5 : later c3 (w_clock (dw_world wd)) /\ dr_metrics d2 = dr_metrics d).
      { destruct (0 <? dropped).
        - apply bind_ok in R5. destruct R5 as (el & we & R6 & R5). apply timed_inv in R6. destruct R6 as (c6 & R6 & ->).
          apply elapsed_ticks in R6. rewrite Lw in R6. cbn [w_clock] in R6. destruct (_ <? el).
          + apply bind_ok in R5. destruct R5 as (tn & wf & R7 & R5). apply timed_inv in R7. destruct R7 as (c7 & R7 & ->).
            injection R5 as <- <-. apply ticks_now in R7. cbn [dw_world w_clock] in R7 |- *. split; [|reflexivity].
            exact (later_trans _ _ _ R6 R7).
          + injection R5 as <- <-. cbn [dw_world w_clock]. split; [exact R6 | reflexivity].
        - injection R5 as <- <-. rewrite Lw. cbn [w_clock]. split; [apply later_refl | reflexivity]. }
      destruct S5 as (L5 & M5). clear R5.
      apply bind_ok in R. destruct R as (m & we & R6 & R). rewrite M5 in R6.
      assert (S7 : later (w_clock (dw_world we)) (w_clock (dw_world w1))
        /\ ((forall i, m = Some i -> metrix_ok i) -> (m = None -> dr_metrics d1 = None)
            /\ forall i, m = Some i -> exists i1, dr_metrics d1 = Some i1 /\ metrix_ok i1 /\ alarms_same i i1)).
      { destruct (_ || _).
        - injection R as <- <-. split; [apply later_refl|]. intros Hm. cbn [driver_with dr_metrics]. split; [auto|].
          intros i Hi. exists i. split; [exact Hi|]. split; [exact (Hm _ Hi)|]. split; reflexivity.
        - apply bind_ok in R. destruct R as (tf & wf & R7 & R). apply timed_inv in R7. destruct R7 as (c7 & R7 & ->).
          apply ticks_now in R7. apply bind_ok in R. destruct R as (m1 & wg & R8 & R). apply timed_inv in R8.
          destruct R8 as (c8 & R8 & ->). injection R as <- <-. cbn [dw_world w_clock driver_with dr_metrics] in *.
          destruct m as [i|].
          + split.
            * apply (later_trans _ _ _ R7). unfold report_elapsed_stats in R8. apply bind_ok in R8.
              destruct R8 as (el & c9 & R9 & R8). apply elapsed_ticks in R9. cbv zeta in R8. apply (later_trans _ _ _ R9).
              destruct (f64_ltb _ _); [|injection R8 as _ <-; apply later_refl].
              apply bind_ok in R8. destruct R8 as (i1 & c10 & R10 & R8). injection R8 as _ <-.
              unfold update_run_ratio in R10. apply bind_ok in R10. destruct R10 as (tt1 & c11 & R11 & R10).
              apply ticks_now in R11. apply (later_trans _ _ _ R11). cbv zeta in R10.
              apply bind_ok in R10. destruct R10 as (a1 & c12 & R12 & R10). apply bind_ok in R10.
              destruct R10 as (a2 & c13 & R13 & R10). injection R10 as _ <-.
              exact (later_trans _ _ _ (updated_ticks _ _ (histogram_update_ticks HX _ _) _ _ _ _ R12)
                       (updated_ticks _ _ (gauge_update_ticks _ _) _ _ _ _ R13)).
            * intros Hm. split; [discriminate|]. intros j J. injection J as <-.
              destruct (elapsed_stats HX _ _ _ _ _ _ _ Hm R8) as (_ & _ & H). exact (H _ eq_refl).
          + injection R8 as <- <-. split; [exact R7|]. intros _. split; [auto|]. discriminate. }
      destruct S7 as (L7 & S7).
      destruct (dr_metrics d) as [i|] eqn:Md.
      + apply bind_ok in R6. destruct R6 as (i1 & wf & R6 & R8). injection R8 as <- <-. apply timed_inv in R6.
        destruct R6 as (c6 & R6 & ->). cbn [dw_world w_clock] in L7.
        destruct (post_collection HX _ _ _ _ _ _ _ (Hd _ Md) R6) as (O1 & L6 & Dr & Nd & c8 & L8 & L8' & T8).
        assert (L3d : later (w_clock v2) (w_clock (dw_world wd))) by exact (later_trans _ _ _ R3 L5).
        assert (Mv2 : monotone (w_clock v2)) by exact (later_monotone _ _ Mo L12).
        assert (Lend : later c6 (w_clock (dw_world w1))) by exact L7.
        destruct (S7 ltac:(intros j J; injection J as <-; exact O1)) as (_ & S7').
        destruct (S7' _ eq_refl) as (i2 & M2 & O2 & A1 & A2).
        assert (Win : forall cx, later (w_clock (dw_world wd)) cx -> later cx c6 -> within (cx O) (w_clock v2 O, o, w_clock (dw_world w1) O)).
        { intros cx Lx Lx'. unfold within. cbn [fst snd].
          assert (La : later (w_clock v2) cx) by exact (later_trans _ _ _ L3d Lx). split; [exact (later_first _ _ Mv2 La)|].
          apply later_first; [exact (later_monotone _ _ Mv2 La) | exact (later_trans _ _ _ Lx' Lend)]. }
        split; [exact (later_trans _ _ _ L12 (later_trans _ _ _ L3d (later_trans _ _ _ L6 Lend)))|].
        split; [intros j J; rewrite M2 in J; injection J as <-; exact O2|].
        split. { constructor; [|constructor]. cbn [fst snd]. split; [exact (later_first _ _ Mo L12) | lia]. }
        intros j J. injection J as <-. exists i2. split; [exact M2|]. right.
        exists (w_clock v2 O, o, w_clock (dw_world w1) O), (c8 O). split; [reflexivity|]. split; [apply Win; assumption|].
        cbn [fst snd]. rewrite A2, A1. split; [exact T8|]. split; [exact Nd|]. intros D. destruct (Dr D) as (cx & Lx & Lx' & Tx).
        exists (cx O). split; [apply Win; assumption | exact Tx].
      + injection R6 as <- <-. assert (Lx : later (w_clock v2) (w_clock (dw_world w1)))
          by exact (later_trans _ _ _ R3 (later_trans _ _ _ L5 L7)).
        split; [exact (later_trans _ _ _ L12 Lx)|]. destruct (S7 ltac:(discriminate)) as (N & _). specialize (N eq_refl).
        split; [intros j J; congruence|]. split; [|discriminate].
        constructor; [|constructor]. cbn [fst snd]. split; [exact (later_first _ _ Mo L12) | lia].
  Qed.
End History.
