(** What happens to a processor for telemetry data that is somewhere in a driver. *)
From Coq Require Import ZArith Bool String List Lia.
From Verif Require Import Base SpecRun MonadFacts SpecClock ClockProofs ModelObservation ModelSnapshot ModelGauge ModelMeter ModelHistogram
  ModelSwitches ModelInstrument ModelTree
  ModelChannel ModelProcessor ModelDriver TreeEqs TreeInd SpecQueue QueueProofs SpecCollect WorldClockProofs CollectProofs GroupProofs SpecDriver
  DriverProofs DriverLoopProofs DriverMetricsProofs DriverShapeProofs SpecChronicle ChronicleProofs.
Import ListNotations.
Open Scope Z_scope.

Section Driver.
  Context {X : ext} {Y : pext}.
  Context (HX : parts_tick X) (HY : processors_tick Y).
  Implicit Types (d : driver X Y) (w : dworld X Y).

  (** Only time passes. *)
  Definition quiet {A} (m : St (dworld X Y) A) (P : A -> Prop) : Prop := forall k w a w', m k w = Ok a w' ->
    P a /\ exists c, later (w_clock (dw_world w)) c
      /\ w' = DWorld (World c (w_queues (dw_world w)) (w_mounts (dw_world w)) (w_sched (dw_world w)))
                (dw_commands w) (dw_guards w) (dw_running w) (dw_answers w) (dw_unanswered w) (dw_sched w).

  Lemma quiet_ret : forall A (a : A) (P : A -> Prop), P a -> quiet (ret a) P.
  Proof.
    intros A a P H k w b w' E. injection E as <- <-. split; [exact H|]. exists (w_clock (dw_world w)). split; [apply later_refl|].
    destruct w as [[c q m s] cs g r an un sc]. reflexivity.
  Qed.

  Lemma quiet_bind : forall A B (m : St (dworld X Y) A) (f : A -> St (dworld X Y) B) P Q,
    quiet m P -> (forall a, P a -> quiet (f a) Q) -> quiet (bind m f) Q.
  Proof.
    intros A B m f P Q H1 H2 k w b w' E. apply bind_ok in E. destruct E as (a & w1 & E1 & E2).
    destruct (H1 _ _ _ _ E1) as (Pa & c1 & L1 & ->). destruct (H2 _ Pa _ _ _ _ E2) as (Qb & c2 & L2 & ->).
    split; [exact Qb|]. exists c2. split; [eapply later_trans; eassumption | reflexivity].
  Qed.

  Lemma quiet_timed : forall A (m : M A), ticks m -> quiet (timed m) (fun _ => True).
  Proof.
    intros A m H k w a w' E. apply timed_inv in E. destruct E as (c & E & ->). split; [exact I|]. exists c. split; [exact (H _ _ _ _ E) | reflexivity].
  Qed.

  Lemma quiet_usize : forall a b, quiet (add_usize a b) (fun _ => True).
  Proof.
    intros a b k w x w' E. assert (w' = w).
    { unfold add_usize, u64_arith, arith in E. destruct (_ && _); [|destruct (overflow_checks k)]; try discriminate E; injection E as _ <-; reflexivity. }
    subst w'. split; [exact I|]. exists (w_clock (dw_world w)). split; [apply later_refl|]. destruct w as [[c q m s] cs g r an un sc]. reflexivity.
  Qed.

  Lemma upd : forall (h : histogram (ex_histo X)) u, ticks (histogram_update h u).
  Proof. apply (histogram_update_ticks HX). Qed.
  Lemma put : forall (h : histogram (ex_histo X)) de s, ticks (histogram_put h de s).
  Proof. apply histogram_put_ticks. Qed.
  Hint Resolve upd put value_of_duration_ticks : ticks.

  Lemma post_collection_ticks : forall (i : driver_instruments X) o s, ticks (update_post_collection i o s).
  Proof.
    intros. unfold update_post_collection. cbv zeta. tick; try apply updated_ticks; try apply updated_if_ticks; intros; auto with ticks.
  Qed.
  Lemma post_snapshot_ticks : forall (i : driver_instruments X) s, ticks (update_post_snapshot i s).
  Proof. intros. unfold update_post_snapshot. tick; try apply updated_ticks; intros; auto with ticks. Qed.
  Lemma run_ratio_ticks : forall (i : driver_instruments X) r, ticks (update_run_ratio i r).
  Proof. intros. unfold update_run_ratio. cbv zeta. tick; try apply updated_ticks; intros; auto with ticks. Qed.
  Lemma elapsed_stats_ticks : forall a b (m : option (driver_instruments X)), ticks (report_elapsed_stats a b m).
  Proof.
    intros a b [i|]; unfold report_elapsed_stats; [|apply ticks_ret]. apply ticks_bind; [apply elapsed_ticks|]. intros e. cbv zeta.
    destruct (f64_ltb _ _); [|apply ticks_ret]. apply ticks_bind; [apply run_ratio_ticks|]. intros; apply ticks_ret.
  Qed.
  Lemma instruments_put_ticks : forall (i : driver_instruments X) de s, ticks (instruments_put i de s).
  Proof. intros. unfold instruments_put. cbv zeta. tick. Qed.

  (** ** A collection of everything *)

  Lemma run_located : forall r k d t0 w d1 w1 path t, driver_run d t0 k w = Ok d1 w1 ->
    among r (dr_processors d) path t -> foreign r (dw_world w) ->
    exists t', visited r k 1000 (dr_strategy d) t (dw_world w) t' (dw_world w1)
      /\ among r (dr_processors d1) path t' /\ foreign r (dw_world w1)
      /\ dr_strategy d1 = dr_strategy d /\ dr_paused d1 = dr_paused d
      /\ dw_commands w1 = dw_commands w /\ dw_guards w1 = dw_guards w /\ dw_running w1 = dw_running w /\ dw_sched w1 = dw_sched w.
  Proof.
    intros r k d t0 w d1 w1 path t E A F. unfold driver_run in E.
    apply bind_ok in E. destruct E as (rs & w2 & E1 & E). apply timed_inv in E1. destruct E1 as (c1 & E1 & ->).
    apply ticks_now in E1.
    apply bind_ok in E. destruct E as ([ps o] & w3 & E2 & E). apply in_world_inv in E2. destruct E2 as (v2 & E2 & ->).
    cbn [dw_world dw_commands dw_guards dw_running dw_answers dw_unanswered dw_sched] in E2, E. cbv zeta in E.
    set (v1 := World c1 _ _ _) in E2. unfold do_a_run in E2.
    destruct (traverse_located HX HY r (fuel k) 1000 (dr_strategy d) k (collected_located HX HY r (fuel k) 1000 (dr_strategy d)) _ _ _ _ _ _ _ _ E2 A F)
      as (t' & (wa & oa & wb & V1 & V2 & V3 & V4 & V5 & V6 & V7) & A' & F').
    match type of E with ?m k ?v = _ => assert (Q : quiet m (fun d1 => dr_processors d1 = ps /\ dr_strategy d1 = dr_strategy d /\ dr_paused d1 = dr_paused d)) end.
    { clear E. eapply quiet_bind; [apply quiet_timed, elapsed_ticks|]. intros rt _. eapply quiet_bind; [apply quiet_usize|]. intros dropped _.
      eapply quiet_bind with (P := fun d1 => dr_processors d1 = ps /\ dr_strategy d1 = dr_strategy d /\ dr_paused d1 = dr_paused d).
      { destruct (0 <? dropped); [|apply quiet_ret; auto]. eapply quiet_bind; [apply quiet_timed, elapsed_ticks|]. intros e _.
        destruct (_ <? e); [|apply quiet_ret; auto]. eapply quiet_bind; [apply quiet_timed, ticks_now|]. intros x _. apply quiet_ret. auto. }
      intros d2 D2. eapply quiet_bind with (P := fun _ => True).
      { destruct (dr_metrics d2) as [i|]; [|apply quiet_ret; exact I]. eapply quiet_bind; [apply quiet_timed, post_collection_ticks|].
        intros i' _. apply quiet_ret. exact I. }
      intros m _. destruct (_ || _); [apply quiet_ret; exact D2|]. eapply quiet_bind; [apply quiet_timed, ticks_now|]. intros x _.
      eapply quiet_bind; [apply quiet_timed, elapsed_stats_ticks|]. intros m' _. apply quiet_ret. exact D2. }
    destruct (Q _ _ _ _ E) as ((D1 & D2 & D3) & c & L & ->). cbn [dw_world dw_commands dw_guards dw_running dw_answers dw_unanswered dw_sched] in *.
    rewrite D1. exists t'. split; [|split; [exact A'|split; [exact F'|auto 10]]].
    exists wa, oa, wb. split; [exact V1|]. split; [eapply later_trans; eassumption|]. split; [exact V3|]. split; [exact V4|].
    split; [eapply later_trans; eassumption|]. split; [exact V6 | exact V7].
  Qed.

  (** ** A command *)

  Lemma values_located : forall r k d de into c d' s c' path t, put_values_into_snapshot d de into k c = Ok (d', s) c' ->
    among r (dr_processors d) path t ->
    exists t', chronicle k c t [] t' c' /\ among r (dr_processors d') path t' /\ dr_strategy d' = dr_strategy d /\ dr_paused d' = dr_paused d.
  Proof.
    intros r k d de into c d' s c' path t E A.
    assert (H : forall st into c d' s c', add_snapshot_values d de st into k c = Ok (d', s) c' ->
      exists t', chronicle k c t [] t' c' /\ among r (dr_processors d') path t' /\ dr_strategy d' = dr_strategy d /\ dr_paused d' = dr_paused d).
    { clear E. intros st into0 c0 d0 s0 c0' E. unfold add_snapshot_values in E. cbv zeta in E.
      apply bind_ok in E. destruct E as ([ps i1] & c1 & E1 & E). apply bind_ok in E. destruct E as ([ss i2] & c2 & E2 & E).
      destruct (among_put HX HY _ _ _ _ A _ _ _ _ _ _ _ E1) as (t' & C1 & A1).
      assert (L2 : later c1 c2).
      { refine (ticks_traverse _ _ _ _ _ _ _ _ _ _ E2). apply Forall_forall. intros x _ s1. apply (tree_put_ticks HX). }
      exists t'. destruct (dr_metrics d) as [i|].
      - apply bind_ok in E. destruct E as (i3 & c3 & E3 & E). apply bind_ok in E. destruct E as ([i4 s4] & c4 & E4 & E).
        injection E as <- <- <-. split; [|auto]. eapply chronicle_after; [exact C1|]. eapply later_trans; [exact L2|].
        eapply later_trans; [exact (post_snapshot_ticks _ _ _ _ _ _ E3) | exact (instruments_put_ticks _ _ _ _ _ _ _ E4)].
      - injection E as <- <- <-. split; [|auto]. eapply chronicle_after; eassumption. }
    unfold put_values_into_snapshot in E. apply bind_ok in E. destruct E as (st & c1 & E1 & E). apply ticks_now in E1.
    destruct (dr_name d) as [n|].
    - apply bind_ok in E. destruct E as ([d1 s1] & c2 & E2 & E). injection E as <- <- <-.
      destruct (H _ _ _ _ _ _ E2) as (t' & C & A' & S1 & S2). exists t'. split; [eapply chronicle_before; eassumption | auto].
    - destruct (H _ _ _ _ _ _ E) as (t' & C & A' & S1 & S2). exists t'. split; [eapply chronicle_before; eassumption | auto].
  Qed.

  Lemma command_located : forall r k d c w d1 w1 path t, driver_command d c k w = Ok d1 w1 ->
    among r (dr_processors d) path t -> command_clean r c ->
    exists t', chronicle k (w_clock (dw_world w)) t [] t' (w_clock (dw_world w1)) /\ among r (dr_processors d1) path t'
      /\ dr_strategy d1 = strategy_after (dr_strategy d) [c] /\ dr_paused d1 = paused_after (dr_paused d) [c]
      /\ w_queues (dw_world w1) = w_queues (dw_world w) /\ w_mounts (dw_world w1) = w_mounts (dw_world w) /\ w_sched (dw_world w1) = w_sched (dw_world w)
      /\ dw_commands w1 = dw_commands w /\ dw_guards w1 = dw_guards w /\ dw_running w1 = dw_running w /\ dw_sched w1 = dw_sched w.
  Proof.
    intros r k d c w d1 w1 path t E A Cl.
    assert (Put : forall into b de, (c = CGetSnapshotSync into b de \/ c = CGetSnapshotAsync into b de) ->
      (let* '(d, s) := timed (put_values_into_snapshot d de into) in let* _ := answer b s in ret d) k w = Ok d1 w1 ->
      exists t', chronicle k (w_clock (dw_world w)) t [] t' (w_clock (dw_world w1)) /\ among r (dr_processors d1) path t'
        /\ dr_strategy d1 = strategy_after (dr_strategy d) [c] /\ dr_paused d1 = paused_after (dr_paused d) [c]
        /\ w_queues (dw_world w1) = w_queues (dw_world w) /\ w_mounts (dw_world w1) = w_mounts (dw_world w) /\ w_sched (dw_world w1) = w_sched (dw_world w)
        /\ dw_commands w1 = dw_commands w /\ dw_guards w1 = dw_guards w /\ dw_running w1 = dw_running w /\ dw_sched w1 = dw_sched w).
    { clear E. intros into b de Hc E. apply bind_ok in E. destruct E as ([d2 s] & w2 & E1 & E).
      apply timed_inv in E1. destruct E1 as (cl & E1 & ->). apply bind_ok in E. destruct E as (u & w3 & E2 & E).
      injection E2 as _ <-. injection E as <- <-.
      destruct (values_located _ _ _ _ _ _ _ _ _ _ _ E1 A) as (t' & C & A' & S1 & S2). exists t'.
      cbn [dw_world dw_commands dw_guards dw_running dw_unanswered dw_answers dw_sched w_clock w_queues w_mounts w_sched].
      split; [exact C|]. split; [exact A'|]. destruct Hc as [-> | ->]; auto 12. }
    destruct c; cbn [driver_command] in E; try (eapply Put; [eauto|exact E]); clear Put; injection E as <- <-; exists t;
      (split; [apply cr_end, later_refl|]); cbn; (split; [|auto 12]); try exact A.
    cbn [command_clean] in Cl. apply among_more; [exact A | constructor; [exact Cl | constructor]].
  Qed.

  (** ** Iterations *)

  Lemma attentive_runs : forall i t (w w' : world X Y), runs w w' -> attentive i t w -> attentive i t w'.
  Proof.
    intros i t w w' R (H1 & H2). split; [exact (runs_ok _ _ _ R H1)|]. intros D. exact (proj1 (runs_exhausted _ _ _ R (H2 D))).
  Qed.

  Lemma visited_chronicle : forall k max s (t : tele X) (v : world X Y) t' v', let i := tp_receiver t in
    visited (QueueReceiver i) k max s t v t' v' ->
    exists start ms,
      chronicle k (w_clock v) t [Entry start s ms] t' (w_clock v')
      /\ moved (w_queues v i) (w_queues v' i) ms
      /\ (length ms <= max)%nat
      /\ tp_receiver t' = i
      /\ (attentive i t v -> attentive i t' v' /\ exists rest, ms = firstn max (ch_queue (w_queues v i)) ++ rest).
  Proof.
    intros k max s t v t' v' i (wa & oa & wb & V1 & V2 & V3 & V4 & V5 & V6 & V7).
    destruct (process_chronicle HX _ _ _ _ _ _ _ _ V3) as (ms & C & Mv & Len & Pre & Hr & Dc). fold i in Mv, Pre, Hr, Dc.
    exists (w_clock wa O), ms. split.
    { eapply chronicle_before; [exact V2|]. eapply chronicle_after; [exact C | exact V5]. }
    assert (M1 := keeps_moved _ _ _ V1). assert (M2 := keeps_moved _ _ _ V4). split.
    { rewrite <- (app_nil_r ms). change ms with ([] ++ ms). eapply moved_trans; [|exact M2]. eapply moved_trans; [exact M1 | exact Mv]. }
    split; [exact Len|]. split; [exact Hr|]. intros R. assert (Ra := attentive_runs _ _ _ _ V6 R). split.
    - apply (attentive_runs _ _ wb); [exact V7|]. split; [exact (runs_ok _ _ _ (wruns_tele _ _ _ _ _ _ _ V3) (proj1 Ra))|].
      intros D. destruct (Dc D) as [D0|Ex]; [|exact (Ex (proj1 Ra))].
      exact (proj1 (runs_exhausted _ _ _ (wruns_tele _ _ _ _ _ _ _ V3) (proj2 Ra D0))).
    - destruct M1 as (new & _ & Q). cbn [app] in Q. destruct (tp_disconnected t) eqn:D.
      + destruct R as (_ & R). destruct (R D) as (_ & Q0 & _). rewrite Q0, firstn_nil. exists ms. reflexivity.
      + destruct (Pre eq_refl) as (rest & ->). rewrite <- Q, firstn_app, <- app_assoc. eexists. reflexivity.
  Qed.

  Lemma called_clean : forall r l g, Forall (call_clean r) l -> Forall (command_clean (X := X) (Y := Y) r) (called g l).
  Proof.
    intros r l. induction l as [|a l IH]; intros g H; [constructor|]. inversion H; subst. destruct a; cbn [called]; auto.
    apply Forall_app. split; [|auto]. destruct g; [constructor|]. constructor; [assumption | constructor].
  Qed.

  Lemma waited_clean : forall r w w1, waited (X := X) (Y := Y) w w1 -> nobody_else r w -> nobody_else r w1.
  Proof.
    intros r w w1 W (H1 & H2 & H3). split; [rewrite (wt_world _ _ W); exact H1|]. split.
    - destruct (wt_moved _ _ W) as (new & A & Q). rewrite (wt_accepted _ _ W) in A. apply app_inv_head in A. subst new.
      cbn [app] in Q. rewrite <- Q. apply Forall_app. split; [exact H2 | apply called_clean, H3].
    - intros n. rewrite (wt_sched _ _ W). apply H3.
  Qed.

  Lemma iteration_located : forall k d w d1 w1 path t, let i := tp_receiver t in let r := QueueReceiver i in
    driver_ok w -> nobody_else r w -> among r (dr_processors d) path t ->
    driver_iteration d k w = Ok (d1, true) w1 ->
    exists cs es t1,
      moved (dw_commands w) (dw_commands w1) cs /\ (length cs <= 1)%nat
      /\ driver_ok w1 /\ nobody_else r w1 /\ among r (dr_processors d1) path t1 /\ tp_receiver t1 = i
      /\ dr_strategy d1 = strategy_after (dr_strategy d) cs /\ dr_paused d1 = paused_after (dr_paused d) cs
      /\ chronicle k (w_clock (dw_world w)) t es t1 (w_clock (dw_world w1))
      /\ map (@en_strategy X) es = (if dr_paused d1 then [] else [dr_strategy d1])
      /\ Forall (fun e => (length (en_messages e) <= 1000)%nat) es
      /\ moved (queue_of i w) (queue_of i w1) (flat_map (@en_messages X) es)
      /\ (attentive i t (dw_world w) -> attentive i t1 (dw_world w1)
           /\ exists rest, flat_map (@en_messages X) es = firstn (1000 * length es) (ch_queue (queue_of i w)) ++ rest).
  Proof.
    intros k d w d1 w1 path t i r Hok Hn A E. unfold driver_iteration in E.
    apply bind_ok in E. destruct E as (b & wa & E1 & E). destruct (load_cases _ _ _ _ Hok E1) as (Wa & ->).
    destruct (dw_running wa) eqn:Rn; cbn [negb] in E; [|apply bind_ok in E; destruct E as (u & wx & _ & E); discriminate E].
    apply bind_ok in E. destruct E as (t0 & wb & E2 & E). apply timed_inv in E2. destruct E2 as (c2 & E2 & ->). apply ticks_now in E2.
    apply bind_ok in E. destruct E as (rc & wd & E3 & E).
    set (wb := DWorld _ _ _ _ _ _ _) in E3.
    assert (Okb : driver_ok wb) by (apply (ok_same wa); [apply (wt_ok _ _ Wa) | reflexivity..]).
    assert (Na := waited_clean _ _ _ Wa Hn).
    assert (Nb : nobody_else r wb) by exact Na.
    destruct (recv_cases _ _ _ _ Okb E3) as (wc & Wc & Er & Ed). clear E3.
    assert (Nc := waited_clean _ _ _ Wc Nb).
    assert (C : ch_cap (dw_commands wc) = None) by (apply (wt_ok _ _ Wc)).
    destruct (recv_keeps _ _ _ _ C Er) as (K1 & K2 & K3 & K4 & K5).
    assert (Okd : driver_ok wd) by (rewrite Ed; apply with_ok; auto; apply (wt_ok _ _ Wc)).
    assert (Md := recv_moved (dw_commands wc)). rewrite Er in Md. cbn [fst snd] in Md.
    set (cs := match rc with Message c => [c] | _ => [] end) in *.
    assert (Mw : moved (dw_commands w) (dw_commands wd) cs).
    { change cs with ([] ++ cs). eapply moved_trans; [|exact Md]. change (@nil (command X Y)) with ([] ++ @nil (command X Y)).
      eapply moved_trans; [apply (wt_moved _ _ Wa)|]. exact (wt_moved _ _ Wc). }
    assert (Cl : Forall (command_clean r) cs /\ Forall (command_clean r) (ch_queue (dw_commands wd))).
    { destruct Md as (new & M1 & M2). rewrite K5 in M1. rewrite <- (app_nil_r (ch_accepted (dw_commands wc))) in M1 at 1.
      apply app_inv_head in M1. rewrite <- M1, app_nil_r in M2. assert (Q := proj1 (proj2 Nc)). rewrite M2 in Q. apply Forall_app in Q. exact Q. }
    assert (Ww : dw_world wd = dw_world wb).
    { rewrite Ed. cbn [dw_with dw_world]. rewrite (wt_world _ _ Wc). reflexivity. }
    assert (Nd : nobody_else r wd).
    { split; [rewrite Ww; apply Nb|]. split; [apply Cl|]. rewrite Ed. cbn [dw_with dw_sched]. apply Nc. }
    assert (Qd : queue_of i wd = queue_of i w).
    { unfold queue_of. rewrite Ww. subst wb. cbn [dw_world w_queues]. rewrite (wt_world _ _ Wa). reflexivity. }
    assert (Qm : w_mounts (dw_world wd) = w_mounts (dw_world w) /\ w_queues (dw_world wd) = w_queues (dw_world w)).
    { rewrite Ww. subst wb. cbn [dw_world w_mounts w_queues]. rewrite (wt_world _ _ Wa). auto. }
    assert (Ld : later (w_clock (dw_world w)) (w_clock (dw_world wd))).
    { rewrite Ww. subst wb. cbn [dw_world w_clock]. rewrite <- (wt_world _ _ Wa). exact E2. }
    clearbody wb. clear Ed Ww Okb Wa Wc Na Nb Nc E1 E2 Rn Hok Er K1 K2 K3 K4 K5 Md C.
    assert (E' : rc <> Disconnected /\ (let* d := match rc with Message c => driver_command d c | _ => ret d end in
        if dr_paused d then ret (d, true) else let* d := driver_run d t0 in ret (d, true)) k wd = Ok (d1, true) w1).
    { destruct rc; [split; [discriminate | exact E]..|]. apply bind_ok in E. destruct E as (u & wx & _ & E). discriminate E. }
    destruct E' as (Nd0 & E'). clear E. apply bind_ok in E'. destruct E' as (dm & wm & Ec & E).
    assert (Cm : exists tm, chronicle k (w_clock (dw_world wd)) t [] tm (w_clock (dw_world wm)) /\ among r (dr_processors dm) path tm
      /\ dr_strategy dm = strategy_after (dr_strategy d) cs /\ dr_paused dm = paused_after (dr_paused d) cs
      /\ w_queues (dw_world wm) = w_queues (dw_world wd) /\ w_mounts (dw_world wm) = w_mounts (dw_world wd) /\ w_sched (dw_world wm) = w_sched (dw_world wd)
      /\ dw_commands wm = dw_commands wd /\ dw_guards wm = dw_guards wd /\ dw_running wm = dw_running wd /\ dw_sched wm = dw_sched wd).
    { destruct rc as [c| |]; [|injection Ec as <- <-; exists t; split; [apply cr_end, later_refl|]; auto 12 |congruence].
      apply (command_located _ _ _ _ _ _ _ _ _ Ec A). destruct Cl as (Cl & _). inversion Cl. assumption. }
    destruct Cm as (tm & Cm & Am & Sm & Pm & Q1 & Q2 & Q3 & Q4 & Q5 & Q6 & Q7).
    assert (Rm : tp_receiver tm = i).
    { inversion Am; subst. match goal with L : located _ _ _ _ |- _ => apply located_receiver in L; subst r; congruence end. }
    assert (Dm : tp_disconnected tm = tp_disconnected t).
    { clear - Cm. remember [] as es eqn:Ee. revert Ee. induction Cm; intros Ee; try discriminate Ee; [reflexivity|].
      rewrite (IHCm Ee). apply (proj2 (tele_put_receiver _ _ _ _ _ _ _ _ H0)). }
    assert (Okm : driver_ok wm) by (apply (ok_same wd); auto).
    assert (Nm : nobody_else r wm).
    { destruct Nd as (N1 & N2 & N3). unfold nobody_else. rewrite Q4, Q7. split; [|auto]. destruct N1 as [N1 N1']. split; [rewrite Q2; exact N1 | rewrite Q3; exact N1']. }
    assert (Rd : attentive i t (dw_world w) -> attentive i tm (dw_world wm)).
    { unfold attentive. rewrite Q1, (proj2 Qm), Dm. auto. }
    assert (Len : (length cs <= 1)%nat) by (subst cs; destruct rc; cbn; lia).
    assert (Qq : queue_of i wm = queue_of i w) by (unfold queue_of in *; congruence).
    exists cs. destruct (dr_paused dm) eqn:P.
    - injection E as <- <-. exists [], tm. rewrite Q4, P. split; [exact Mw|]. split; [exact Len|]. split; [exact Okm|].
      split; [exact Nm|]. split; [exact Am|]. split; [exact Rm|]. split; [exact Sm|]. split; [exact Pm|].
      split; [eapply chronicle_before; eassumption|]. split; [reflexivity|]. split; [constructor|]. cbn [flat_map length Nat.mul firstn].
      split; [rewrite Qq; apply moved_refl|]. intros R. split; [exact (Rd R)|]. exists []. reflexivity.
    - apply bind_ok in E. destruct E as (d3 & w3 & E4 & E). injection E as <- <-.
      destruct (run_located _ _ _ _ _ _ _ _ _ E4 Am (proj1 Nm)) as (t1 & V & A1 & F1 & S1 & P1 & C1 & C2 & C3 & C4).
      destruct (visited_chronicle k 1000 (dr_strategy dm) tm (dw_world wm) t1 (dw_world w3)) as (start & ms & V1 & V2 & V3 & V4 & V5).
      { rewrite Rm. exact V. }
      rewrite Rm in *. exists [Entry start (dr_strategy dm) ms], t1. rewrite C1, Q4, S1, P1, P. split; [exact Mw|]. split; [exact Len|].
      split; [apply (ok_same wm); auto|]. split.
      { split; [exact F1|]. rewrite C1, C4. apply Nm. }
      split; [exact A1|]. split; [exact V4|]. split; [exact Sm|]. split; [exact Pm|]. split.
      { eapply chronicle_before; [exact Ld|]. eapply (chronicle_app _ _ _ []); eassumption. }
      split; [reflexivity|]. split; [constructor; [exact V3 | constructor]|]. cbn [flat_map length en_messages]. rewrite app_nil_r, Nat.mul_1_r.
      rewrite <- Qq. split; [exact V2|]. intros R. exact (V5 (Rd R)).
  Qed.

  Lemma prefix_trans : forall A (q new m1 q1 rest1 m2 rest2 : list A) n1 n2,
    q ++ new = m1 ++ q1 -> m1 = firstn n1 q ++ rest1 -> m2 = firstn n2 q1 ++ rest2 ->
    exists rest, m1 ++ m2 = firstn (n1 + n2) q ++ rest.
  Proof.
    intros A q new m1 q1 rest1 m2 rest2 n1 n2 E E1 E2.
    destruct (Nat.le_gt_cases (length q) n1) as [L|L].
    - rewrite firstn_all2 in E1 by lia. rewrite firstn_all2 by lia. subst m1. exists (rest1 ++ m2). apply eq_sym, app_assoc.
    - assert (Lm : (n1 <= length m1)%nat) by (rewrite E1, app_length, firstn_length; lia).
      subst m2. assert (F : m1 ++ firstn n2 q1 = firstn (length m1 + n2) (q ++ new)).
      { rewrite E, firstn_app, (firstn_all2 m1) by lia. f_equal. f_equal. lia. }
      rewrite app_assoc, F. rewrite firstn_app.
      assert (S : firstn (length m1 + n2) q = firstn (n1 + n2) q ++ firstn (length m1 - n1) (skipn (n1 + n2) q)).
      { replace (length m1 + n2)%nat with ((n1 + n2) + (length m1 - n1))%nat by lia.
        rewrite <- (firstn_skipn (n1 + n2) (firstn (n1 + n2 + (length m1 - n1)) q)). rewrite firstn_firstn, Nat.min_l by lia.
        f_equal. rewrite skipn_firstn_comm. f_equal. lia. }
      rewrite S, <- !app_assoc. eexists. reflexivity.
  Qed.

  (** Any number of iterations. *)
  Lemma iterates_located : forall k n d w d' w' path t, let i := tp_receiver t in let r := QueueReceiver i in
    iterates k n d w d' w' -> driver_ok w -> nobody_else r w -> among r (dr_processors d) path t ->
    exists css es t',
      length css = n /\ Forall (fun cs => (length cs <= 1)%nat) css /\ moved (dw_commands w) (dw_commands w') (concat css)
      /\ map (@en_strategy X) es = strategies (dr_strategy d) (dr_paused d) css
      /\ chronicle k (w_clock (dw_world w)) t es t' (w_clock (dw_world w'))
      /\ among r (dr_processors d') path t' /\ tp_receiver t' = i
      /\ Forall (fun e => (length (en_messages e) <= 1000)%nat) es
      /\ moved (queue_of i w) (queue_of i w') (flat_map (@en_messages X) es)
      /\ driver_ok w' /\ nobody_else r w'
      /\ (attentive i t (dw_world w) -> attentive i t' (dw_world w')
           /\ exists rest, flat_map (@en_messages X) es = firstn (1000 * length es) (ch_queue (queue_of i w)) ++ rest).
  Proof.
    intros k n d w d' w' path t i r H. revert t i r. induction H as [d w|n d w d1 w1 d2 w2 E H IH]; intros t i r Hok Hn A.
    - exists [], [], t. split; [reflexivity|]. split; [constructor|]. split; [apply moved_refl|]. split; [reflexivity|].
      split; [apply cr_end, later_refl|]. split; [exact A|]. split; [reflexivity|]. split; [constructor|]. split; [apply moved_refl|].
      split; [exact Hok|]. split; [exact Hn|]. intros R. split; [exact R|]. exists []. reflexivity.
    - destruct (iteration_located _ _ _ _ _ _ _ Hok Hn A E) as (cs & es & t1 & H1 & H2 & H3 & H4 & H5 & H6 & H7 & H8 & H9 & H10 & H11 & H12 & H13).
      specialize (IH t1). cbv zeta in IH. rewrite H6 in IH. fold i in IH. fold r in IH.
      destruct (IH H3 H4 H5) as (css & es2 & t2 & I1 & I2 & I3 & I4 & I5 & I6 & I7 & I8 & I9 & I10 & I11 & I12).
      exists (cs :: css), (es ++ es2), t2. split; [cbn; congruence|]. split; [constructor; assumption|].
      split; [cbn [concat]; eapply moved_trans; eassumption|].
      split. { rewrite map_app, H10, I4. cbn [strategies]. rewrite <- H7, <- H8. reflexivity. }
      split; [eapply chronicle_app; eassumption|]. split; [exact I6|]. split; [exact I7|]. split; [apply Forall_app; auto|].
      split; [rewrite flat_map_app; eapply moved_trans; eassumption|]. split; [exact I10|]. split; [exact I11|].
      intros R. destruct (H13 R) as (R1 & rest1 & P1). destruct (I12 R1) as (R2 & rest2 & P2). split; [exact R2|].
      rewrite flat_map_app, app_length, Nat.mul_add_distr_l. destruct H12 as (new & _ & Q).
      eapply prefix_trans; [exact Q | exact P1 | exact P2].
  Qed.
End Driver.
