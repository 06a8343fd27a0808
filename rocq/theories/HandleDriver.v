(** What waits in the channel of an attached mount that is somewhere in a driver. *)
From Coq Require Import ZArith Bool String List Lia.
From Verif Require Import Base SpecRun MonadFacts SpecClock ClockProofs ModelObservation ModelSnapshot ModelGauge ModelMeter ModelHistogram
  ModelSwitches ModelInstrument ModelTree
  ModelChannel ModelProcessor ModelDriver TreeEqs TreeInd SpecQueue QueueProofs SpecCollect WorldClockProofs CollectProofs GroupProofs SpecDriver
  DriverProofs DriverLoopProofs DriverMetricsProofs DriverShapeProofs SpecChronicle ChronicleProofs ChronicleDriver ModelHandle SpecHandle HandleAway HandleProofs.
Import ListNotations.
Open Scope Z_scope.

Section Driver.
  Context {X : ext} {Y : pext}.
  Context (HX : parts_tick X) (HY : processors_tick Y).
  Implicit Types (d : driver X Y) (w : dworld X Y).

  Section Receivers.
    Variable R : receiver -> Prop.

    (** No command brings one of the receivers. *)
    Definition command_unheld (c : command X Y) : Prop := match c with CAddProcessor p => ~ held R p | _ => True end.
    Definition unsent w : Prop :=
      Forall command_unheld (ch_queue (dw_commands w))
      /\ (forall n, Forall (fun a => match a with Call c => command_unheld c | _ => True end) (dw_sched w n)).

    Lemma unheld_each : forall c, command_unheld c <-> forall r, R r -> command_clean r c.
    Proof.
      intros [| | | | | |]; cbn; try tauto. split; [intros N r Hr; eapply unheld; eassumption | intros H (r & Hr & Hh); exact (H r Hr Hh)].
    Qed.

    Lemma nobody_iff : forall w, (forall r, R r -> nobody_else r w) <-> valid (clear R) (dw_world w) /\ unsent w.
    Proof.
      intros w. split.
      - intros H. split; [apply clear_iff; intros r Hr; apply (H r Hr)|]. split.
        + apply Forall_forall. intros c Ic. apply unheld_each. intros r Hr. destruct (H r Hr) as (_ & H2 & _). rewrite Forall_forall in H2. auto.
        + intros n. apply Forall_forall. intros [c| | |] Ic; auto. apply unheld_each. intros r Hr. destruct (H r Hr) as (_ & _ & H3).
          specialize (H3 n). rewrite Forall_forall in H3. exact (H3 _ Ic).
      - intros (V & U1 & U2) r Hr. split; [apply (proj1 (clear_iff R (dw_world w)) V r Hr)|]. split.
        + eapply Forall_impl; [|exact U1]. intros c Hc. exact (proj1 (unheld_each c) Hc r Hr).
        + intros n. eapply Forall_impl; [|exact (U2 n)]. intros [c| | |] Hc; cbn; auto. exact (proj1 (unheld_each c) Hc r Hr).
    Qed.

    Lemma called_unsent : forall l g, Forall (fun a : client_action X Y => match a with Call c => command_unheld c | _ => True end) l -> Forall command_unheld (called g l).
    Proof.
      intros l. induction l as [|a l IH]; intros g H; [constructor|]. inversion H; subst. destruct a; cbn [called]; auto.
      apply Forall_app. split; [|auto]. destruct g; [constructor|]. constructor; [assumption | constructor].
    Qed.

    Lemma waited_unsent : forall w w1, waited (X := X) (Y := Y) w w1 -> unsent w -> unsent w1.
    Proof.
      intros w w1 W (H2 & H3). split.
      - destruct (wt_moved _ _ W) as (new & A & Q). rewrite (wt_accepted _ _ W) in A. apply app_inv_head in A. subst new.
        cbn [app] in Q. rewrite <- Q. apply Forall_app. split; [exact H2 | apply called_unsent, H3].
      - intros n. rewrite (wt_sched _ _ W). apply H3.
    Qed.

    Variables (inv1 inv2 : invariant (X := X) (Y := Y)).
    Hypothesis (K1 : kept R inv1) (K2 : kept R inv2).

    Lemma run_through : forall k d t0 w d1 w1 path q, driver_run d t0 k w = Ok d1 w1 ->
      inside_one R (dr_processors d) path q -> turns inv1 inv2 1000 (dr_strategy d) k q -> valid inv1 (dw_world w) ->
      exists q', reached R inv1 inv2 1000 (dr_strategy d) k q (dw_world w) q' (dw_world w1)
        /\ inside_one R (dr_processors d1) path q'
        /\ dr_strategy d1 = dr_strategy d /\ dr_paused d1 = dr_paused d /\ dr_name d1 = dr_name d
        /\ dw_commands w1 = dw_commands w /\ dw_guards w1 = dw_guards w /\ dw_running w1 = dw_running w /\ dw_sched w1 = dw_sched w.
    Proof.
      intros k d t0 w d1 w1 path q E A Tq V. unfold driver_run in E.
      apply bind_ok in E. destruct E as (rs & w2 & E1 & E). apply timed_inv in E1. destruct E1 as (c1 & E1 & ->).
      apply ticks_now in E1.
      apply bind_ok in E. destruct E as ([ps o] & w3 & E2 & E). apply in_world_inv in E2. destruct E2 as (v2 & E2 & ->).
      cbn [dw_world dw_commands dw_guards dw_running dw_answers dw_unanswered dw_sched] in E2, E. cbv zeta in E.
      set (v1 := World c1 _ _ _) in E2. unfold do_a_run in E2.
      destruct (traverse_through HX HY R inv1 inv2 K1 K2 1000 (dr_strategy d) k (fuel k) (through HX HY R inv1 inv2 K1 K2 1000 (dr_strategy d) k (fuel k)) _ _ _ _ _ _ _ _ E2 A Tq V)
        as (q' & Re & A').
      match type of E with ?m k ?v = _ => assert (Q : quiet m (fun d1 => dr_processors d1 = ps /\ dr_strategy d1 = dr_strategy d /\ dr_paused d1 = dr_paused d /\ dr_name d1 = dr_name d)) end.
      { clear E. eapply quiet_bind; [apply quiet_timed, elapsed_ticks|]. intros rt _. eapply quiet_bind; [apply quiet_usize|]. intros dropped _.
        eapply quiet_bind with (P := fun d1 => dr_processors d1 = ps /\ dr_strategy d1 = dr_strategy d /\ dr_paused d1 = dr_paused d /\ dr_name d1 = dr_name d).
        { destruct (0 <? dropped); [|apply quiet_ret; auto]. eapply quiet_bind; [apply quiet_timed, elapsed_ticks|]. intros e _.
          destruct (_ <? e); [|apply quiet_ret; auto]. eapply quiet_bind; [apply quiet_timed, ticks_now|]. intros x _. apply quiet_ret. auto. }
        intros d2 D2. eapply quiet_bind with (P := fun _ => True).
        { destruct (dr_metrics d2) as [i|]; [|apply quiet_ret; exact I]. eapply quiet_bind; [apply quiet_timed, (post_collection_ticks HX)|].
          intros i' _. apply quiet_ret. exact I. }
        intros m _. destruct (_ || _); [apply quiet_ret; exact D2|]. eapply quiet_bind; [apply quiet_timed, ticks_now|]. intros x _.
        eapply quiet_bind; [apply quiet_timed, (elapsed_stats_ticks HX)|]. intros m' _. apply quiet_ret. exact D2. }
      destruct (Q _ _ _ _ E) as ((D1 & D2 & D3 & D4) & c & L & ->). cbn [dw_world dw_commands dw_guards dw_running dw_answers dw_unanswered dw_sched] in *.
      rewrite D1. exists q'. split; [|auto 10].
      assert (V2 : valid inv2 v2) by (destruct Re as (? & ? & ? & ? & _ & _ & _ & _ & V2); exact V2).
      eapply reached_after; [eapply reached_before; [|exact Re] | | exact V2].
      - split; [intros r _; unfold untouched, keeps_queue; destruct r; exists []; reflexivity|]. split; [exact E1|].
        split; intros j; exists []; reflexivity.
      - split; [intros r _; unfold untouched, keeps_queue; destruct r; exists []; reflexivity|]. split; [exact L|].
        split; intros j; exists []; reflexivity.
    Qed.

    Lemma values_through : forall k d de into c d' s c' path q, put_values_into_snapshot d de into k c = Ok (d', s) c' ->
      inside_one R (dr_processors d) path q ->
      exists q', asked_or_not k c q q' c' /\ inside_one R (dr_processors d') path q'
        /\ dr_strategy d' = dr_strategy d /\ dr_paused d' = dr_paused d /\ dr_name d' = dr_name d.
    Proof.
      intros k d de into c d' s c' path q E A.
      assert (H : forall st into c d' s c', add_snapshot_values d de st into k c = Ok (d', s) c' ->
        exists q', asked_or_not k c q q' c' /\ inside_one R (dr_processors d') path q'
          /\ dr_strategy d' = dr_strategy d /\ dr_paused d' = dr_paused d /\ dr_name d' = dr_name d).
      { clear E. intros st into0 c0 d0 s0 c0' E. unfold add_snapshot_values in E. cbv zeta in E.
        apply bind_ok in E. destruct E as ([ps i1] & c1 & E1 & E). apply bind_ok in E. destruct E as ([ss i2] & c2 & E2 & E).
        destruct (inside_one_put HX HY _ _ _ _ A _ _ _ _ _ _ _ E1) as (t' & C1 & A1).
        assert (L2 : later c1 c2).
        { refine (ticks_traverse _ _ _ _ _ _ _ _ _ _ E2). apply Forall_forall. intros x _ s1. apply (tree_put_ticks HX). }
        exists t'. destruct (dr_metrics d) as [i|].
        - apply bind_ok in E. destruct E as (i3 & c3 & E3 & E). apply bind_ok in E. destruct E as ([i4 s4] & c4 & E4 & E).
          injection E as <- <- <-. split; [|auto]. eapply asked_after; [exact C1|]. eapply later_trans; [exact L2|].
          eapply later_trans; [exact (post_snapshot_ticks HX _ _ _ _ _ _ E3) | exact (instruments_put_ticks _ _ _ _ _ _ _ E4)].
        - injection E as <- <- <-. split; [|auto]. eapply asked_after; eassumption. }
      unfold put_values_into_snapshot in E. apply bind_ok in E. destruct E as (st & c1 & E1 & E). apply ticks_now in E1.
      destruct (dr_name d) as [n|].
      - apply bind_ok in E. destruct E as ([d1 s1] & c2 & E2 & E). injection E as <- <- <-.
        destruct (H _ _ _ _ _ _ E2) as (t' & C & A' & S1 & S2). exists t'. split; [eapply asked_before; eassumption | auto].
      - destruct (H _ _ _ _ _ _ E) as (t' & C & A' & S1 & S2). exists t'. split; [eapply asked_before; eassumption | auto].
    Qed.

    Lemma command_through : forall k d c w d1 w1 path q, driver_command d c k w = Ok d1 w1 ->
      inside_one R (dr_processors d) path q -> command_unheld c ->
      exists q', asked_or_not k (w_clock (dw_world w)) q q' (w_clock (dw_world w1)) /\ inside_one R (dr_processors d1) path q'
        /\ dr_strategy d1 = strategy_after (dr_strategy d) [c] /\ dr_paused d1 = paused_after (dr_paused d) [c] /\ dr_name d1 = dr_name d
        /\ w_queues (dw_world w1) = w_queues (dw_world w) /\ w_mounts (dw_world w1) = w_mounts (dw_world w) /\ w_sched (dw_world w1) = w_sched (dw_world w)
        /\ dw_commands w1 = dw_commands w /\ dw_guards w1 = dw_guards w /\ dw_running w1 = dw_running w /\ dw_sched w1 = dw_sched w.
    Proof.
      intros k d c w d1 w1 path q E A Cl.
      assert (Put : forall into b de, (c = CGetSnapshotSync into b de \/ c = CGetSnapshotAsync into b de) ->
        (let* '(d, s) := timed (put_values_into_snapshot d de into) in let* _ := answer b s in ret d) k w = Ok d1 w1 ->
        exists q', asked_or_not k (w_clock (dw_world w)) q q' (w_clock (dw_world w1)) /\ inside_one R (dr_processors d1) path q'
          /\ dr_strategy d1 = strategy_after (dr_strategy d) [c] /\ dr_paused d1 = paused_after (dr_paused d) [c] /\ dr_name d1 = dr_name d
          /\ w_queues (dw_world w1) = w_queues (dw_world w) /\ w_mounts (dw_world w1) = w_mounts (dw_world w) /\ w_sched (dw_world w1) = w_sched (dw_world w)
          /\ dw_commands w1 = dw_commands w /\ dw_guards w1 = dw_guards w /\ dw_running w1 = dw_running w /\ dw_sched w1 = dw_sched w).
      { clear E. intros into b de Hc E. apply bind_ok in E. destruct E as ([d2 s] & w2 & E1 & E).
        apply timed_inv in E1. destruct E1 as (cl & E1 & ->). apply bind_ok in E. destruct E as (u & w3 & E2 & E).
        injection E2 as _ <-. injection E as <- <-.
        destruct (values_through _ _ _ _ _ _ _ _ _ _ E1 A) as (t' & C & A' & S1 & S2 & S3). exists t'.
        cbn [dw_world dw_commands dw_guards dw_running dw_unanswered dw_answers dw_sched w_clock w_queues w_mounts w_sched].
        split; [exact C|]. split; [exact A'|]. destruct Hc as [-> | ->]; auto 12. }
      destruct c; cbn [driver_command] in E; try (eapply Put; [eauto|exact E]); clear Put; injection E as <- <-; exists q;
        (split; [left; split; [reflexivity | apply later_refl]|]); cbn; (split; [|auto 13]); try exact A.
      cbn [command_unheld] in Cl. apply inside_more; [exact A | constructor; [exact Cl | constructor]].
    Qed.

    (** One iteration: perhaps a snapshot, then a collection unless the driver is paused *)
    Lemma iteration_through : forall k d w d1 w1 path q,
      driver_ok w -> unsent w -> valid inv1 (dw_world w) -> inside_one R (dr_processors d) path q ->
      (forall c qm c' s, asked_or_not k c q qm c' -> turns inv1 inv2 1000 s k qm) ->
      driver_iteration d k w = Ok (d1, true) w1 ->
      exists cs qm c,
        moved (dw_commands w) (dw_commands w1) cs /\ (length cs <= 1)%nat
        /\ driver_ok w1 /\ unsent w1 /\ dr_name d1 = dr_name d
        /\ dr_strategy d1 = strategy_after (dr_strategy d) cs /\ dr_paused d1 = paused_after (dr_paused d) cs
        /\ asked_or_not k (w_clock (dw_world w)) q qm c
        /\ let v := World c (w_queues (dw_world w)) (w_mounts (dw_world w)) (w_sched (dw_world w)) in
           if dr_paused d1 then dw_world w1 = v /\ inside_one R (dr_processors d1) path qm
           else exists q', reached R inv1 inv2 1000 (dr_strategy d1) k qm v q' (dw_world w1) /\ inside_one R (dr_processors d1) path q'.
    Proof.
      intros k d w d1 w1 path q Hok Hn V A Tq E. unfold driver_iteration in E.
      apply bind_ok in E. destruct E as (b & wa & E1 & E). destruct (load_cases _ _ _ _ Hok E1) as (Wa & ->).
      destruct (dw_running wa) eqn:Rn; cbn [negb] in E; [|apply bind_ok in E; destruct E as (u & wx & _ & E); discriminate E].
      apply bind_ok in E. destruct E as (t0 & wb & E2 & E). apply timed_inv in E2. destruct E2 as (c2 & E2 & ->). apply ticks_now in E2.
      apply bind_ok in E. destruct E as (rc & wd & E3 & E).
      set (wb := DWorld _ _ _ _ _ _ _) in E3.
      assert (Okb : driver_ok wb) by (apply (ok_same wa); [apply (wt_ok _ _ Wa) | reflexivity..]).
      assert (Na := waited_unsent _ _ Wa Hn).
      assert (Nb : unsent wb) by exact Na.
      destruct (recv_cases _ _ _ _ Okb E3) as (wc & Wc & Er & Ed). clear E3.
      assert (Nc := waited_unsent _ _ Wc Nb).
      assert (C : ch_cap (dw_commands wc) = None) by (apply (wt_ok _ _ Wc)).
      destruct (recv_keeps _ _ _ _ C Er) as (K3 & K4 & K5 & K6 & K7).
      assert (Okd : driver_ok wd) by (rewrite Ed; apply with_ok; auto; apply (wt_ok _ _ Wc)).
      assert (Md := recv_moved (dw_commands wc)). rewrite Er in Md. cbn [fst snd] in Md.
      set (cs := match rc with Message c => [c] | _ => [] end) in *.
      assert (Mw : moved (dw_commands w) (dw_commands wd) cs).
      { change cs with ([] ++ cs). eapply moved_trans; [|exact Md]. change (@nil (command X Y)) with ([] ++ @nil (command X Y)).
        eapply moved_trans; [apply (wt_moved _ _ Wa)|]. exact (wt_moved _ _ Wc). }
      assert (Cl : Forall command_unheld cs /\ Forall command_unheld (ch_queue (dw_commands wd))).
      { destruct Md as (new & M1 & M2). rewrite K7 in M1. rewrite <- (app_nil_r (ch_accepted (dw_commands wc))) in M1 at 1.
        apply app_inv_head in M1. rewrite <- M1, app_nil_r in M2. assert (Q := proj1 Nc). rewrite M2 in Q. apply Forall_app in Q. exact Q. }
      assert (Ww : dw_world wd = World c2 (w_queues (dw_world w)) (w_mounts (dw_world w)) (w_sched (dw_world w))).
      { rewrite Ed. cbn [dw_with dw_world]. rewrite (wt_world _ _ Wc). subst wb. cbn [dw_world]. rewrite (wt_world _ _ Wa). reflexivity. }
      assert (Nd : unsent wd).
      { split; [apply Cl|]. rewrite Ed. cbn [dw_with dw_sched]. apply Nc. }
      assert (Ld : later (w_clock (dw_world w)) c2) by (rewrite <- (wt_world _ _ Wa); exact E2).
      clearbody wb. clear Ed Okb Wa Wc Na Nb Nc E1 E2 Rn Hok Er K3 K4 K5 K6 K7 Md C.
      assert (E' : rc <> Disconnected /\ (let* d := match rc with Message c => driver_command d c | _ => ret d end in
          if dr_paused d then ret (d, true) else let* d := driver_run d t0 in ret (d, true)) k wd = Ok (d1, true) w1).
      { destruct rc; [split; [discriminate | exact E]..|]. apply bind_ok in E. destruct E as (u & wx & _ & E). discriminate E. }
      destruct E' as (Nd0 & E'). clear E. apply bind_ok in E'. destruct E' as (dm & wm & Ec & E).
      assert (Cm : exists qm, asked_or_not k (w_clock (dw_world w)) q qm (w_clock (dw_world wm)) /\ inside_one R (dr_processors dm) path qm
        /\ dr_strategy dm = strategy_after (dr_strategy d) cs /\ dr_paused dm = paused_after (dr_paused d) cs /\ dr_name dm = dr_name d
        /\ w_queues (dw_world wm) = w_queues (dw_world wd) /\ w_mounts (dw_world wm) = w_mounts (dw_world wd) /\ w_sched (dw_world wm) = w_sched (dw_world wd)
        /\ dw_commands wm = dw_commands wd /\ dw_guards wm = dw_guards wd /\ dw_running wm = dw_running wd /\ dw_sched wm = dw_sched wd).
      { destruct rc as [c| |]; [| |congruence].
        - destruct (command_through _ _ _ _ _ _ _ _ Ec A) as (qm & H1 & H2); [destruct Cl as (Cl & _); inversion Cl; assumption|].
          exists qm. split; [|exact H2]. eapply asked_before; [|exact H1]. rewrite Ww. exact Ld.
        - injection Ec as <- <-. exists q. split; [left; split; [reflexivity | rewrite Ww; exact Ld]|]. auto 13. }
      destruct Cm as (qm & Cm & Am & Sm & Pm & Dm & Q1 & Q2 & Q3 & Q4 & Q5 & Q6 & Q7).
      assert (Okm : driver_ok wm) by (apply (ok_same wd); auto).
      assert (Nm : unsent wm) by (unfold unsent; rewrite Q4, Q7; exact Nd).
      assert (Wm : dw_world wm = World (w_clock (dw_world wm)) (w_queues (dw_world w)) (w_mounts (dw_world w)) (w_sched (dw_world w))).
      { rewrite Ww in Q1, Q2, Q3. cbn [w_queues w_mounts w_sched] in Q1, Q2, Q3. rewrite <- Q1, <- Q2, <- Q3. destruct (dw_world wm). reflexivity. }
      assert (Vm : valid inv1 (dw_world wm)) by (rewrite Wm; exact V).
      assert (Len : (length cs <= 1)%nat) by (subst cs; destruct rc; cbn; lia).
      exists cs, qm, (w_clock (dw_world wm)). cbv zeta. rewrite <- Wm. destruct (dr_paused dm) eqn:P.
      - injection E as <- <-. rewrite Q4, P. auto 12.
      - apply bind_ok in E. destruct E as (d3 & w3 & E4 & E). injection E as <- <-.
        destruct (run_through _ _ _ _ _ _ _ _ E4 Am (Tq _ _ _ _ Cm) Vm) as (q' & Re & A1 & S1 & P1 & N1 & C1 & C2 & C3 & C4).
        rewrite C1, Q4, S1, P1, P. split; [exact Mw|]. split; [exact Len|]. split; [apply (ok_same wm); auto|].
        split; [unfold unsent; rewrite C1, C4; exact Nm|]. split; [congruence|]. split; [exact Sm|]. split; [exact Pm|]. split; [exact Cm|].
        exists q'. auto.
    Qed.
  End Receivers.
End Driver.
