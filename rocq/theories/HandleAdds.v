(** What happens to a processor that is added to a driver by a command. *)
From Coq Require Import ZArith Bool String List Lia.
From Verif Require Import Base SpecRun MonadFacts SpecClock ClockProofs ModelObservation ModelSnapshot ModelGauge ModelMeter ModelHistogram
  ModelSwitches ModelInstrument ModelTree
  ModelChannel ModelProcessor ModelDriver TreeEqs TreeInd SpecQueue QueueProofs SpecCollect WorldClockProofs CollectProofs GroupProofs SpecDriver
  DriverProofs DriverLoopProofs DriverMetricsProofs DriverShapeProofs SpecChronicle ChronicleProofs ChronicleDriver ModelHandle SpecHandle HandleAway HandleProofs
  HandleDriver HandleArrives HandleGrows.
Import ListNotations.
Open Scope Z_scope.

Section Adds.
  Context {X : ext} {Y : pext}.
  Context (HX : parts_tick X) (HY : processors_tick Y).
  Implicit Types (d : driver X Y) (w : dworld X Y).

  (** ** The parts of an iteration *)

  Lemma calls_of : forall (P : command X Y -> Prop) l g, Forall (fun a : client_action X Y => match a with Call c => P c | _ => True end) l -> Forall P (called g l).
  Proof.
    intros P l. induction l as [|a l IH]; intros g H; [constructor|]. inversion H; subst. destruct a; cbn [called]; auto.
    apply Forall_app. split; [|auto]. destruct g; [constructor|]. constructor; [assumption | constructor].
  Qed.

  Lemma iteration_parts : forall k d w d1 w1, driver_ok w -> driver_iteration d k w = Ok (d1, true) w1 ->
    exists cs t0 wd dm wm new c2,
      driver_ok wd
      /\ ch_queue (dw_commands w) ++ new = cs ++ ch_queue (dw_commands wd) /\ ch_accepted (dw_commands wd) = ch_accepted (dw_commands w) ++ new
      /\ (forall P : command X Y -> Prop, (forall n, Forall (fun a => match a with Call c => P c | _ => True end) (dw_sched w n)) ->
            Forall P new /\ forall n, Forall (fun a => match a with Call c => P c | _ => True end) (dw_sched wd n))
      /\ (length cs <= 1)%nat /\ (ch_queue (dw_commands w) <> [] -> cs <> [])
      /\ later (w_clock (dw_world w)) c2
      /\ dw_world wd = World c2 (w_queues (dw_world w)) (w_mounts (dw_world w)) (w_sched (dw_world w))
      /\ match cs with [c] => driver_command d c k wd = Ok dm wm | _ => dm = d /\ wm = wd end
      /\ if dr_paused dm then d1 = dm /\ w1 = wm else driver_run dm t0 k wm = Ok d1 w1.
  Proof.
    intros k d w d1 w1 Hok E. unfold driver_iteration in E.
    apply bind_ok in E. destruct E as (b & wa & E1 & E). destruct (load_cases _ _ _ _ Hok E1) as (Wa & ->).
    destruct (dw_running wa) eqn:Rn; cbn [negb] in E; [|apply bind_ok in E; destruct E as (u & wx & _ & E); discriminate E].
    apply bind_ok in E. destruct E as (t0 & wb & E2 & E). apply timed_inv in E2. destruct E2 as (c2 & E2 & ->). apply ticks_now in E2.
    apply bind_ok in E. destruct E as (rc & wd & E3 & E).
    set (wb := DWorld _ _ _ _ _ _ _) in E3.
    assert (Okb : driver_ok wb) by (apply (ok_same wa); [apply (wt_ok _ _ Wa) | reflexivity..]).
    destruct (recv_cases _ _ _ _ Okb E3) as (wc & Wc & Er & Ed). clear E3.
    assert (C : ch_cap (dw_commands wc) = None) by (apply (wt_ok _ _ Wc)).
    destruct (recv_keeps _ _ _ _ C Er) as (K3 & K4 & K5 & K6 & K7).
    assert (Okd : driver_ok wd) by (rewrite Ed; apply with_ok; auto; apply (wt_ok _ _ Wc)).
    set (cs := match rc with Message c => [c] | _ => [] end) in *.
    set (new := called (dw_guards wa) (dw_sched wa O)) in *.
    set (new1 := called (dw_guards w) (dw_sched w O)). set (new2 := called (dw_guards wb) (dw_sched wb O)).
    assert (Qa : ch_queue (dw_commands wa) = ch_queue (dw_commands w) ++ new1).
    { destruct (wt_moved _ _ Wa) as (n & A & Q). rewrite (wt_accepted _ _ Wa) in A. apply app_inv_head in A. subst n. symmetry. exact Q. }
    assert (Qc : ch_queue (dw_commands wc) = ch_queue (dw_commands wa) ++ new2).
    { destruct (wt_moved _ _ Wc) as (n & A & Q). rewrite (wt_accepted _ _ Wc) in A. apply app_inv_head in A. subst n. symmetry. exact Q. }
    assert (Qd : ch_queue (dw_commands wc) = cs ++ ch_queue (dw_commands wd) /\ (ch_queue (dw_commands wc) <> [] -> cs <> [])).
    { unfold chan_try_recv in Er. destruct (ch_queue (dw_commands wc)) as [|x q] eqn:Eq.
      - rewrite C in Er. injection Er as Er <-. split; [|congruence]. subst cs. rewrite <- Er. cbn [ch_queue]. destruct (ch_senders (dw_commands wc)); cbn; congruence.
      - injection Er as Er <-. split; [|subst cs; discriminate]. subst cs. rewrite <- Er. reflexivity. }
    assert (Ww : dw_world wd = World c2 (w_queues (dw_world w)) (w_mounts (dw_world w)) (w_sched (dw_world w))).
    { rewrite Ed. cbn [dw_with dw_world]. rewrite (wt_world _ _ Wc). subst wb. cbn [dw_world]. rewrite (wt_world _ _ Wa). reflexivity. }
    assert (Ld : later (w_clock (dw_world w)) c2) by (rewrite <- (wt_world _ _ Wa); exact E2).
    assert (E' : rc <> Disconnected /\ (let* d := match rc with Message c => driver_command d c | _ => ret d end in
        if dr_paused d then ret (d, true) else let* d := driver_run d t0 in ret (d, true)) k wd = Ok (d1, true) w1).
    { destruct rc; [split; [discriminate | exact E]..|]. apply bind_ok in E. destruct E as (u & wx & _ & E). discriminate E. }
    destruct E' as (Nd0 & E'). clear E. apply bind_ok in E'. destruct E' as (dm & wm & Ec & E).
    exists cs, t0, wd, dm, wm, (new1 ++ new2), c2. split; [exact Okd|].
    split; [rewrite app_assoc, <- Qa, <- Qc; apply Qd|].
    split. { rewrite K7, (wt_accepted _ _ Wc). change (dw_commands wb) with (dw_commands wa). rewrite (wt_accepted _ _ Wa), <- app_assoc. reflexivity. }
    split. { intros P HP. split.
      - apply Forall_app. split; apply calls_of; [apply HP|]. change (dw_sched wb O) with (dw_sched wa O). rewrite (wt_sched _ _ Wa). apply HP.
      - intros n. rewrite Ed. cbn [dw_with dw_sched]. rewrite (wt_sched _ _ Wc). change (dw_sched wb (S n)) with (dw_sched wa (S n)). rewrite (wt_sched _ _ Wa). apply HP. }
    split; [subst cs; destruct rc; cbn; lia|]. split.
    { intros N. apply (proj2 Qd). rewrite Qc, Qa. destruct (ch_queue (dw_commands w)); [congruence | discriminate]. }
    split; [exact Ld|]. split; [exact Ww|]. split.
    { subst cs. destruct rc; [exact Ec | injection Ec as <- <-; auto | congruence]. }
    destruct (dr_paused dm); [injection E as <- <-; auto|]. apply bind_ok in E. destruct E as (d3 & w3 & E4 & E). injection E as <- <-. exact E4.
  Qed.

  (** ** While it waits *)

  Lemma traverse_length : forall A S W (f : A -> S -> St W (A * S)) l s k (w : W) l' s' (w' : W), traverse f l s k w = Ok (l', s') w' -> length l' = length l.
  Proof.
    intros A S W f l. induction l as [|x l IH]; intros s k w l' s' w' E; cbn [traverse] in E; [injection E as <- _ _; reflexivity|].
    apply bind_ok in E. destruct E as ([x1 s1] & w1 & E1 & E). apply bind_ok in E. destruct E as ([xs s2] & w2 & E2 & E). injection E as <- _ _.
    cbn [length]. rewrite (IH _ _ _ _ _ _ E2). reflexivity.
  Qed.

  Section Receivers.
    Variable R : receiver -> Prop.
    Let inv := clear R (X := X) (Y := Y).

    Lemma run_away : forall k d t0 w d1 w1, driver_run d t0 k w = Ok d1 w1 ->
      Forall (fun p => ~ held R p) (dr_processors d) -> valid inv (dw_world w) ->
      step R (dw_world w) (dw_world w1) /\ valid inv (dw_world w1)
      /\ Forall (fun p => ~ held R p) (dr_processors d1) /\ length (dr_processors d1) = length (dr_processors d)
      /\ dr_strategy d1 = dr_strategy d /\ dr_paused d1 = dr_paused d
      /\ dw_commands w1 = dw_commands w /\ dw_guards w1 = dw_guards w /\ dw_running w1 = dw_running w /\ dw_sched w1 = dw_sched w.
    Proof.
      intros k d t0 w d1 w1 E A V. unfold driver_run in E.
      apply bind_ok in E. destruct E as (rs & w2 & E1 & E). apply timed_inv in E1. destruct E1 as (c1 & E1 & ->).
      apply ticks_now in E1.
      apply bind_ok in E. destruct E as ([ps o] & w3 & E2 & E). apply in_world_inv in E2. destruct E2 as (v2 & E2 & ->).
      cbn [dw_world dw_commands dw_guards dw_running dw_answers dw_unanswered dw_sched] in E2, E. cbv zeta in E.
      set (v1 := World c1 _ _ _) in E2. unfold do_a_run in E2.
      assert (Na : ~ Exists (held R) (dr_processors d)) by (apply not_exists; exact A).
      destruct (aways_traverse R inv (fun p => processor_process (fuel k) p 1000 (dr_strategy d)) _ _
                  (fun p Hp => aways_process R inv (clear_kept R) (fuel k) p 1000 (dr_strategy d) Hp) Na k _ _ _ E2 V) as (V2 & U2 & N2). cbn [fst] in N2.
      assert (Ln := traverse_length _ _ _ _ _ _ _ _ _ _ _ E2).
      assert (S2 : step R v1 v2).
      { split; [exact U2|]. split.
        - assert (Tk := wticks_traverse _ _ (collect_one (fun p => processor_process (fuel k) p 1000 (dr_strategy d))) (dr_processors d) outcome_default
              (fun x s0 => ltac:(unfold collect_one; apply wticks_bind; [apply (processor_process_wticks HX HY)|];
                 intros [? ?]; apply wticks_bind; [apply combine_wticks|]; intros; apply wticks_ret))).
          exact (Tk _ _ _ _ E2).
        - apply traverse_collects in E2. destruct E2 as (os & CE & _). exact (collect_each_runs _ _ _ _ _ _ _ _ CE). }
      match type of E with ?m k ?v = _ => assert (Q : quiet m (fun d1 => dr_processors d1 = ps /\ dr_strategy d1 = dr_strategy d /\ dr_paused d1 = dr_paused d)) end.
      { clear E. eapply quiet_bind; [apply quiet_timed, elapsed_ticks|]. intros rt _. eapply quiet_bind; [apply quiet_usize|]. intros dropped _.
        eapply quiet_bind with (P := fun d1 => dr_processors d1 = ps /\ dr_strategy d1 = dr_strategy d /\ dr_paused d1 = dr_paused d).
        { destruct (0 <? dropped); [|apply quiet_ret; auto]. eapply quiet_bind; [apply quiet_timed, elapsed_ticks|]. intros e _.
          destruct (_ <? e); [|apply quiet_ret; auto]. eapply quiet_bind; [apply quiet_timed, ticks_now|]. intros x _. apply quiet_ret. auto. }
        intros d2 D2. eapply quiet_bind with (P := fun _ => True).
        { destruct (dr_metrics d2) as [i|]; [|apply quiet_ret; exact I]. eapply quiet_bind; [apply quiet_timed, (post_collection_ticks HX)|].
          intros i' _. apply quiet_ret. exact I. }
        intros m _. destruct (_ || _); [apply quiet_ret; exact D2|]. eapply quiet_bind; [apply quiet_timed, ticks_now|]. intros x _.
        eapply quiet_bind; [apply quiet_timed, (elapsed_stats_ticks HX)|]. intros m' _. apply quiet_ret. exact D2. }
      destruct (Q _ _ _ _ E) as ((D1 & D2 & D3) & c & L & ->). cbn [dw_world dw_commands dw_guards dw_running dw_answers dw_unanswered dw_sched] in *.
      rewrite D1. split.
      { eapply step_trans; [|eapply step_trans; [exact S2|]].
        - split; [intros r _; unfold untouched, keeps_queue; destruct r; exists []; reflexivity|]. split; [exact E1|].
          split; intros j; exists []; reflexivity.
        - split; [intros r _; unfold untouched, keeps_queue; destruct r; exists []; reflexivity|]. split; [exact L|].
          split; intros j; exists []; reflexivity. }
      split; [exact V2|]. split; [apply not_exists, N2|]. auto 10.
    Qed.

    Lemma values_away : forall k d de into c d' s c', put_values_into_snapshot d de into k c = Ok (d', s) c' ->
      Forall (fun p => ~ held R p) (dr_processors d) ->
      later c c' /\ Forall (fun p => ~ held R p) (dr_processors d') /\ length (dr_processors d') = length (dr_processors d)
      /\ dr_strategy d' = dr_strategy d /\ dr_paused d' = dr_paused d.
    Proof.
      intros k d de into c d' s c' E A.
      assert (H : forall st into c d' s c', add_snapshot_values d de st into k c = Ok (d', s) c' ->
        later c c' /\ Forall (fun p => ~ held R p) (dr_processors d') /\ length (dr_processors d') = length (dr_processors d)
        /\ dr_strategy d' = dr_strategy d /\ dr_paused d' = dr_paused d).
      { clear E. intros st into0 c0 d0 s0 c0' E. unfold add_snapshot_values in E. cbv zeta in E.
        apply bind_ok in E. destruct E as ([ps i1] & c1 & E1 & E). apply bind_ok in E. destruct E as ([ss i2] & c2 & E2 & E).
        destruct (puts_unheld HX HY R _ _ _ _ _ _ _ _ E1 A) as (A1 & L1). assert (Ln := traverse_length _ _ _ _ _ _ _ _ _ _ _ E1).
        assert (L2 : later c1 c2).
        { refine (ticks_traverse _ _ _ _ _ _ _ _ _ _ E2). apply Forall_forall. intros x _ s1. apply (tree_put_ticks HX). }
        destruct (dr_metrics d) as [i|].
        - apply bind_ok in E. destruct E as (i3 & c3 & E3 & E). apply bind_ok in E. destruct E as ([i4 s4] & c4 & E4 & E).
          injection E as <- <- <-. split; [|auto]. eapply later_trans; [exact L1|]. eapply later_trans; [exact L2|].
          eapply later_trans; [exact (post_snapshot_ticks HX _ _ _ _ _ _ E3) | exact (instruments_put_ticks _ _ _ _ _ _ _ E4)].
        - injection E as <- <- <-. split; [|auto]. eapply later_trans; eassumption. }
      unfold put_values_into_snapshot in E. apply bind_ok in E. destruct E as (st & c1 & E1 & E). apply ticks_now in E1.
      destruct (dr_name d) as [n|].
      - apply bind_ok in E. destruct E as ([d1 s1] & c2 & E2 & E). injection E as <- <- <-.
        destruct (H _ _ _ _ _ _ E2) as (L & Rest). split; [eapply later_trans; eassumption | exact Rest].
      - destruct (H _ _ _ _ _ _ E) as (L & Rest). split; [eapply later_trans; eassumption | exact Rest].
    Qed.

    Lemma command_away : forall k d c w d1 w1, driver_command d c k w = Ok d1 w1 ->
      Forall (fun p => ~ held R p) (dr_processors d) -> command_unheld R c ->
      later (w_clock (dw_world w)) (w_clock (dw_world w1)) /\ Forall (fun p => ~ held R p) (dr_processors d1)
      /\ length (dr_processors d1) = (length (dr_processors d) + length (added_processors [c]))%nat
      /\ dr_strategy d1 = strategy_after (dr_strategy d) [c] /\ dr_paused d1 = paused_after (dr_paused d) [c]
      /\ w_queues (dw_world w1) = w_queues (dw_world w) /\ w_mounts (dw_world w1) = w_mounts (dw_world w) /\ w_sched (dw_world w1) = w_sched (dw_world w)
      /\ dw_commands w1 = dw_commands w /\ dw_guards w1 = dw_guards w /\ dw_running w1 = dw_running w /\ dw_sched w1 = dw_sched w.
    Proof.
      intros k d c w d1 w1 E A Cl.
      assert (Put : forall into b de, (c = CGetSnapshotSync into b de \/ c = CGetSnapshotAsync into b de) ->
        (let* '(d, s) := timed (put_values_into_snapshot d de into) in let* _ := answer b s in ret d) k w = Ok d1 w1 ->
        later (w_clock (dw_world w)) (w_clock (dw_world w1)) /\ Forall (fun p => ~ held R p) (dr_processors d1)
        /\ length (dr_processors d1) = (length (dr_processors d) + length (added_processors [c]))%nat
        /\ dr_strategy d1 = strategy_after (dr_strategy d) [c] /\ dr_paused d1 = paused_after (dr_paused d) [c]
        /\ w_queues (dw_world w1) = w_queues (dw_world w) /\ w_mounts (dw_world w1) = w_mounts (dw_world w) /\ w_sched (dw_world w1) = w_sched (dw_world w)
        /\ dw_commands w1 = dw_commands w /\ dw_guards w1 = dw_guards w /\ dw_running w1 = dw_running w /\ dw_sched w1 = dw_sched w).
      { clear E. intros into b de Hc E. apply bind_ok in E. destruct E as ([d2 s] & w2 & E1 & E).
        apply timed_inv in E1. destruct E1 as (cl & E1 & ->). apply bind_ok in E. destruct E as (u & w3 & E2 & E).
        injection E2 as _ <-. injection E as <- <-.
        destruct (values_away _ _ _ _ _ _ _ _ E1 A) as (C & A' & Ln & S1 & S2).
        cbn [dw_world dw_commands dw_guards dw_running dw_unanswered dw_answers dw_sched w_clock w_queues w_mounts w_sched].
        split; [exact C|]. split; [exact A'|]. split; [destruct Hc as [-> | ->]; cbn [added_processors flat_map app length]; lia|]. destruct Hc as [-> | ->]; auto 12. }
      destruct c; cbn [driver_command] in E; try (eapply Put; [eauto|exact E]); clear Put; injection E as <- <-;
        (split; [apply later_refl|]); cbn; (split; [|split; [|auto 13]]); rewrite ?app_length; cbn [length]; try exact A; try lia.
      cbn [command_unheld] in Cl. apply Forall_app. auto.
    Qed.

    (** The commands before it, then the one with it *)
    Record queued (p : processor X Y) (cq : list (command X Y)) d w : Prop := Queued {
      qd_ok : driver_ok w;
      qd_queue : exists more, ch_queue (dw_commands w) = cq ++ CAddProcessor p :: more /\ Forall (command_unheld R) more;
      qd_before : Forall (command_unheld R) cq;
      qd_sched : forall n, Forall (fun a => match a with Call c => command_unheld R c | _ => True end) (dw_sched w n);
      qd_valid : valid inv (dw_world w);
      qd_unheld : Forall (fun p => ~ held R p) (dr_processors d)
    }.

    Lemma queued_next : forall k p c cq d w d1 w1, queued p (c :: cq) d w -> driver_iteration d k w = Ok (d1, true) w1 ->
      queued p cq d1 w1 /\ step R (dw_world w) (dw_world w1) /\ moved (dw_commands w) (dw_commands w1) [c]
      /\ length (dr_processors d1) = (length (dr_processors d) + length (added_processors [c]))%nat
      /\ dr_strategy d1 = strategy_after (dr_strategy d) [c] /\ dr_paused d1 = paused_after (dr_paused d) [c].
    Proof.
      intros k p c cq d w d1 w1 [Ok0 (more & Q & Fm) Fb Fs V A] E.
      destruct (iteration_parts _ _ _ _ _ Ok0 E) as (cs & t0 & wd & dm & wm & new & c2 & Okd & Qn & An & Fn & Len & Ne & L & Ww & Ec & Er).
      rewrite Q in Qn, Ne. specialize (Ne ltac:(discriminate)). destruct cs as [|c' [|]]; [congruence| |cbn in Len; lia].
      cbn [app] in Qn. injection Qn as <- Qn. destruct (Fn _ Fs) as (Fn1 & Fn2). inversion Fb as [|? ? Fc Fb']; subst.
      destruct (command_away _ _ _ _ _ _ Ec A Fc) as (L1 & A1 & Ln & S1 & P1 & W1 & W2 & W3 & C1 & C2 & C3 & C4).
      assert (Okm : driver_ok wm) by (apply (ok_same wd); auto).
      assert (Vm : valid inv (dw_world wm)). { unfold valid. rewrite W2, W3, Ww. exact V. }
      assert (Sm : step R (dw_world w) (dw_world wm)).
      { split.
        - intros r _. unfold untouched, keeps_queue. rewrite W1, W2, Ww. destruct r; exists []; reflexivity.
        - split; [eapply later_trans; [exact L|]; rewrite Ww in L1; exact L1|].
          split; intros j; rewrite ?W1, ?W2, Ww; exists []; reflexivity. }
      assert (Qm : ch_queue (dw_commands wm) = cq ++ CAddProcessor p :: more ++ new) by (rewrite C1, <- Qn, <- app_assoc; reflexivity).
      assert (Fm' : Forall (command_unheld R) (more ++ new)) by (apply Forall_app; auto).
      assert (Mv : moved (dw_commands w) (dw_commands wm) [c]).
      { exists new. split; [rewrite C1; exact An|]. rewrite Q, C1. cbn [app]. rewrite <- Qn. reflexivity. }
      destruct (dr_paused dm) eqn:P.
      - destruct Er as (-> & ->). split; [|split; [exact Sm|]; split; [exact Mv|]; split; [exact Ln|]; split; congruence]. split; [exact Okm | eauto | exact Fb' | rewrite C4; exact Fn2 | exact Vm | exact A1].
      - destruct (run_away _ _ _ _ _ _ Er A1 Vm) as (Sr & Vr & Ar & Lr & Sr2 & Pr & D1 & D2 & D3 & D4).
        split; [split|].
        + apply (ok_same wm); auto.
        + exists (more ++ new). rewrite D1. auto.
        + exact Fb'.
        + rewrite D4, C4. exact Fn2.
        + exact Vr.
        + exact Ar.
        + split; [eapply step_trans; eassumption|]. rewrite D1. split; [exact Mv|]. split; [lia|]. split; congruence.
    Qed.

    (** It is added. *)
    Lemma queued_added : forall k p d w d1 w1, queued p [] d w -> driver_iteration d k w = Ok (d1, true) w1 ->
      exists t0 dm wm,
        moved (dw_commands w) (dw_commands wm) [CAddProcessor p] /\ driver_ok wm /\ unsent R wm
        /\ dr_processors dm = dr_processors d ++ [p] /\ dr_strategy dm = dr_strategy d /\ dr_paused dm = dr_paused d
        /\ step R (dw_world w) (dw_world wm) /\ valid inv (dw_world wm)
        /\ if dr_paused dm then d1 = dm /\ w1 = wm else driver_run dm t0 k wm = Ok d1 w1.
    Proof.
      intros k p d w d1 w1 [Ok0 (more & Q & Fm) Fb Fs V A] E.
      destruct (iteration_parts _ _ _ _ _ Ok0 E) as (cs & t0 & wd & dm & wm & new & c2 & Okd & Qn & An & Fn & Len & Ne & L & Ww & Ec & Er).
      rewrite Q in Qn, Ne. specialize (Ne ltac:(discriminate)). destruct cs as [|c' [|]]; [congruence| |cbn in Len; lia].
      cbn [app] in Qn. injection Qn as <- Qn. destruct (Fn _ Fs) as (Fn1 & Fn2).
      cbn [driver_command] in Ec. injection Ec as Ed <-. exists t0, dm, wd.
      split; [exists new; split; [exact An | rewrite Q; cbn [app]; rewrite <- Qn; reflexivity]|]. split; [exact Okd|].
      split; [split; [rewrite <- Qn; apply Forall_app; auto | exact Fn2]|].
      split; [rewrite <- Ed; reflexivity|]. split; [rewrite <- Ed; reflexivity|]. split; [rewrite <- Ed; reflexivity|]. split.
      { split; [|split; [rewrite Ww; exact L|]].
        - intros r _. unfold untouched, keeps_queue. rewrite Ww. destruct r; exists []; reflexivity.
        - split; intros j; rewrite Ww; exists []; reflexivity. }
      split; [unfold valid; rewrite Ww; exact V | exact Er].
    Qed.

    Lemma strategy_next : forall s c (cq : list (command X Y)), strategy_after (strategy_after s [c]) cq = strategy_after s (c :: cq).
    Proof. intros s [] cq; reflexivity. Qed.
    Lemma paused_next : forall s c (cq : list (command X Y)), paused_after (paused_after s [c]) cq = paused_after s (c :: cq).
    Proof. intros s [] cq; reflexivity. Qed.

    Lemma queued_iterates : forall k p cq n d w d' w', iterates k n d w d' w' -> queued p cq d w ->
      (n <= length cq)%nat /\ moved (dw_commands w) (dw_commands w') (firstn n cq) /\ step R (dw_world w) (dw_world w') /\ queued p (skipn n cq) d' w'
      \/ exists da wa t0 dm wm db wb n2,
           n = (length cq + S n2)%nat /\ moved (dw_commands w) (dw_commands wm) (cq ++ [CAddProcessor p])
           /\ step R (dw_world w) (dw_world wm) /\ valid inv (dw_world wm) /\ driver_ok wm /\ unsent R wm
           /\ Forall (fun p => ~ held R p) (dr_processors da) /\ length (dr_processors da) = (length (dr_processors d) + length (added_processors cq))%nat
           /\ dr_processors dm = dr_processors da ++ [p]
           /\ dr_strategy dm = strategy_after (dr_strategy d) cq /\ dr_paused dm = paused_after (dr_paused d) cq
           /\ driver_iteration da k wa = Ok (db, true) wb
           /\ (if dr_paused dm then db = dm /\ wb = wm else driver_run dm t0 k wm = Ok db wb)
           /\ iterates k n2 db wb d' w'.
    Proof.
      intros k p cq n d w d' w' H. revert cq. induction H as [d w|n d w d1 w1 d2 w2 E H IH]; intros cq Qd.
      - left. split; [lia|]. cbn [firstn skipn]. split; [apply moved_refl|]. split; [apply step_refl | exact Qd].
      - destruct cq as [|c cq].
        + right. destruct (queued_added _ _ _ _ _ _ Qd E) as (t0 & dm & wm & H1 & H2 & H3 & H4 & H5 & H6 & H7 & H8 & H9).
          exists d, w, t0, dm, wm, d1, w1, n. cbn [length app added_processors flat_map]. rewrite H5, H6 in *.
          split; [reflexivity|]. split; [exact H1|]. split; [exact H7|]. split; [exact H8|]. split; [exact H2|]. split; [exact H3|].
          split; [apply Qd|]. split; [lia|]. auto 8.
        + destruct (queued_next _ _ _ _ _ _ _ _ Qd E) as (Q1 & S1 & M1 & L1 & G1 & P1).
          destruct (IH _ Q1) as [(A1 & A2 & A3 & A4)|(da & wa & t0 & dm & wm & db & wb & n2 & A1 & A2 & A3 & A4 & A5 & A6 & A7 & A8 & A9 & A10 & A11 & A12)].
          * left. cbn [length firstn skipn]. split; [lia|]. split; [change (c :: firstn n cq) with ([c] ++ firstn n cq); eapply moved_trans; eassumption|].
            split; [eapply step_trans; eassumption | exact A4].
          * right. exists da, wa, t0, dm, wm, db, wb, n2. cbn [length]. split; [lia|].
            split; [change ((c :: cq) ++ [CAddProcessor p]) with ([c] ++ (cq ++ [CAddProcessor p])); eapply moved_trans; eassumption|].
            split; [eapply step_trans; eassumption|]. split; [exact A4|]. split; [exact A5|]. split; [exact A6|]. split; [exact A7|].
            split. { rewrite A8, L1. unfold added_processors. cbn [flat_map]. rewrite !app_length. cbn [length]. lia. }
            split; [exact A9|]. rewrite <- strategy_next, <- paused_next, <- G1, <- P1. auto.
    Qed.
  End Receivers.

  Lemma asked_by : forall (R : receiver -> Prop) p d w, driver_ok w -> dw_guards w <> O -> (forall r, R r -> nobody_else r w) ->
    Forall (fun p => ~ held R p) (dr_processors d) ->
    queued R p (ch_queue (dw_commands w)) d (client_act w (Call (call_add_processor p))).
  Proof.
    intros R p d w Ok0 G N A. apply nobody_iff in N. destruct N as (V & U1 & U2).
    assert (Ok1 := client_act_ok (Call (call_add_processor p)) w Ok0).
    unfold client_act in *. destruct (dw_guards w) as [|g] eqn:Eg; [congruence|].
    destruct Ok0 as (K1 & K2 & K3 & K4 & _).
    split; [exact Ok1| |exact U1|exact U2|exact V|exact A].
    exists []. split; [|constructor]. cbn [dw_with dw_commands].
    destruct (dw_commands w) as [cap q wt sn rc ac lo]. cbn in *. subst cap wt rc.
    destruct sn; [exfalso; lia|]. reflexivity.
  Qed.

  (** ** A processor for telemetry data *)

  Lemma add_tele : forall k n d w d' w' p path0 t,
    let i := tp_receiver t in
    let cq := ch_queue (dw_commands w) in
    driver_ok w -> dw_guards w <> O -> nobody_else (QueueReceiver i) w -> Forall (fun p => ~ holds (QueueReceiver i) p) (dr_processors d) ->
    located (QueueReceiver i) p path0 t ->
    iterates k n d (client_act w (Call (call_add_processor p))) d' w' ->
    exists css es t',
      length css = (n - length cq)%nat
      /\ moved (dw_commands (client_act w (Call (call_add_processor p)))) (dw_commands w') (firstn n cq ++ concat css)
      /\ map (@en_strategy X) es = strategies (strategy_after (dr_strategy d) cq) (paused_after (dr_paused d) cq) css
      /\ chronicle k (w_clock (dw_world w)) t es t' (w_clock (dw_world w'))
      /\ Forall (fun e => (length (en_messages e) <= 1000)%nat) es
      /\ moved (queue_of i w) (queue_of i w') (flat_map (@en_messages X) es)
      /\ ((length cq < n)%nat -> hd_error css = Some [CAddProcessor p]
           /\ among (QueueReceiver i) (dr_processors d') (Position (length (dr_processors d) + length (added_processors cq)) :: path0) t'
           /\ nobody_else (QueueReceiver i) w')
      /\ (attentive i t (dw_world w) -> attentive i t' (dw_world w')
           /\ exists rest, flat_map (@en_messages X) es = firstn (1000 * length es) (ch_queue (queue_of i w)) ++ rest).
  Proof.
    intros k n d w d' w' p path0 t i cq Ok0 G N A L H.
    set (R := fun r => r = QueueReceiver i). assert (Rt : R (QueueReceiver i)) by reflexivity.
    assert (Qd : queued R p cq d (client_act w (Call (call_add_processor p)))).
    { apply asked_by; [exact Ok0 | exact G | intros r ->; exact N|]. eapply Forall_impl; [|exact A]. intros q Hq (r & -> & Hr). exact (Hq Hr). }
    set (w1 := client_act w (Call (call_add_processor p))) in *.
    assert (Ww : dw_world w1 = dw_world w) by (apply client_act_others). rewrite <- Ww. unfold queue_of. rewrite <- Ww.
    destruct (queued_iterates R _ _ _ _ _ _ _ _ H Qd) as [(A1 & A2 & A3 & A4)
      |(da & wa & t0 & dm & wm & db & wb & n2 & A1 & A2 & A3 & A4 & A5 & A6 & A7 & A8 & A9 & A10 & A11 & A12 & A13 & A14)].
    - exists [], [], t. destruct A3 as (U & Lt & Rn). assert (Mv := keeps_moved _ _ _ (U _ Rt)).
      split; [cbn [length]; lia|]. cbn [concat]. rewrite app_nil_r. split; [exact A2|]. split; [reflexivity|].
      split; [apply cr_end; exact Lt|]. split; [constructor|]. split; [exact Mv|]. split; [intros Hn; exfalso; lia|].
      intros At. split; [exact (attentive_runs _ _ _ _ Rn At)|]. exists []. reflexivity.
    - destruct A3 as (U & Lt & Rn). assert (Mv := keeps_moved _ _ _ (U _ Rt)).
      set (pos := (length (dr_processors d) + length (added_processors cq))%nat).
      assert (Am : among (QueueReceiver i) (dr_processors dm) (Position pos :: path0) t).
      { rewrite A9. subst pos. rewrite <- A8. constructor; [|exact L | constructor].
        eapply Forall_impl; [|exact A7]. intros q Hq Hr. apply Hq. exists (QueueReceiver i). auto. }
      assert (Fm : foreign (QueueReceiver i) (dw_world wm)) by (apply (proj1 (clear_iff R (dw_world wm)) A4 _ Rt)).
      assert (S : exists es1 t1, map (@en_strategy X) es1 = (if dr_paused dm then [] else [dr_strategy dm])
                    /\ chronicle k (w_clock (dw_world wm)) t es1 t1 (w_clock (dw_world wb)) /\ Forall (fun e => (length (en_messages e) <= 1000)%nat) es1
                    /\ moved (w_queues (dw_world wm) i) (w_queues (dw_world wb) i) (flat_map (@en_messages X) es1)
                    /\ tp_receiver t1 = i /\ among (QueueReceiver i) (dr_processors db) (Position pos :: path0) t1
                    /\ driver_ok wb /\ nobody_else (QueueReceiver i) wb /\ dr_strategy db = dr_strategy dm /\ dr_paused db = dr_paused dm
                    /\ dw_commands wb = dw_commands wm
                    /\ (attentive i t (dw_world wm) -> attentive i t1 (dw_world wb)
                         /\ exists rest, flat_map (@en_messages X) es1 = firstn (1000 * length es1) (ch_queue (w_queues (dw_world wm) i)) ++ rest)).
      { destruct (dr_paused dm) eqn:P.
        - destruct A13 as (-> & ->). exists [], t. split; [reflexivity|]. split; [apply cr_end, later_refl|]. split; [constructor|].
          split; [apply moved_refl|]. split; [reflexivity|]. split; [exact Am|]. split; [exact A5|].
          split; [apply (proj2 (nobody_iff R wm)); auto|]. split; [reflexivity|]. split; [exact P|]. split; [reflexivity|].
          intros At. split; [exact At|]. exists []. reflexivity.
        - destruct (run_located HX HY _ _ _ _ _ _ _ _ _ A13 Am Fm) as (t1 & Vi & Am1 & F1 & S1 & S2 & S3 & S4 & S5 & S6).
          destruct (visited_chronicle HX _ _ _ _ _ _ _ Vi) as (start & ms & V1 & V2 & V3 & V4 & V5). fold i in V2, V4, V5.
          exists [Entry start (dr_strategy dm) ms], t1. split; [reflexivity|]. split; [exact V1|]. split; [constructor; [exact V3 | constructor]|].
          cbn [flat_map en_messages length]. rewrite app_nil_r. split; [exact V2|]. split; [exact V4|]. split; [exact Am1|].
          split; [apply (ok_same wm); auto|]. split.
          { destruct A6 as (U1 & U2). split; [exact F1|]. rewrite S3, S6. split.
            - eapply Forall_impl; [|exact U1]. intros c Hc. apply (proj1 (unheld_each R c) Hc). reflexivity.
            - intros m. eapply Forall_impl; [|exact (U2 m)]. intros [c| | |] Hc; cbn; auto. apply (proj1 (unheld_each R c) Hc). reflexivity. }
          split; [exact S1|]. split; [congruence|]. split; [exact S3|]. intros At. rewrite Nat.mul_1_r. exact (V5 At). }
      destruct S as (es1 & t1 & B1 & B2 & B3 & B4 & B5 & B6 & B7 & B8 & B9 & B10 & B11 & B12).
      assert (It := iterates_located HX HY k n2 db wb d' w' (Position pos :: path0) t1 A14 B7).
      cbv zeta in It. rewrite B5 in It. destruct (It B8 B6) as (css2 & es2 & t2 & I1 & I2 & I3 & I4 & I5 & I6 & I7 & I8 & I9 & I10 & I11 & I12).
      exists ([CAddProcessor p] :: css2), (es1 ++ es2), t2.
      split; [cbn [length]; lia|]. split.
      { cbn [concat]. rewrite firstn_all2 by lia. rewrite app_assoc. eapply moved_trans; [exact A2|]. rewrite <- B11. exact I3. }
      split. { cbn [strategies]. change (strategy_after ?s [CAddProcessor p]) with s. change (paused_after ?s [CAddProcessor p]) with s.
        rewrite map_app, B1, I4, B9, B10, A10, A11. destruct (paused_after (dr_paused d) cq); reflexivity. }
      split. { eapply chronicle_before; [exact Lt|]. eapply chronicle_app; eassumption. }
      split; [apply Forall_app; auto|].
      rewrite flat_map_app. split. { change (flat_map (@en_messages X) es1) with ([] ++ flat_map (@en_messages X) es1).
        eapply moved_trans; [eapply moved_trans; [exact Mv | exact B4] | exact I9]. }
      split; [intros _; auto|]. intros At.
      destruct (B12 (attentive_runs _ _ _ _ Rn At)) as (At1 & rest1 & P1). destruct (I12 At1) as (At2 & rest2 & P2). split; [exact At2|].
      assert (Ps : exists rest, flat_map (@en_messages X) es1 ++ flat_map (@en_messages X) es2
                     = firstn (1000 * length es1 + 1000 * length es2) (ch_queue (w_queues (dw_world wm) i)) ++ rest).
      { destruct B4 as (new & _ & Qv). eapply prefix_trans; [exact Qv | exact P1 | exact P2]. }
      destruct Ps as (rest & ->). destruct Mv as (new & _ & Qv). cbn [app] in Qv. rewrite <- Qv, app_length, Nat.mul_add_distr_l, firstn_app, <- app_assoc.
      eexists. reflexivity.
  Qed.

  (** ** Any processor *)

  Lemma add_any : forall (R : receiver -> Prop) k n d w d' w' p,
    let cq := ch_queue (dw_commands w) in
    driver_ok w -> dw_guards w <> O -> (forall r, R r -> nobody_else r w) -> Forall (fun p => ~ held R p) (dr_processors d) ->
    iterates k n d (client_act w (Call (call_add_processor p))) d' w' -> (length cq < n)%nat ->
    exists p', evolves k p p' /\ inside_one R (dr_processors d') [Position (length (dr_processors d) + length (added_processors cq))] p'
      /\ driver_ok w' /\ forall r, R r -> nobody_else r w'.
  Proof.
    intros R k n d w d' w' p cq Ok0 G N A H Hn.
    assert (Qd := asked_by R p d w Ok0 G N A). fold cq in Qd.
    destruct (queued_iterates R _ _ _ _ _ _ _ _ H Qd) as [(A1 & _)
      |(da & wa & t0 & dm & wm & db & wb & n2 & A1 & A2 & A3 & A4 & A5 & A6 & A7 & A8 & A9 & A10 & A11 & A12 & A13 & A14)]; [exfalso; lia|].
    set (pos := (length (dr_processors d) + length (added_processors cq))%nat).
    assert (Im : inside_one R (dr_processors dm) [Position pos] p).
    { rewrite A9. subst pos. rewrite <- A8. constructor; [exact A7 | constructor | constructor]. }
    assert (S : exists p1, evolves k p p1 /\ inside_one R (dr_processors db) [Position pos] p1 /\ driver_ok wb /\ forall r, R r -> nobody_else r wb).
    { destruct (dr_paused dm).
      - destruct A13 as (-> & ->). exists p. split; [apply ev_same|]. split; [exact Im|]. split; [exact A5|]. apply nobody_iff. auto.
      - destruct (run_through HX HY R (clear R) (clear R) (clear_kept R) (clear_kept R) _ _ _ _ _ _ _ _ A13 Im (clear_turns R _ _ _ _) A4)
          as (p1 & (m & v1 & o & v2 & _ & _ & Ep & _ & V2) & I1 & _ & _ & _ & C1 & C2 & C3 & C4).
        exists p1. split; [eapply ev_collected; [exists m; exact Ep | apply ev_same]|]. split; [exact I1|]. split; [apply (ok_same wm); auto|].
        apply nobody_iff. split; [exact V2|]. unfold unsent. rewrite C1, C4. exact A6. }
    destruct S as (p1 & Ev & I1 & Okb & Nb). destruct (stays HX HY R k n2 db wb d' w' _ _ A14 Okb Nb I1) as (css2 & p2 & _ & _ & _ & C4 & C5 & C6 & C7 & _).
    exists p2. split; [eapply evolves_trans; eassumption|]. auto.
  Qed.
End Adds.
