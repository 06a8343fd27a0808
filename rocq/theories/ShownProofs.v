(** Where the snapshooters of mounts and drivers are shown. *)
From Coq Require Import ZArith Bool String List Lia.
From Verif Require Import Base SpecRun MonadFacts ModelObservation ModelLabelFilter ModelSnapshot ModelCounter ModelGauge ModelMeter
  ModelHistogram ModelInstrument ModelTree ModelChannel ModelProcessor ModelDriver SpecClock SpecWriting SpecNames SpecTree SpecQueue SpecCollect
  SpecDriver SpecChronicle SpecSite SpecLife SpecLives SpecShown TreeInd TreeEqs TreeProofs ClockProofs WorldClockProofs WritingProofs AppendProofs
  DriverProofs DriverShapeProofs ChronicleDriver SiteProofs SiteDriver LivesProofs LivesDriver.
Import ListNotations.
Open Scope list_scope.
Open Scope Z_scope.

Scheme processor_shows_min := Minimality for processor_shows Sort Prop
  with mount_shows_min := Minimality for mount_shows Sort Prop.
Combined Scheme shows_ind from processor_shows_min, mount_shows_min.

Section Shown.
  Context {X : ext} {Y : pext} (HX : parts_tick X) (HY : processors_tick Y) (HA : parts_append X) (HB : forall u, appends (user_proc_put Y u)).

  (** ** Collecting *)

  Lemma collect_nth : forall (f : processor X Y -> St (world X Y) (processor X Y * outcome)) k l j p, nth_error l j = Some p ->
    forall acc w l' acc' w', traverse (collect_one f) l acc k w = Ok (l', acc') w' ->
    exists p' o w0 w1, f p k w0 = Ok (p', o) w1 /\ nth_error l' j = Some p'.
  Proof.
    intros f k l. induction l as [|q l IH]; intros j p Hj acc w l' acc' w' E; [destruct j; discriminate Hj|].
    cbn [traverse] in E. apply bind_ok in E. destruct E as ([q' a1] & w1 & E1 & E).
    apply bind_ok in E. destruct E as ([l1 a2] & w2 & E2 & E). injection E as <- <- <-.
    destruct j as [|j]; cbn [nth_error] in *.
    - injection Hj as ->. unfold collect_one in E1. apply bind_ok in E1. destruct E1 as ([p' o] & w3 & E3 & E1).
      apply bind_ok in E1. destruct E1 as (a3 & w4 & _ & E1). injection E1 as <- <- <-. exists p', o, w, w3. auto.
    - exact (IH _ _ Hj _ _ _ _ _ E2).
  Qed.

  Lemma nth_more : forall A (l m : list A) j x, nth_error l j = Some x -> nth_error (l ++ m) j = Some x.
  Proof. intros A l m j x H. rewrite nth_error_app1; [exact H|]. apply nth_error_Some. congruence. Qed.

  (** More processors and snapshooters at the end of the lists *)
  Lemma shows_more : forall d ps (ss : list (snapshooter X)) path names gs s ps2 ss2,
    mount_shows (Y := Y) (Mount d ps ss) path names gs s -> mount_shows (Mount d (ps ++ ps2) (ss ++ ss2)) path names gs s.
  Proof.
    intros d ps ss path names gs s ps2 ss2 H. inversion H; subst.
    - apply sh_here. apply nth_more. assumption.
    - eapply sh_below; [apply nth_more; eassumption | assumption].
  Qed.

  Lemma drain_more : forall n i d ps ss k (w : world X Y) m' b w', attached_drain n i (Mount d ps ss) k w = Ok (m', b) w' ->
    exists ps2 ss2, m' = Mount d (ps ++ ps2) (ss ++ ss2).
  Proof.
    induction n as [|n IH]; intros i d ps ss k w m' b w' E; cbn [attached_drain] in E; [discriminate E|].
    apply bind_ok in E. destruct E as (r & w1 & _ & E). destruct r as [x| |].
    - destruct x as [p|s]; cbn [mount_add] in E; destruct (IH _ _ _ _ _ _ _ _ _ E) as (ps2 & ss2 & ->).
      + exists (p :: ps2), ss2. rewrite <- app_assoc. reflexivity.
      + exists ps2, (s :: ss2). rewrite <- app_assoc. reflexivity.
    - injection E as <- _ _. exists [], []. rewrite !app_nil_r. reflexivity.
    - injection E as <- _ _. exists [], []. rewrite !app_nil_r. reflexivity.
  Qed.

  Definition processing (n : nat) : Prop :=
    forall p path names gs s, processor_shows p path names gs s ->
    forall max st k w p' o w', processor_process n p max st k w = Ok (p', o) w' ->
    exists gs', processor_shows (X := X) (Y := Y) p' path names gs' s /\ alike gs gs'.

  Lemma mount_shows_process : forall n, processing n -> forall m path names gs s, mount_shows m path names gs s ->
    forall max st k w m' o w', mount_process (fun p => processor_process n p max st) m k w = Ok (m', o) w' ->
    exists gs', mount_shows (X := X) (Y := Y) m' path names gs' s /\ alike gs gs'.
  Proof.
    intros n IH m path names gs s H max st k w m' o w' E.
    assert (T : forall d ps ss path names gs s, mount_shows (X := X) (Y := Y) (Mount d ps ss) path names gs s ->
      forall t, exists gs', mount_shows (Mount (mount_touch d t) ps ss) path names gs' s /\ alike gs gs').
    { intros d ps ss path0 names0 gs0 s0 H0 t. inversion H0; subst.
      - exists [mount_guard (mount_touch d t)]. split; [apply (sh_here (mount_touch d t)); assumption | al].
      - eexists (mount_guard (mount_touch d t) :: _). split; [eapply (sh_below (mount_touch d t)); eassumption | al]. }
    destruct m as [d ps ss]. unfold mount_process in E. apply bind_ok in E. destruct E as ([ps' o1] & w1 & E1 & E).
    assert (R : exists gs', mount_shows (Mount d ps' ss) path names gs' s /\ alike gs gs').
    { inversion H; subst.
      - exists [mount_guard d]. split; [apply sh_here; assumption | al].
      - match goal with Hj : nth_error ps _ = Some _, Hp : processor_shows _ _ _ _ _ |- _ =>
          destruct (collect_nth _ _ _ _ _ Hj _ _ _ _ _ E1) as (p' & o2 & w2 & w3 & E2 & Hj');
          destruct (IH _ _ _ _ _ Hp _ _ _ _ _ _ _ E2) as (gs' & Hs' & A) end.
        exists (mount_guard d :: gs'). split; [eapply sh_below; eassumption | al]. }
    destruct R as (gs1 & R1 & R2). destruct (something_happened o1).
    - apply bind_ok in E. destruct E as (t & w2 & _ & E). injection E as <- _ _.
      destruct (T _ _ _ _ _ _ _ R1 t) as (gs2 & T1 & T2). exists gs2. split; [exact T1 | eapply alike_trans; eassumption].
    - injection E as <- _ _. eauto.
  Qed.

  Lemma process_shows : forall n, processing n.
  Proof.
    induction n as [|n IH]; intros p path names gs s H max st k w p' o w' E; cbn [processor_process] in E; [discriminate E|].
    destruct H as [m path names gs s H|r m path names gs s H].
    - apply bind_ok in E. destruct E as ([m' o1] & w1 & E1 & E). injection E as <- _ _.
      destruct (mount_shows_process n IH _ _ _ _ _ H _ _ _ _ _ _ _ E1) as (gs' & H' & A). exists gs'. split; [constructor; exact H' | exact A].
    - apply bind_ok in E. destruct E as ([r1 m1] & w1 & E1 & E). apply bind_ok in E. destruct E as ([m' o1] & w2 & E2 & E). injection E as <- _ _.
      assert (H1 : mount_shows m1 path names gs s).
      { unfold attached_take in E1. destruct r as [i|]; [|injection E1 as _ <- _; exact H].
        apply bind_ok in E1. destruct E1 as ([m2 b] & w3 & E3 & E1). injection E1 as _ <- _.
        destruct m as [d ps ss]. destruct (drain_more _ _ _ _ _ _ _ _ _ _ E3) as (ps2 & ss2 & ->). apply shows_more, H. }
      destruct (mount_shows_process n IH _ _ _ _ _ H1 _ _ _ _ _ _ _ E2) as (gs' & H' & A). exists gs'. split; [constructor; exact H' | exact A].
  Qed.

  (** ** Snapshots *)

  Definition shooting {A} (put : A -> bool -> snapshot -> M (A * snapshot)) (shows : A -> snapshooter X -> Prop) (names : list string) (gs : list guard)
    (p : A) (s : snapshooter X) : Prop :=
    forall de into k c p' out c', put p de into k c = Ok (p', out) c' ->
    exists s' added, shows p' s' /\ out = into ++ added /\ presented k c names gs (LShown s) (LShown s') de added c'.

  Lemma shows_put :
    (forall p path names gs s, processor_shows p path names gs s ->
       shooting (@processor_put X Y) (fun p => processor_shows p path names gs) names gs p s)
    /\ (forall m path names gs s, mount_shows m path names gs s ->
       shooting (@mount_put X Y) (fun m => mount_shows m path names gs) names gs m s).
  Proof.
    destruct (tree_put_ticks HX) as (_ & _ & _ & Ts). destruct (tree_appends HA) as (_ & _ & _ & Gs).
    apply shows_ind.
    - intros m path names gs s _ IH de into k c p' out c' E. cbn [processor_put] in E. unfold wrap in E.
      apply bind_ok in E. destruct E as ([m' o] & c1 & E1 & E). injection E as <- <- <-.
      destruct (IH _ _ _ _ _ _ _ E1) as (s' & added & H & R). exists s', added. split; [constructor; exact H | exact R].
    - intros r m path names gs s _ IH de into k c p' out c' E. cbn [processor_put] in E. unfold wrap in E.
      apply bind_ok in E. destruct E as ([m' o] & c1 & E1 & E). injection E as <- <- <-.
      destruct (IH _ _ _ _ _ _ _ E1) as (s' & added & H & R). exists s', added. split; [constructor; exact H | exact R].
    - intros d ps ss j s Hj de into k c m' out c' E. rewrite mount_put_eq in E. apply guarded_put in E.
      destruct E as [(-> & Hh & added & ->)|(level & s1 & c1 & L & E & H)].
      { exists s, added. split; [apply sh_here, Hj|]. split; [reflexivity|]. apply presented_hidden, Hh. }
      apply bind_ok in E. destruct E as ([ps' s2] & c2 & E2 & E). apply bind_ok in E. destruct E as ([ss' s3] & c3 & E3 & E). injection E as <- <- <-.
      destruct (processors_put_all HX HY HA HB de ps) as (Tp & Gp).
      destruct (grows_traverse _ _ _ _ Gp _ _ _ _ _ E2) as (a2 & ->).
      destruct (traverse_put_nth _ _ _ _ _ Hj (all_put _ _ _ Ts _) (all_grow _ _ _ Gs _) _ _ _ _ _ _ E3)
        as (q & s0 & b & d1 & d2 & K1 & F & K2 & Hj' & before & after & ->).
      destruct (H ((a2 ++ before) ++ b ++ after)) as (more & -> & Hm); [rewrite <- !app_assoc; reflexivity|].
      exists q, more. split; [apply sh_here, Hj'|]. split; [reflexivity|].
      eapply (presented_in _ _ d1 d2 _ _ _ _ _ _ s0 b (a2 ++ before) after); [| | exact K2 | reflexivity | exact Hm].
      + eapply later_trans; [exact L|]. eapply later_trans; [exact (ticks_traverse _ _ _ _ _ Tp _ _ _ _ E2) | exact K1].
      + exact (leaf_put_shown _ _ _ _ _ _ _ _ F).
    - intros d ps ss j p path names gs s Hj Hp IH de into k c m' out c' E. rewrite mount_put_eq in E. apply guarded_put in E.
      destruct E as [(-> & Hh & added & ->)|(level & s1 & c1 & L & E & H)].
      { exists s, added. split; [eapply sh_below; eassumption|]. split; [reflexivity|]. apply presented_hidden, Hh. }
      apply bind_ok in E. destruct E as ([ps' s2] & c2 & E2 & E). apply bind_ok in E. destruct E as ([ss' s3] & c3 & E3 & E). injection E as <- <- <-.
      destruct (grows_traverse _ _ _ _ (all_grow _ _ _ Gs _) _ _ _ _ _ E3) as (a3 & ->).
      destruct (processors_put_all HX HY HA HB de ps) as (Tp & Gp).
      destruct (traverse_put_nth _ _ _ _ _ Hj Tp Gp _ _ _ _ _ _ E2) as (p' & s0 & b & d1 & d2 & K1 & F & K2 & Hj' & before & after & ->).
      destruct (IH _ _ _ _ _ _ _ F) as (s' & b' & H' & Eb & P). apply app_inv_head in Eb. subst b'.
      destruct (H (before ++ b ++ after ++ a3)) as (more & -> & Hm); [rewrite <- !app_assoc; reflexivity|].
      exists s', more. split; [eapply sh_below; eassumption|]. split; [reflexivity|].
      eapply presented_lift; [| | | exact P].
      + eauto using later_trans.
      + eapply later_trans; [exact K2|]. exact (ticks_traverse _ _ _ _ _ (all_put _ _ _ Ts _) _ _ _ _ E3).
      + intros fields Hc. apply Hm. apply contains_widen. exact Hc.
  Qed.

  Lemma alike_refl : forall gs, alike gs gs.
  Proof. intros gs. induction gs; constructor; auto. Qed.

  (** ** A driver *)

  Lemma values_shows : forall (d : driver X Y) path names gs s de into k c d' out c',
    driver_shows d path names gs s -> put_values_into_snapshot d de into k c = Ok (d', out) c' ->
    exists s' added, driver_shows d' path names gs s' /\ out = into ++ added /\ presented k c names gs (LShown s) (LShown s') de added c'.
  Proof.
    intros d path names gs s de into k c d' out c' S E.
    assert (V : forall st level c d' out c', add_snapshot_values d de st level k c = Ok (d', out) c' ->
      exists s' added names', driver_shows d' path names gs s' /\ names = opt_list (dr_name d) ++ names' /\ out = level ++ added
        /\ presented k c names' gs (LShown s) (LShown s') de added c').
    { clear E c d' out c'. intros st level c d' out c' E. unfold add_snapshot_values in E. cbv zeta in E.
      destruct (described_text (dr_descr d) level de) as (texts & Et & _). rewrite Et in E.
      apply bind_ok in E. destruct E as ([ps s1] & c1 & E1 & E). apply bind_ok in E. destruct E as ([ss s2] & c2 & E2 & E).
      destruct (tree_put_ticks HX) as (_ & _ & _ & Ts). destruct (tree_appends HA) as (_ & _ & _ & Gs).
      destruct (processors_put_all HX HY HA HB de (dr_processors d)) as (Tp & Gp).
      destruct (grows_traverse _ _ _ _ Gp _ _ _ _ _ E1) as (a1 & ->).
      destruct (grows_traverse _ _ _ _ (all_grow _ _ _ Gs _) _ _ _ _ _ E2) as (a2 & ->).
      assert (W : exists rest, out = level ++ texts ++ a1 ++ a2 ++ rest /\ later c2 c' /\ dr_processors d' = ps /\ dr_snapshooters d' = ss /\ dr_name d' = dr_name d).
      { destruct (dr_metrics d) as [i|].
        - apply bind_ok in E. destruct E as (i3 & c3 & E3 & E). apply bind_ok in E. destruct E as ([i4 s4] & c4 & E4 & E). injection E as <- <- <-.
          assert (Lx : later c2 c4).
          { eapply later_trans; [exact (post_snapshot_ticks HX _ _ _ _ _ _ E3) | exact (instruments_put_ticks _ _ _ _ _ _ _ E4)]. }
          unfold instruments_put in E4. cbv zeta in E4.
          do 14 (apply bind_ok in E4; destruct E4 as (? & ? & _ & E4);
                 match type of E4 with (match ?y with (_, _) => _ end) _ _ = _ => destruct y | _ => idtac end).
          injection E4 as _ <- _. unfold push. eexists. split; [|split; [exact Lx | auto]]. rewrite <- !app_assoc. reflexivity.
        - injection E as <- <- <-. exists []. split; [rewrite app_nil_r, <- !app_assoc; reflexivity|]. split; [apply later_refl | auto]. }
      destruct W as (rest & -> & Lx & Hp & Hs & Hn). inversion S; subst.
      - match goal with Hj : nth_error (dr_snapshooters d) _ = Some _ |- _ =>
          destruct (traverse_put_nth _ _ _ _ _ Hj (all_put _ _ _ Ts _) (all_grow _ _ _ Gs _) _ _ _ _ _ _ E2)
            as (q & s0 & b & d1 & d2 & K1 & F & K2 & Hj' & before & after & Ea) end.
        apply app_inv_head in Ea. subst a2. exists q, (texts ++ a1 ++ (before ++ b ++ after) ++ rest), [].
        split; [rewrite <- Hn; apply sh_own; exact Hj'|]. split; [symmetry; apply app_nil_r|]. split; [reflexivity|].
        right. exists s0, b, d1, d2. split; [eapply later_trans; [exact (ticks_traverse _ _ _ _ _ Tp _ _ _ _ E1) | exact K1]|].
        split; [exact (leaf_put_shown _ _ _ _ _ _ _ _ F)|]. split; [eapply later_trans; eassumption|].
        exists (texts ++ a1 ++ before), (after ++ rest). rewrite <- !app_assoc. reflexivity.
      - match goal with Hj : nth_error (dr_processors d) _ = Some _, Hq : processor_shows _ _ _ _ _ |- _ =>
          destruct (traverse_put_nth _ _ _ _ _ Hj Tp Gp _ _ _ _ _ _ E1) as (p' & s0 & b & d1 & d2 & K1 & F & K2 & Hj' & before & after & Ea);
          destruct (proj1 shows_put _ _ _ _ _ Hq _ _ _ _ _ _ _ F) as (s' & b' & H' & Eb & P) end.
        apply app_inv_head in Ea. apply app_inv_head in Eb. subst a1 b'.
        exists s', (texts ++ (before ++ b ++ after) ++ a2 ++ rest), names0.
        split; [rewrite <- Hn; eapply sh_processor; eassumption|]. split; [reflexivity|]. split; [reflexivity|].
        eapply presented_widen; [| | | exact P].
        + exact K1.
        + eapply later_trans; [exact K2|]. eapply later_trans; [|exact Lx]. exact (ticks_traverse _ _ _ _ _ (all_put _ _ _ Ts _) _ _ _ _ E2).
        + intros fields Hc. rewrite <- !app_assoc. rewrite app_assoc. apply contains_widen. exact Hc. }
    unfold put_values_into_snapshot in E. apply bind_ok in E. destruct E as (st & c0 & E0 & E). apply ticks_now in E0.
    destruct (dr_name d) as [n|].
    - apply bind_ok in E. destruct E as ([d1 l] & c1 & E1 & E). injection E as <- <- <-.
      destruct (V _ _ _ _ _ _ E1) as (s' & added & names' & A1 & -> & -> & P).
      exists s', [(n, ItemSnapshot (snapshot_default ++ added))]. split; [exact A1|].
      split; [reflexivity|]. eapply presented_widen; [exact E0 | apply later_refl | | exact P].
      intros fields Hc. cbn [opt_list app contains]. exists [], (snapshot_default ++ added), []. split; [reflexivity|]. apply contains_left. exact Hc.
    - destruct (V _ _ _ _ _ _ E) as (s' & added & names' & A1 & -> & -> & P).
      exists s', added. split; [exact A1|]. split; [reflexivity|].
      eapply presented_widen; [exact E0 | apply later_refl | | exact P]. auto.
  Qed.

  Definition clk (w : dworld X Y) : clock := w_clock (dw_world w).

  Lemma presented_life : forall k c names gs (x x' : leaf X) de added c', later c c' -> presented k c names gs x x' de added c' -> leaf_life k c x [] x' c'.
  Proof.
    intros k c names gs x x' de added c' L [(-> & _)|(level & fields & c1 & c2 & L1 & E & L2 & _)]; [apply ll_end, L|].
    eapply ll_shown; [exact L1 | exact E|]. apply ll_end, L2.
  Qed.

  Lemma life_app : forall k c (x : leaf X) os1 x1 c1, leaf_life k c x os1 x1 c1 ->
    forall os2 x2 c2, leaf_life k c1 x1 os2 x2 c2 -> leaf_life k c x (os1 ++ os2) x2 c2.
  Proof.
    intros k c x os1 x1 c1 H. induction H as [c x c' L|c c0 o x x1 n c1 os x2 c2 L E H IH|c c0 x de into x1 s c1 os x2 c2 L E H IH]; intros os2 y d H2.
    - cbn [app]. clear - L H2. destruct H2.
      + apply ll_end. eapply later_trans; eassumption.
      + eapply ll_handles; [eapply later_trans; eassumption | eassumption | eassumption].
      + eapply ll_shown; [eapply later_trans; eassumption | eassumption | eassumption].
    - cbn [app]. eapply ll_handles; eauto.
    - eapply ll_shown; eauto.
  Qed.

  Lemma run_shows : forall k (d : driver X Y) t0 w d1 w1 path names gs s, driver_run d t0 k w = Ok d1 w1 ->
    driver_shows d path names gs s -> later (clk w) (clk w1) /\ exists gs', driver_shows d1 path names gs' s /\ alike gs gs'.
  Proof.
    intros k d t0 w d1 w1 path names gs s E S. unfold driver_run in E.
    apply bind_ok in E. destruct E as (rs & w2 & E1 & E). apply timed_inv in E1. destruct E1 as (c1 & E1 & ->).
    apply ticks_now in E1.
    apply bind_ok in E. destruct E as ([ps o] & w3 & E2 & E). apply in_world_inv in E2. destruct E2 as (v2 & E2 & ->).
    cbn [dw_world dw_commands dw_guards dw_running dw_answers dw_unanswered dw_sched] in E2, E. cbv zeta in E.
    set (v1 := World c1 _ _ _) in E2. assert (Lv := do_a_run_wticks HX HY _ _ _ _ _ _ _ E2). unfold do_a_run in E2.
    match type of E with ?m k ?v = _ => assert (Q : quiet m (fun d1 => dr_processors d1 = ps /\ dr_snapshooters d1 = dr_snapshooters d /\ dr_name d1 = dr_name d)) end.
    { clear E. eapply quiet_bind; [apply quiet_timed, elapsed_ticks|]. intros rt _. eapply quiet_bind; [apply quiet_usize|]. intros dropped _.
      eapply quiet_bind with (P := fun d1 => dr_processors d1 = ps /\ dr_snapshooters d1 = dr_snapshooters d /\ dr_name d1 = dr_name d).
      { destruct (0 <? dropped); [|apply quiet_ret; auto]. eapply quiet_bind; [apply quiet_timed, elapsed_ticks|]. intros e _.
        destruct (_ <? e); [|apply quiet_ret; auto]. eapply quiet_bind; [apply quiet_timed, ticks_now|]. intros x _. apply quiet_ret. auto. }
      intros d2 D2. eapply quiet_bind with (P := fun _ => True).
      { destruct (dr_metrics d2) as [i|]; [|apply quiet_ret; exact I]. eapply quiet_bind; [apply quiet_timed, (post_collection_ticks HX)|].
        intros i' _. apply quiet_ret. exact I. }
      intros m _. destruct (_ || _); [apply quiet_ret; exact D2|]. eapply quiet_bind; [apply quiet_timed, ticks_now|]. intros x _.
      eapply quiet_bind; [apply quiet_timed, (elapsed_stats_ticks HX)|]. intros m' _. apply quiet_ret. exact D2. }
    destruct (Q _ _ _ _ E) as ((D1 & D2 & D3) & c & L & ->).
    cbn [clk dw_world dw_commands dw_guards dw_running dw_answers dw_unanswered dw_sched w_clock] in *.
    split; [unfold clk; cbn; eapply later_trans; [exact E1|]; eapply later_trans; [exact Lv | exact L]|].
    inversion S; subst.
    - exists []. split; [rewrite <- D3; apply sh_own; rewrite D2; assumption | constructor].
    - match goal with Hj : nth_error (dr_processors d) _ = Some _, Hq : processor_shows _ _ _ _ _ |- _ =>
        destruct (collect_nth _ _ _ _ _ Hj _ _ _ _ _ E2) as (p' & o2 & w3 & w4 & E3 & Hj');
        destruct (process_shows _ _ _ _ _ _ Hq _ _ _ _ _ _ _ E3) as (gs' & H' & A) end.
      exists gs'. split; [rewrite <- D3; eapply sh_processor; eassumption | exact A].
  Qed.

  Lemma command_shows : forall k (d : driver X Y) c w d1 w1 path names gs s, driver_command d c k w = Ok d1 w1 ->
    driver_shows d path names gs s ->
    exists s', leaf_life k (clk w) (LShown s) [] (LShown s') (clk w1) /\ driver_shows d1 path names gs s'.
  Proof.
    intros k d c w d1 w1 path names gs s E S.
    assert (Put : forall into b de,
      (let* '(d, s) := timed (put_values_into_snapshot d de into) in let* _ := answer b s in ret d) k w = Ok d1 w1 ->
      exists s', leaf_life k (clk w) (LShown s) [] (LShown s') (clk w1) /\ driver_shows d1 path names gs s').
    { clear E. intros into b de E. apply bind_ok in E. destruct E as ([d2 out] & w2 & E1 & E).
      apply timed_inv in E1. destruct E1 as (cl & E1 & ->). apply bind_ok in E. destruct E as (u & w3 & E2 & E).
      injection E2 as _ <-. injection E as <- <-.
      destruct (values_shows _ _ _ _ _ _ _ _ _ _ _ _ S E1) as (s' & added & S' & _ & P). exists s'. split; [|exact S'].
      unfold clk. cbn [dw_world w_clock]. eapply presented_life; [|exact P].
      destruct P as [(_ & g & c1 & _ & L1 & L2 & _)|(level & fields & c1 & c2 & L1 & Ep & L2 & _)]; [eapply later_trans; eassumption|].
      eapply later_trans; [exact L1|]. eapply later_trans; [exact (leaf_put_ticks HX _ _ _ _ _ _ _ Ep) | exact L2]. }
    destruct c; cbn [driver_command] in E; try (eapply Put; exact E); clear Put; injection E as <- <-; exists s;
      (split; [apply ll_end, later_refl|]); inversion S; subst;
      try (match goal with |- driver_shows ?d [Position _] _ _ _ => apply (sh_own d) end; cbn; auto using nth_more);
      match goal with |- driver_shows ?d (Position _ :: _) _ _ _ => eapply (sh_processor d); cbn; eauto using nth_more end.
  Qed.

  Lemma iteration_shows : forall k (d : driver X Y) w d1 w1 path names gs s, driver_iteration d k w = Ok (d1, true) w1 ->
    driver_shows d path names gs s ->
    exists s' gs', leaf_life k (clk w) (LShown s) [] (LShown s') (clk w1) /\ driver_shows d1 path names gs' s' /\ alike gs gs'.
  Proof.
    intros k d w d1 w1 path names gs s E S. unfold driver_iteration in E.
    apply bind_ok in E. destruct E as (b & wa & E1 & E). unfold load_running in E1. apply bind_ok in E1. destruct E1 as (u1 & wa' & E1 & Ea).
    injection Ea as <- <-. apply clients_world in E1.
    destruct (dw_running wa'); cbn [negb] in E; [|apply bind_ok in E; destruct E as (u & wx & _ & E); discriminate E].
    apply bind_ok in E. destruct E as (t0 & wb & E2 & E). apply timed_inv in E2. destruct E2 as (c2 & E2 & ->). apply ticks_now in E2.
    apply bind_ok in E. destruct E as (rc & wd & E3 & E). unfold command_try_recv in E3. apply bind_ok in E3. destruct E3 as (u2 & wc & E3 & Ed).
    apply clients_world in E3. destruct (chan_try_recv (dw_commands wc)) as [ch r]. injection Ed as -> <-.
    assert (L : later (clk w) (clk (dw_with wc ch (dw_guards wc) (dw_running wc)))).
    { unfold clk. cbn [dw_with dw_world]. rewrite E3. cbn [dw_world w_clock]. rewrite <- E1. exact E2. }
    set (wd := dw_with wc _ _ _) in *. clearbody wd. clear E1 E2 E3.
    assert (E' : (let* d := match rc with Message c => driver_command d c | _ => ret d end in
        if dr_paused d then ret (d, true) else let* d := driver_run d t0 in ret (d, true)) k wd = Ok (d1, true) w1).
    { destruct rc; [exact E..|]. apply bind_ok in E. destruct E as (u & wx & _ & E). discriminate E. }
    clear E. apply bind_ok in E'. destruct E' as (dm & wm & Ec & E).
    assert (Cm : exists s', leaf_life k (clk wd) (LShown s) [] (LShown s') (clk wm) /\ driver_shows dm path names gs s').
    { destruct rc as [c| |]; [exact (command_shows _ _ _ _ _ _ _ _ _ _ Ec S)|..]; injection Ec as <- <-; exists s; (split; [apply ll_end, later_refl | exact S]). }
    destruct Cm as (s' & Lm & Sm).
    assert (L1 : leaf_life k (clk w) (LShown s) [] (LShown s') (clk wm)) by (exact (life_app _ _ _ [] _ _ (ll_end _ _ _ _ L) _ _ _ Lm)).
    destruct (dr_paused dm).
    - injection E as <- <-. exists s', gs. split; [exact L1|]. split; [exact Sm | apply alike_refl].
    - apply bind_ok in E. destruct E as (d3 & w3 & E4 & E). injection E as <- <-.
      destruct (run_shows _ _ _ _ _ _ _ _ _ _ E4 Sm) as (L4 & gs' & S4 & A4). exists s', gs'. split; [|auto].
      exact (life_app _ _ _ [] _ _ L1 _ _ _ (ll_end _ _ _ _ L4)).
  Qed.

  Lemma iterates_shows : forall k n (d : driver X Y) w d' w' path names gs s, iterates k n d w d' w' -> driver_shows d path names gs s ->
    exists s' gs', leaf_life k (clk w) (LShown s) [] (LShown s') (clk w') /\ driver_shows d' path names gs' s' /\ alike gs gs'.
  Proof.
    intros k n d w d' w' path names gs s H. revert gs s. induction H as [d w|n d w d1 w1 d2 w2 E H IH]; intros gs s S.
    - exists s, gs. split; [apply ll_end, later_refl|]. split; [exact S | apply alike_refl].
    - destruct (iteration_shows _ _ _ _ _ _ _ _ _ E S) as (s1 & gs1 & L1 & S1 & A1). destruct (IH _ _ S1) as (s2 & gs2 & L2 & S2 & A2).
      exists s2, gs2. split; [exact (life_app _ _ _ [] _ _ L1 _ _ _ L2)|]. split; [exact S2 | eapply alike_trans; eassumption].
  Qed.

  (** ** The answer to a request *)

  Lemma shown_in_the_end : forall k n (d : driver X Y) w d' w' path names gs s b de d'' w'',
    driver_shows d path names gs s -> iterates k n d w d' w' -> driver_command d' (call_snapshot b de) k w' = Ok d'' w'' ->
    exists s' s'' gs' added,
      leaf_life k (clock_of w) (LShown s) [] (LShown s') (clock_of w') /\ alike gs gs' /\ driver_shows d'' path names gs' s''
      /\ dw_answers w'' = dw_answers w' ++ [(b, added)]
      /\ presented k (clock_of w') names gs' (LShown s') (LShown s'') de added (clock_of w'').
  Proof.
    intros k n d w d' w' path names gs s b de d'' w'' S H E.
    destruct (iterates_shows _ _ _ _ _ _ _ _ _ _ H S) as (s' & gs' & L & S' & A).
    cbn [driver_command call_snapshot] in E. apply bind_ok in E. destruct E as ([d2 out] & w2 & E1 & E). apply timed_inv in E1. destruct E1 as (cl & E1 & ->).
    apply bind_ok in E. destruct E as (u & w3 & E2 & E). injection E2 as <- <-. injection E as <- <-.
    destruct (values_shows _ _ _ _ _ _ _ _ _ _ _ _ S' E1) as (s'' & added & S2 & Eo & P). cbn [snapshot_default app] in Eo. subst out.
    exists s', s'', gs', added. auto 10.
  Qed.

  (** ** Constants and polled instruments *)

  Lemma constant_life : forall k c v os (x' : leaf X) c', leaf_life k c (LShown (SConstant v)) os x' c' -> x' = LShown (SConstant v).
  Proof.
    intros k c v os x' c' H. remember (LShown (SConstant v)) as x eqn:Ex. revert Ex.
    induction H as [c x c' L|c c0 o x x1 n c1 os x2 c2 L E H IH|c c0 x de into x1 s c1 os x2 c2 L E H IH]; intros ->; [reflexivity| |].
    - injection E as <- _ _. exact (IH eq_refl).
    - cbn in E. injection E as <- _ _. exact (IH eq_refl).
  Qed.

  Lemma constant_fields : forall k c v de level (x' : leaf X) fields c', leaf_put (LShown (SConstant v)) de level k c = Ok (x', level ++ fields) c' ->
    exists texts, only_texts texts /\ fields = texts ++ [(cv_name v, cv_value v)].
  Proof.
    intros k c v de level x' fields c' E. cbn in E. unfold constant_value_put, push in E.
    destruct (added_texts (cv_descr v) (cv_name v) de level) as (texts & Et & Ht). rewrite Et in E.
    injection E as _ E _. rewrite <- app_assoc in E. apply app_inv_head in E. subst fields. eauto.
  Qed.

  Lemma constant_in_the_end : forall k n (d : driver X Y) w d' w' path names gs v b de d'' w'',
    driver_shows d path names gs (SConstant v) -> iterates k n d w d' w' -> driver_command d' (call_snapshot b de) k w' = Ok d'' w'' ->
    exists gs' added, alike gs gs' /\ driver_shows d'' path names gs' (SConstant v) /\ dw_answers w'' = dw_answers w' ++ [(b, added)]
      /\ shown_unless_hidden (clock_of w') names gs' added (clock_of w'')
           (fun fields => exists texts, only_texts texts /\ fields = texts ++ [(cv_name v, cv_value v)]).
  Proof.
    intros k n d w d' w' path names gs v b de d'' w'' S H E.
    destruct (shown_in_the_end _ _ _ _ _ _ _ _ _ _ _ _ _ _ S H E) as (s' & s'' & gs' & added & L & A & S2 & Ea & P).
    apply constant_life in L. injection L as ->. exists gs', added. split; [exact A|]. split.
    - destruct P as [(Ex & _)|(level & fields & c1 & c2 & _ & Ep & _ & _)].
      + injection Ex as ->. exact S2.
      + cbn in Ep. injection Ep as -> _ _. exact S2.
    - split; [exact Ea|]. eapply presented_fields; [|exact P]. intros level fields c1 c2 Ep. eapply constant_fields. exact Ep.
  Qed.

  Lemma polled_put_inv : forall name ds g (poll : snapshooter X) de level k c x' out c',
    leaf_put (LShown (SPolled name ds g poll)) de level k c = Ok (x', out) c' ->
    exists poll' texts fields level2, x' = LShown (SPolled name ds g poll') /\ only_texts texts
      /\ leaf_put (LShown poll) de level2 k c = Ok (LShown poll', level2 ++ fields) c'
      /\ out = level ++ texts ++ (if g then [(name, ItemSnapshot fields)] else fields).
  Proof.
    intros name ds g poll de level k c x' out c' E. cbn [leaf_put snapshooter_put] in E. unfold wrap in E.
    apply bind_ok in E. destruct E as ([x1 o1] & c1 & E1 & E). injection E as <- <- <-.
    apply bind_ok in E1. destruct E1 as ([q o2] & c2 & E2 & E1). injection E1 as <- <- <-.
    unfold polled_put in E2. destruct (added_texts ds name de level) as (texts & Et & Ht). rewrite Et in E2.
    destruct (tree_appends HA) as (_ & _ & _ & Gs). destruct g.
    - apply bind_ok in E2. destruct E2 as ([q1 o3] & c3 & E3 & E2). injection E2 as <- <- <-.
      exists q1, texts, o3, []. split; [reflexivity|]. split; [exact Ht|]. split; [exact (leaf_put_shown _ _ _ _ _ _ _ _ E3)|].
      unfold push. rewrite <- app_assoc. reflexivity.
    - destruct (Gs _ _ _ _ _ _ _ _ E2) as (a & ->). exists q, texts, a, (level ++ texts). split; [reflexivity|]. split; [exact Ht|].
      split; [exact (leaf_put_shown _ _ _ _ _ _ _ _ E2)|]. rewrite <- app_assoc. reflexivity.
  Qed.

  Lemma polled_life : forall k c name ds g (poll : snapshooter X) os x' c', leaf_life k c (LShown (SPolled name ds g poll)) os x' c' ->
    exists poll', x' = LShown (SPolled name ds g poll') /\ leaf_life k c (LShown poll) os (LShown poll') c'.
  Proof.
    intros k c name ds g poll os x' c' H. remember (LShown (SPolled name ds g poll)) as x eqn:Ex. revert poll Ex.
    induction H as [c x c' L|c c0 o x x1 n c1 os x2 c2 L E H IH|c c0 x de into x1 s c1 os x2 c2 L E H IH]; intros poll ->.
    - exists poll. split; [reflexivity | apply ll_end, L].
    - injection E as <- <- <-. destruct (IH _ eq_refl) as (q & -> & Lq). exists q. split; [reflexivity|]. eapply ll_handles; [exact L | reflexivity | exact Lq].
    - destruct (polled_put_inv _ _ _ _ _ _ _ _ _ _ _ E) as (p1 & texts & fields & level2 & -> & _ & Ep & _).
      destruct (IH _ eq_refl) as (q & -> & Lq). exists q. split; [reflexivity|]. eapply ll_shown; eassumption.
  Qed.

  Lemma polled_in_the_end : forall k n (d : driver X Y) w d' w' path names gs name ds g poll b de d'' w'',
    driver_shows d path names gs (SPolled name ds g poll) -> iterates k n d w d' w' -> driver_command d' (call_snapshot b de) k w' = Ok d'' w'' ->
    exists gs' added, alike gs gs' /\ dw_answers w'' = dw_answers w' ++ [(b, added)]
      /\ shown_unless_hidden (clock_of w') names gs' added (clock_of w'') (fun fields =>
           exists poll' poll'' texts level2 polled c1 c2,
             leaf_life k (clock_of w) (LShown poll) [] (LShown poll') (clock_of w') /\ later (clock_of w') c1
             /\ leaf_put (LShown poll') de level2 k c1 = Ok (LShown poll'', level2 ++ polled) c2 /\ later c2 (clock_of w'')
             /\ only_texts texts /\ fields = texts ++ (if g then [(name, ItemSnapshot polled)] else polled)).
  Proof.
    intros k n d w d' w' path names gs name ds g poll b de d'' w'' S H E.
    destruct (shown_in_the_end _ _ _ _ _ _ _ _ _ _ _ _ _ _ S H E) as (s' & s'' & gs' & added & L & A & _ & Ea & P).
    destruct (polled_life _ _ _ _ _ _ _ _ _ L) as (poll' & Es & Lp). injection Es as ->.
    exists gs', added. split; [exact A|]. split; [exact Ea|]. eapply presented_then; [|exact P].
    intros level fields c1 c2 L1 L2 Ep. destruct (polled_put_inv _ _ _ _ _ _ _ _ _ _ _ Ep) as (p2 & texts & f2 & level2 & _ & Ht & Eq & Eo).
    apply app_inv_head in Eo. exists poll', p2, texts, level2, f2, c1, c2. auto 10.
  Qed.

  (** ** In the tree of a processor *)

  Definition silent (on : lab X -> bool) (x : leaf X) : Prop := match x with LShown _ => forall l, on l = false | _ => True end.

  Lemma tree_silent :
    (forall p at_ names gs on x, panel_site (X := X) p at_ names gs on x -> silent on x)
    /\ (forall h at_ names gs on x, handler_site (X := X) h at_ names gs on x -> silent on x)
    /\ (forall c at_ names gs on x, cockpit_site (X := X) c at_ names gs on x -> silent on x).
  Proof.
    apply site_ind; intros; cbn [silent] in *; auto;
      destruct x; cbn [silent] in *; auto; intros l; match goal with H : forall l, ?f l = _ && _ |- ?f _ = false => rewrite H end;
      match goal with H : forall l, _ = false |- _ => rewrite H end; apply andb_false_r.
  Qed.

  Lemma tele_silent : forall t at_ names gs on (s : snapshooter X), tele_site t at_ names gs on (LShown s) -> forall l, on l = false.
  Proof.
    destruct tree_silent as (_ & Hh & Hc). intros t at_ names gs on s T. inversion T; subst.
    - match goal with H : cockpit_site _ _ _ _ _ _ |- _ => exact (Hc _ _ _ _ _ _ H) end.
    - match goal with H : handler_site _ _ _ _ _ _ |- _ => exact (Hh _ _ _ _ _ _ H) end.
    - assumption.
  Qed.

  Lemma without_all : forall A (P : A -> Prop) l r, (forall x, P x) -> without P l r -> r = [].
  Proof. intros A P l r H W. induction W; auto. exfalso. auto. Qed.

  Lemma seen_silent : forall on es (os : list (observation (lab X))), (forall l, on l = false) -> seen on es os -> os = [].
  Proof.
    intros on es os H S. induction S as [|e es os os' W S IH]; [reflexivity|]. rewrite IH, app_nil_r. eapply without_all; [|exact W].
    intros o (_ & Ho). rewrite H in Ho. discriminate Ho.
  Qed.

  Lemma tree_shown_in_the_end : forall k n (d : driver X Y) w d' w' path t at_ names gs on b de d'' w'' s (P : snapshot -> Prop),
    followed k n d w d' w' path t at_ names gs on (LShown s) b de d'' w'' ->
    (forall s' x'' level fields c1 c2, leaf_life k (clock_of w) (LShown s) [] (LShown s') (clock_of w') -> later (clock_of w') c1 ->
       leaf_put (LShown s') de level k c1 = Ok (x'', level ++ fields) c2 -> later c1 c2 -> later c2 (clock_of w'') -> P fields) ->
    in_the_end n d w w' path t at_ names gs on b w'' (fun os fields => os = [] /\ P fields).
  Proof.
    intros k n d w d' w' path t at_ names gs on b de d'' w'' s P F HP.
    assert (Q : in_the_end n d w w' path t at_ names gs on b w'' (fun os fields => os = [] -> P fields)).
    { apply (any_in_the_end HX HY HA HB _ _ _ _ _ _ _ _ _ _ _ _ _ _ _ _ _ _ F). intros os x' x'' level fields c1 c2 L L1 Ep L2 L3 ->.
      assert (Sh : exists s', x' = LShown s').
      { clear - L. remember (LShown s) as x eqn:Ex. revert s Ex.
        induction L as [c x c' L|c c0 o x x1 n c1 os x2 c2 L E H IH|c c0 x de into x1 u c1 os x2 c2 L E H IH]; intros s ->; [eauto| |].
        - injection E as <- _ _. eauto.
        - cbn [leaf_put] in E. apply bind_ok in E. destruct E as ([q o] & c3 & _ & E). injection E as <- _ _. eauto. }
      destruct Sh as (s' & ->). eauto. }
    destruct Q as (css & es & added & H1 & H2 & H3 & H4 & H5 & H6 & H7). exists css, es, added. do 6 (split; [assumption|]).
    intros Hs. destruct (H7 Hs) as (os & gs' & S & G & U). exists os, gs'. split; [exact S|]. split; [exact G|].
    assert (os = []) by (eapply seen_silent; [exact (tele_silent _ _ _ _ _ _ (fo_site _ _ _ _ _ _ _ _ _ _ _ _ _ _ _ _ _ F)) | exact S]).
    destruct U as [(fields & U1 & U2)|U]; [left | right; exact U]. exists fields. auto.
  Qed.

  Lemma tree_constant_in_the_end : forall k n (d : driver X Y) w d' w' path t at_ names gs on b de d'' w'' v,
    followed k n d w d' w' path t at_ names gs on (LShown (SConstant v)) b de d'' w'' ->
    in_the_end n d w w' path t at_ names gs on b w'' (fun os fields =>
      os = [] /\ exists texts, only_texts texts /\ fields = texts ++ [(cv_name v, cv_value v)]).
  Proof.
    intros k n d w d' w' path t at_ names gs on b de d'' w'' v F. apply (tree_shown_in_the_end _ _ _ _ _ _ _ _ _ _ _ _ _ _ _ _ _ _ F).
    intros s' x'' level fields c1 c2 L _ Ep _ _. apply constant_life in L. injection L as ->. eapply constant_fields. exact Ep.
  Qed.

  (** ** Arrival *)

  Lemma added_shows : forall k (d : driver X Y) s w d' w', driver_command d (call_add_snapshooter s) k w = Ok d' w' ->
    w' = w /\ driver_shows d' [Position (length (dr_snapshooters d))] (opt_list (dr_name d)) [] s
    /\ (forall path names gs s0, driver_shows d path names gs s0 -> driver_shows d' path names gs s0).
  Proof.
    intros k d s w d' w' E. cbn in E. injection E as <- <-. split; [reflexivity|]. split.
    - apply (sh_own (driver_add_snapshooter d s)). cbn. rewrite nth_error_app2, Nat.sub_diag; [reflexivity | auto].
    - intros path names gs s0 H. inversion H; subst.
      + apply (sh_own (driver_add_snapshooter d s)). cbn. apply nth_more. assumption.
      + eapply (sh_processor (driver_add_snapshooter d s)); eassumption.
  Qed.
End Shown.
