(** What happens to a processor for telemetry data that is somewhere in a tree. *)
From Coq Require Import ZArith Bool String List Lia.
From Verif Require Import Base SpecRun MonadFacts SpecClock ClockProofs ModelObservation ModelSnapshot ModelSwitches ModelInstrument ModelTree
  ModelChannel ModelProcessor ModelDriver TreeEqs TreeInd SpecQueue QueueProofs SpecCollect WorldClockProofs CollectProofs GroupProofs SpecDriver
  DriverProofs DriverLoopProofs DriverMetricsProofs DriverShapeProofs SpecChronicle.
Import ListNotations.
Open Scope Z_scope.

Scheme located_mut := Minimality for located Sort Prop
  with among_mut := Minimality for among Sort Prop.

Section Chronicle.
  Context {X : ext} {Y : pext}.
  Context (HX : parts_tick X) (HY : processors_tick Y).
  Implicit Types (t : tele X) (w : world X Y) (p : processor X Y).

  Lemma chronicle_before : forall k c0 c t es t' c', later c0 c -> chronicle (X := X) k c t es t' c' -> chronicle k c0 t es t' c'.
  Proof.
    intros k c0 c t es t' c' L H. inversion H; subst.
    - apply cr_end. eapply later_trans; eassumption.
    - eapply cr_collects; [eapply later_trans; eassumption|eassumption..].
    - eapply cr_rests; [eapply later_trans; eassumption|eassumption..].
    - eapply cr_shown; [eapply later_trans; eassumption|eassumption..].
  Qed.

  Lemma chronicle_app : forall k c t es t1 c1 es' t2 c2,
    chronicle (X := X) k c t es t1 c1 -> chronicle k c1 t1 es' t2 c2 -> chronicle k c t (es ++ es') t2 c2.
  Proof.
    intros k c t es t1 c1 es' t2 c2 H. induction H; intros G; cbn [app].
    - eapply chronicle_before; eassumption.
    - eapply cr_collects; eauto.
    - eapply cr_rests; eauto.
    - eapply cr_shown; eauto.
  Qed.

  Lemma chronicle_after : forall k c t es t' c' c1, chronicle (X := X) k c t es t' c' -> later c' c1 -> chronicle k c t es t' c1.
  Proof. intros. rewrite <- (app_nil_r es). eapply chronicle_app; [eassumption | apply cr_end; assumption]. Qed.

  (** ** One collection *)

  Lemma process_chronicle : forall k t max s w t' o w',
    tele_process t max s k w = Ok (t', o) w' ->
    let i := tp_receiver t in
    exists ms,
      chronicle k (w_clock w) t [Entry (w_clock w O) s ms] t' (w_clock w')
      /\ moved (w_queues w i) (w_queues w' i) ms
      /\ (length ms <= max)%nat
      /\ (tp_disconnected t = false -> exists rest, ms = firstn max (ch_queue (w_queues w i)) ++ rest)
      /\ tp_receiver t' = i
      /\ (tp_disconnected t' = true -> tp_disconnected t = true
            \/ (chan_ok (w_queues w i) -> exhausted (w_queues w' i))).
  Proof.
    intros k t max s w t' o w' E i. assert (Wt := tele_process_wticks HX _ _ _ _ _ _ _ E). unfold tele_process in E.
    destruct (tp_disconnected t) eqn:Ed.
    - injection E as <- <- <-. exists [].
      split; [eapply cr_rests; [apply later_refl | exact Ed | apply cr_end, later_refl]|].
      repeat split; auto; [apply moved_refl | cbn; lia | discriminate].
    - apply bind_ok in E. destruct E as (d & w1 & E1 & E). unfold lift in E1.
      destruct (strategy_decider s k (w_clock w)) as [d1 c1| |] eqn:Es; try discriminate E1. injection E1 as -> <-.
      apply bind_ok in E. destruct E as ([t1 acc] & w2 & E2 & E).
      assert (E2' := E2). apply collect_spec in E2. fold i in E2. cbn [w_clock w_queues] in E2.
      destruct E2 as (ms & t0 & rest & H1 & H2 & H3 & H4 & H5 & H6 & H7).
      apply bind_ok in E. destruct E as (enq & w3 & E3 & E). cbv zeta in E.
      assert (Hr : tp_receiver t1 = i) by (destruct H7 as [->|(-> & _)]; exact H5).
      unfold queue_len in E3. apply bind_ok in E3. destruct E3 as (u & w4 & E4 & E3). injection E4 as _ E4. injection E3 as E3a E3.
      assert (K : keeps_queue i w2 w3).
      { subst w3 w4. eexists. cbn [w_queues]. apply acts_queues. }
      assert (C3 : w_clock w3 = w_clock w2) by (subst w3 w4; apply acts_clock).
      assert (M3 := keeps_moved _ _ _ K).
      assert (Mw : moved (w_queues w i) (w_queues w3 i) ms).
      { rewrite <- (app_nil_r ms). eapply moved_trans; [exact H2 | exact M3]. }
      exists ms.
      assert (Ht : (t1 = t0 \/ t1 = tele_disconnect t0) /\ (t' = t1 \/ t' = tele_touch t1 (w_clock w2 O))
                   /\ (forall j, w_queues w' j = w_queues w3 j) /\ later (w_clock w2) (w_clock w')).
      { split; [destruct H7 as [H7|(H7 & _)]; auto|].
        destruct (something_happened _).
        - apply bind_ok in E. destruct E as (x & w5 & E5 & E). injection E as <- <- <-.
          apply lift_inv in E5. destruct E5 as (c5 & E5 & ->). cbn [w_queues w_clock]. rewrite C3 in E5.
          split; [|split; [auto|exact (ticks_now _ _ _ _ E5)]]. injection E5 as <- _. auto.
        - injection E as <- <- <-. rewrite C3. split; [auto|]. split; [auto | apply later_refl]. }
      destruct Ht as (T1 & T2 & T4 & T5). rewrite T4. repeat split.
      + eapply cr_collects with (c0 := w_clock w); [apply later_refl | exact Ed | exact Es | exact H1 | exact T1 | exact T2 | apply cr_end; exact T5].
      + exact Mw.
      + exact H3.
      + intros _. exists rest. exact H4.
      + destruct T2 as [->| ->]; exact Hr.
      + intros Hd. right.
        destruct H7 as [H7|(H7 & Q & S0 & _)].
        * exfalso. subst t1. destruct T2; subst t'; cbn in Hd; congruence.
        * intros Ok0. destruct K as (l & ->). apply exhausted_run. split; [exact S0|]. split; [exact Q|].
          apply (runs_ok w w2 i); [|exact Ok0 | exact S0].
          eapply runs_trans; [|exact (wruns_collect _ _ _ _ _ _ _ _ E2')].
          split; intros j; exists []; reflexivity.
  Qed.

  (** ** Trees *)

  Definition keeps_foreign {A} r (m : St (world X Y) A) : Prop := forall k w a w', m k w = Ok a w' -> foreign r w -> foreign r w'.

  Lemma foreign_bind : forall A B r (m : St (world X Y) A) (f : A -> St (world X Y) B),
    keeps_foreign r m -> (forall a, keeps_foreign r (f a)) -> keeps_foreign r (bind m f).
  Proof.
    intros A B r m f H1 H2 k w a w' E F. apply bind_ok in E. destruct E as (b & w1 & E1 & E2).
    exact (H2 _ _ _ _ _ E2 (H1 _ _ _ _ E1 F)).
  Qed.
  Lemma foreign_ret : forall A r (a : A), keeps_foreign r (ret a).
  Proof. intros A r a k w b w' E F. injection E as _ <-. exact F. Qed.
  Lemma foreign_lift : forall A r (m : M A), keeps_foreign r (lift m).
  Proof. intros A r m k w a w' E F. apply lift_inv in E. destruct E as (c & _ & ->). exact F. Qed.

  Lemma tele_process_foreign : forall r t max s, keeps_foreign r (tele_process t max s).
  Proof.
    intros r t max s.
    assert (Q : forall i, keeps_foreign r (queue_try_recv i)).
    { intros i. unfold queue_try_recv. apply foreign_bind; [exact (interleave_foreign r)|]. intros _ k w a w' E F.
      destruct (chan_try_recv (w_queues w i)). injection E as _ <-. exact F. }
    assert (C : forall n d t acc, keeps_foreign r (tele_collect n d t acc)).
    { induction n as [|n IH]; intros; cbn [tele_collect]; [apply foreign_ret|]. apply foreign_bind; [apply Q|].
      intros [m| |]; [|apply IH|apply foreign_ret]. apply foreign_bind; [apply foreign_lift|]. intros [? ?]. apply IH. }
    unfold tele_process. destruct (tp_disconnected t); [apply foreign_ret|]. apply foreign_bind; [apply foreign_lift|]. intros d.
    apply foreign_bind; [apply C|]. intros [t1 acc]. apply foreign_bind.
    { unfold queue_len. apply foreign_bind; [exact (interleave_foreign r)|]. intros _ k w a w' E F. injection E as _ <-. exact F. }
    intros e. destruct (something_happened _); [|apply foreign_ret]. apply foreign_bind; [apply foreign_lift|]. intros; apply foreign_ret.
  Qed.

  Lemma drain_away : forall r n i m k w m' b w', r <> MountReceiver i ->
    attached_drain n i m k w = Ok (m', b) w' -> foreign r w ->
    exists xs, m' = fold_left mount_add xs m /\ Forall (fun x => ~ put_holds r x) xs /\ foreign r w' /\ untouched r w w'.
  Proof.
    intros r. induction n as [|n IH]; intros i m k w m' b w' N E F; [discriminate E|]. cbn [attached_drain] in E.
    apply bind_ok in E. destruct E as (x & w1 & E1 & E).
    destruct (away_mount_recv r i N _ _ _ _ E1 F) as (F1 & U1 & P1). destruct x as [y| |].
    - destruct (IH _ _ _ _ _ _ _ N E F1) as (xs & H1 & H2 & H3 & H4). exists (y :: xs). split; [exact H1|].
      split; [constructor; assumption|]. split; [exact H3|]. eapply untouched_trans; eassumption.
    - injection E as <- _ <-. exists []. split; [reflexivity|]. auto.
    - injection E as <- _ <-. exists []. split; [reflexivity|]. auto.
  Qed.

  Lemma among_more : forall r (ps qs : list (processor X Y)) path t, among r ps path t -> Forall (fun q => ~ holds r q) qs -> among r (ps ++ qs) path t.
  Proof.
    intros r ps qs path t A F. inversion A; subst. rewrite <- app_assoc. cbn [app]. apply am_at; auto. apply Forall_app. auto.
  Qed.

  Lemma located_receiver : forall r p path t, located r p path t -> r = QueueReceiver (tp_receiver t).
  Proof.
    intros r. apply (located_mut X Y r (fun p path t => r = QueueReceiver (tp_receiver t)) (fun ps path t => r = QueueReceiver (tp_receiver t))); auto.
  Qed.

  (** The processor is collected once; the others do not touch its queue. *)
  Definition visited r k max s t w t' w' : Prop :=
    exists w1 o w2,
      untouched r w w1 /\ later (w_clock w) (w_clock w1)
      /\ tele_process t max s k w1 = Ok (t', o) w2
      /\ untouched r w2 w' /\ later (w_clock w2) (w_clock w') /\ runs w w1 /\ runs w2 w'.

  Lemma traverse_located : forall r n max s k,
    (forall p k w p' o w' path t,
       processor_process n p max s k w = Ok (p', o) w' -> located r p path t -> foreign r w ->
       exists t', visited r k max s t w t' w' /\ located r p' path t' /\ foreign r w') ->
    forall ps acc w ps' o w' path t,
      traverse (collect_one (fun p => processor_process n p max s)) ps acc k w = Ok (ps', o) w' ->
      among r ps path t -> foreign r w ->
      exists t', visited r k max s t w t' w' /\ among r ps' path t' /\ foreign r w'.
  Proof.
    intros r n max s k IH. intros ps acc w ps' o w' path t E A F. inversion A as [before p after path0 t0 B L Af]. subst.
      clear A. revert acc w ps' o w' E F B. induction before as [|q before IHb]; intros acc w ps' o w' E F B;
        cbn [app traverse] in E; apply bind_ok in E; destruct E as ([p1 acc1] & w1 & E1 & E);
        apply bind_ok in E; destruct E as ([ps1 o2] & w2 & E2 & E); injection E as <- <- <-;
        unfold collect_one in E1; apply bind_ok in E1; destruct E1 as ([p2 o1] & w3 & E3 & E1);
        apply bind_ok in E1; destruct E1 as (o3 & w4 & E4 & E1); injection E1 as <- <- <-;
        apply combine_wraps in E4; destruct E4 as (_ & ->).
      - destruct (IH _ _ _ _ _ _ _ _ E3 L F) as (t' & (wa & oa & wb & V1 & V2 & V3 & V4 & V5 & V6 & V7) & L' & F').
        assert (Na : ~ Exists (holds r) after).
        { intros N. apply Exists_exists in N. destruct N as (x & Ix & Hx). rewrite Forall_forall in Af. exact (Af _ Ix Hx). }
        assert (Aw := away_traverse r (fun p => processor_process n p max s) after o3
                        (fun p Hp => away_process r n p max s Hp) Na k _ _ _ E2 F').
        destruct Aw as (F2 & U2 & N2). cbn [fst] in N2.
        exists t'. split; [|split; [|exact F2]].
        + exists wa, oa, wb. split; [exact V1|]. split; [exact V2|]. split; [exact V3|].
          split; [eapply untouched_trans; eassumption|]. split.
          { eapply later_trans; [exact V5|].
            assert (Tk := wticks_traverse _ _ (collect_one (fun p => processor_process n p max s)) after o3
              (fun x s0 => ltac:(unfold collect_one; apply wticks_bind; [apply (processor_process_wticks HX HY)|];
                 intros [? ?]; apply wticks_bind; [apply combine_wticks|]; intros; apply wticks_ret))).
            exact (Tk _ _ _ _ E2). }
          split; [exact V6|]. eapply runs_trans; [exact V7|]. apply traverse_collects in E2. destruct E2 as (os & CE & _).
          exact (collect_each_runs _ _ _ _ _ _ _ _ CE).
        + apply (am_at r [] p2 ps1 path0 t'); [constructor | exact L' |]. apply Forall_forall. intros x Ix Hx. apply N2.
          apply Exists_exists. eauto.
      - inversion B as [|? ? Bq Bb]. subst.
        destruct (away_process r n q max s Bq k _ _ _ E3 F) as (F1 & U1 & N1). cbn [fst] in N1.
        destruct (IHb _ _ _ _ _ E2 F1 Bb) as (t' & (wa & oa & wb & V1 & V2 & V3 & V4 & V5 & V6 & V7) & A' & F').
        exists t'. split; [|split; [|exact F']].
        + exists wa, oa, wb. split; [eapply untouched_trans; eassumption|]. split.
          { eapply later_trans; [|exact V2]. exact (processor_process_wticks HX HY _ _ _ _ _ _ _ _ E3). }
          repeat (split; [assumption|]). split; [|exact V7]. eapply runs_trans; [exact (wruns_process _ _ _ _ _ _ _ _ E3) | exact V6].
        + inversion A' as [b' p' a' q' t0' B' L' Af' Eb Ep]. subst. cbn [length]. change (p2 :: b' ++ p' :: a') with ((p2 :: b') ++ p' :: a').
          rewrite <- Ep. change (S (length b')) with (length (p2 :: b')). apply am_at; [constructor; assumption | assumption..].
  Qed.

  Lemma collected_located : forall r n max s p k w p' o w' path t,
    processor_process n p max s k w = Ok (p', o) w' -> located r p path t -> foreign r w ->
    exists t', visited r k max s t w t' w' /\ located r p' path t' /\ foreign r w'.
  Proof.
    intros r n max s. induction n as [|n IH]; intros p k w p' o w' path t E L F; [discriminate E|].
    assert (Tr := traverse_located r n max s k IH).
    assert (Mo : forall d ps ss w m' o w' path t,
      mount_process (fun p => processor_process n p max s) (Mount d ps ss) k w = Ok (m', o) w' ->
      among r ps path t -> foreign r w ->
      exists t' d' ps', visited r k max s t w t' w' /\ m' = Mount d' ps' ss /\ (md_name d' = md_name d /\ md_limit d' = md_limit d) /\ among r ps' path t' /\ foreign r w').
    { clear - Tr. intros d ps ss w m' o w' path t E A F. cbn [mount_process] in E.
      apply bind_ok in E. destruct E as ([ps1 o1] & w1 & E1 & E).
      destruct (Tr _ _ _ _ _ _ _ _ E1 A F) as (t' & V & A' & F').
      destruct (something_happened o1).
      - apply bind_ok in E. destruct E as (x & w2 & E2 & E). injection E as <- <- <-. apply lift_inv in E2. destruct E2 as (c & E2 & ->).
        exists t', (mount_touch d x), ps1. split; [|split; [reflexivity|split; [split; reflexivity|split; [exact A' | exact F']]]].
        destruct V as (wa & oa & wb & V1 & V2 & V3 & V4 & V5 & V6 & V7).
        exists wa, oa, wb. do 3 (split; [assumption|]). split; [exact V4|]. split; [|split; [exact V6 | exact V7]].
        cbn [w_clock]. eapply later_trans; [exact V5 | exact (ticks_now _ _ _ _ E2)].
      - injection E as <- <- <-. exists t', d, ps1. auto 6. }
    cbn [processor_process] in E. inversion L as [t0 Hr|d ps ss path0 t0 A|i d ps ss path0 t0 A]; subst.
    - apply bind_ok in E. destruct E as ([t1 o1] & w1 & E1 & E). injection E as <- <- <-.
      exists t1. split; [|split].
      + exists w, o1, w1. split; [apply untouched_refl|]. split; [apply later_refl|]. split; [exact E1|].
        split; [apply untouched_refl|]. split; [apply later_refl|]. split; apply runs_refl.
      + apply lo_here. destruct (process_chronicle _ _ _ _ _ _ _ _ E1) as (ms & _ & _ & _ & _ & Hr & _). congruence.
      + exact (tele_process_foreign _ _ _ _ _ _ _ _ E1 F).
    - apply bind_ok in E. destruct E as ([m1 o1] & w1 & E1 & E). injection E as <- <- <-.
      destruct (Mo _ _ _ _ _ _ _ _ _ E1 A F) as (t' & d' & ps' & V & -> & (Nm & Nl) & A' & F').
      exists t'. split; [exact V|]. split; [rewrite <- Nm, <- Nl; apply lo_mount; exact A' | exact F'].
    - apply bind_ok in E. destruct E as ([r1 m1] & w1 & E1 & E).
      apply bind_ok in E. destruct E as ([m2 o2] & w2 & E2 & E). injection E as <- <- <-.
      assert (Hr := located_receiver _ _ _ _ L).
      assert (T : exists xs, m1 = Mount d (ps ++ put_processors xs) (ss ++ put_snapshooters xs) /\ Forall (fun x => ~ put_holds r x) xs
                /\ foreign r w1 /\ untouched r w w1 /\ later (w_clock w) (w_clock w1) /\ runs w w1).
      { assert (Tk := attached_take_wticks _ _ _ _ _ _ E1). destruct i as [i|]; cbn [attached_take] in E1.
        - apply bind_ok in E1. destruct E1 as ([m3 b] & w5 & E3 & E1). injection E1 as <- <- <-.
          assert (R3 := wruns_drain _ _ _ _ _ _ _ E3).
          apply (drain_away r) in E3; [|congruence|exact F]. destruct E3 as (xs & -> & H2 & H3 & H4). exists xs.
          split; [apply mount_add_list|]. auto.
        - injection E1 as <- <- <-. exists []. cbn. rewrite !app_nil_r. repeat split; auto; try apply F; [apply untouched_refl|..]; intros j; exists []; reflexivity. }
      destruct T as (xs & -> & Fx & F1 & U1 & L1 & R1).
      assert (A1 : among r (ps ++ put_processors xs) path0 t).
      { apply among_more; [exact A|]. apply Forall_forall. intros q Iq Hq. apply in_flat_map in Iq. destruct Iq as (x & Ix & Iq).
        rewrite Forall_forall in Fx. specialize (Fx _ Ix). destruct x; [|destruct Iq]. destruct Iq as [->|[]]. exact (Fx Hq). }
      destruct (Mo _ _ _ _ _ _ _ _ _ E2 A1 F1) as (t' & d' & ps' & V & -> & (Nm & Nl) & A' & F').
      exists t'. split; [|split; [rewrite <- Nm, <- Nl; apply lo_attached; exact A' | exact F']].
      destruct V as (wa & oa & wb & V1 & V2 & V3 & V4 & V5 & V6 & V7).
      exists wa, oa, wb. split; [eapply untouched_trans; eassumption|]. split; [eapply later_trans; eassumption|].
      do 3 (split; [assumption|]). split; [eapply runs_trans; eassumption | exact V7].
  Qed.

  (** ** Snapshots *)

  Lemma activity_cases : forall A limit show last (a : A) rest into k c a' into' c',
    check_activity limit show last a rest into k c = Ok (a', into') c' ->
    (a' = a /\ later c c') \/ exists i1 c1, later c c1 /\ rest i1 k c1 = Ok (a', into') c'.
  Proof.
    intros A limit show last a rest into k c a' into' c' E. unfold check_activity in E.
    destruct limit as [l|]; [|right; exists into, c; split; [apply later_refl | exact E]].
    destruct show; [|right; exists into, c; split; [apply later_refl | exact E]].
    apply bind_ok in E. destruct E as (e & c1 & E1 & E). assert (L := elapsed_ticks _ _ _ _ _ E1).
    destruct (_ <? _); [injection E as <- _ <-; left; auto | right; eauto].
  Qed.

  Lemma traverse_cons_inv : forall A S (f : A -> S -> M (A * S)) a l s k c r s' c',
    traverse f (a :: l) s k c = Ok (r, s') c' ->
    exists a' s1 c1 l', f a s k c = Ok (a', s1) c1 /\ traverse f l s1 k c1 = Ok (l', s') c' /\ r = a' :: l'.
  Proof.
    intros A S f a l s k c r s' c' E. cbn [traverse] in E. apply bind_ok in E. destruct E as ([a1 s1] & c1 & E1 & E).
    apply bind_ok in E. destruct E as ([l1 s2] & c2 & E2 & E). injection E as <- <- <-. eauto 8.
  Qed.

  Lemma puts_clean : forall r de ps into k c ps' into' c',
    traverse (fun x => processor_put (X := X) (Y := Y) x de) ps into k c = Ok (ps', into') c' ->
    Forall (fun q => ~ holds r q) ps -> Forall (fun q => ~ holds r q) ps' /\ length ps' = length ps /\ later c c'.
  Proof.
    intros r de. induction ps as [|p ps IH]; intros into k c ps' into' c' E F.
    - injection E as <- _ <-. split; [constructor|]. split; [reflexivity | apply later_refl].
    - apply traverse_cons_inv in E. destruct E as (a' & s1 & c1 & l' & E1 & E2 & ->). inversion F; subst.
      destruct (IH _ _ _ _ _ _ E2) as (H3 & H4 & H5); [assumption|]. split.
      + constructor; [|exact H3]. intros N. apply (proj1 (put_keeps_receivers r) _ _ _ _ _ _ _ _ E1) in N. auto.
      + split; [cbn; congruence|]. eapply later_trans; [|exact H5]. exact (proj1 (processor_put_ticks HX HY) _ _ _ _ _ _ _ E1).
  Qed.

  Lemma among_put_step : forall r de before p after path t,
    (forall into k c p' into' c', processor_put p de into k c = Ok (p', into') c' ->
        exists t', chronicle (X := X) k c t [] t' c' /\ located r p' path t') ->
    forall into k c ps' into' c', Forall (fun q => ~ holds r q) before -> Forall (fun q => ~ holds r q) after ->
    traverse (fun x => processor_put (X := X) (Y := Y) x de) (before ++ p :: after) into k c = Ok (ps', into') c' ->
    exists t', chronicle k c t [] t' c' /\ among r ps' (Position (length before) :: path) t'.
  Proof.
    intros r de before p after path t Hp. induction before as [|q before IH]; intros into k c ps' into' c' B A E; cbn [app] in E;
      apply traverse_cons_inv in E; destruct E as (a' & s1 & c1 & l' & E1 & E2 & ->).
    - destruct (Hp _ _ _ _ _ _ E1) as (t' & C1 & L1). destruct (puts_clean r _ _ _ _ _ _ _ _ E2 A) as (A1 & _ & La).
      exists t'. split; [eapply chronicle_after; eassumption|]. apply (am_at r []); auto.
    - inversion B; subst. destruct (IH _ _ _ _ _ _ ltac:(assumption) A E2) as (t' & C1 & A1). exists t'. split.
      + eapply chronicle_before; [|exact C1]. exact (proj1 (processor_put_ticks HX HY) _ _ _ _ _ _ _ E1).
      + inversion A1 as [b' p' af' q' t0 B' L' Af' Eb Ep]; subst. cbn [length]. rewrite <- Ep.
        change (a' :: b' ++ p' :: af') with ((a' :: b') ++ p' :: af'). change (S (length b')) with (length (a' :: b')).
        apply am_at; auto. constructor; [|assumption]. intros N. apply (proj1 (put_keeps_receivers r) _ _ _ _ _ _ _ _ E1) in N. auto.
  Qed.

  Lemma put_located : forall r p path t, located r p path t -> forall de into k c p' into' c',
    processor_put p de into k c = Ok (p', into') c' -> exists t', chronicle (X := X) k c t [] t' c' /\ located r p' path t'.
  Proof.
    intros r.
    assert (Mo : forall d (ps : list (processor X Y)) ss path t,
      (forall de into k c ps' into' c', traverse (fun x => processor_put x de) ps into k c = Ok (ps', into') c' ->
         exists t', chronicle (X := X) k c t [] t' c' /\ among r ps' path t') -> among r ps path t ->
      forall de into k c m' into' c', mount_put (Mount d ps ss) de into k c = Ok (m', into') c' ->
      exists t' ps' ss', chronicle (X := X) k c t [] t' c' /\ m' = Mount d ps' ss' /\ among r ps' path t').
    { intros d ps ss path t H A de into k c m' into' c' E. rewrite mount_put_eq in E. apply put_named_inv in E. destruct E as (i1 & i2 & E).
      apply activity_cases in E. destruct E as [(-> & L)|(i3 & c1 & L & E)].
      - exists t, ps, ss. split; [apply cr_end; exact L|]. auto.
      - apply bind_ok in E. destruct E as ([ps1 i4] & c2 & E1 & E). apply bind_ok in E. destruct E as ([ss1 i5] & c3 & E2 & E).
        injection E as <- _ <-. destruct (H _ _ _ _ _ _ _ E1) as (t' & C1 & A1). exists t', ps1, ss1. split; [|auto].
        eapply chronicle_before; [exact L|]. eapply chronicle_after; [exact C1|].
        refine (ticks_traverse _ _ _ _ _ _ _ _ _ _ E2). apply Forall_forall. intros x _ s0. apply (tree_put_ticks HX). }
    assert (G : (forall p path t, located r p path t -> forall de into k c p' into' c',
        processor_put p de into k c = Ok (p', into') c' -> exists t', chronicle (X := X) k c t [] t' c' /\ located r p' path t')).
    2: exact G.
    apply (located_mut X Y r
      (fun p path t => forall de into k c p' into' c',
        processor_put p de into k c = Ok (p', into') c' -> exists t', chronicle (X := X) k c t [] t' c' /\ located r p' path t')
      (fun ps path t => forall de into k c ps' into' c', traverse (fun x => processor_put x de) ps into k c = Ok (ps', into') c' ->
         exists t', chronicle (X := X) k c t [] t' c' /\ among r ps' path t')).
    - intros t Hr de into k c p' into' c' E. cbn [processor_put] in E. unfold wrap in E.
      apply bind_ok in E. destruct E as ([t1 i1] & c1 & E1 & E). injection E as <- _ <-.
      exists t1. split; [eapply cr_shown; [apply later_refl | exact E1 | apply cr_end, later_refl]|].
      apply lo_here. destruct (tele_put_receiver _ _ _ _ _ _ _ _ E1) as [-> _]. exact Hr.
    - intros d ps ss path t A IH de into k c p' into' c' E.
      change (wrap PMount (mount_put (Mount d ps ss) de into) k c = Ok (p', into') c') in E. unfold wrap in E.
      apply bind_ok in E. destruct E as ([m1 i1] & c1 & E1 & E). injection E as <- _ <-.
      destruct (Mo _ _ _ _ _ IH A _ _ _ _ _ _ _ E1) as (t' & ps' & ss' & C & -> & A'). exists t'. split; [exact C | apply lo_mount; exact A'].
    - intros i d ps ss path t A IH de into k c p' into' c' E.
      change (wrap (PAttached i) (mount_put (Mount d ps ss) de into) k c = Ok (p', into') c') in E. unfold wrap in E.
      apply bind_ok in E. destruct E as ([m1 i1] & c1 & E1 & E). injection E as <- _ <-.
      destruct (Mo _ _ _ _ _ IH A _ _ _ _ _ _ _ E1) as (t' & ps' & ss' & C & -> & A'). exists t'. split; [exact C | apply lo_attached; exact A'].
    - intros before p after path t B L IH Af de into k c ps' into' c' E.
      eapply among_put_step; [|exact B | exact Af | exact E]. intros into0 k0 c0 p' into1 c1 E1. exact (IH _ _ _ _ _ _ _ E1).
  Qed.

  Lemma among_put : forall r ps path t, among r ps path t -> forall de into k c ps' into' c',
    traverse (fun x => processor_put (X := X) (Y := Y) x de) ps into k c = Ok (ps', into') c' ->
    exists t', chronicle k c t [] t' c' /\ among r ps' path t'.
  Proof.
    intros r ps path t A de into k c ps' into' c' E. inversion A; subst.
    eapply among_put_step; [|eassumption..]. intros into0 k0 c0 p' into1 c1 E1. eapply put_located; eassumption.
  Qed.
End Chronicle.
