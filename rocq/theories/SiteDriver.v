From Coq Require Import ZArith Bool String List Lia.
From Verif Require Import Base SpecRun MonadFacts ModelObservation ModelLabelFilter ModelSnapshot ModelCounter ModelGauge ModelMeter
  ModelHistogram ModelInstrument ModelTree ModelChannel ModelProcessor ModelDriver SpecClock SpecWriting SpecNames SpecTree SpecQueue SpecCollect
  SpecDriver SpecChronicle SpecSite SpecCounting SpecGauge SpecMeter SpecLife TreeInd TreeEqs TreeProofs ClockProofs WritingProofs AppendProofs
  DriverProofs DriverShapeProofs ChronicleDriver SiteProofs LifeProofs.
Import ListNotations.
Open Scope list_scope.
Open Scope Z_scope.

Section Presenting.
  Context {X : ext} {Y : pext} (HX : parts_tick X) (HY : processors_tick Y) (HA : parts_append X) (HB : forall u, appends (user_proc_put Y u)).

  Lemma presented_widen : forall k c c1 c2 c' names names' gs (x x' : leaf X) de added more,
    later c c1 -> later c2 c' ->
    (forall fields, contains names fields added -> contains names' fields more) ->
    presented k c1 names gs x x' de added c2 -> presented k c names' gs x x' de more c'.
  Proof.
    intros k c c1 c2 c' names names' gs x x' de added more L1 L2 Hc
      [(-> & h & c3 & Hin & M1 & M2 & Hh)|(level & fields & c3 & c4 & M1 & E & M2 & H)].
    - left. split; [reflexivity|]. exists h, c3. split; [exact Hin|]. split; [exact (later_trans _ _ _ L1 M1)|]. split; [exact (later_trans _ _ _ M2 L2) | exact Hh].
    - right. exists level, fields, c3, c4. split; [exact (later_trans _ _ _ L1 M1)|]. split; [exact E|].
      split; [exact (later_trans _ _ _ M2 L2) | exact (Hc _ H)].
  Qed.

  Definition presents (p : processor X Y) (path : list place) (names : list string) (gs : list guard) (t : tele X) : Prop :=
    forall at_ names2 gs2 on x, tele_site t at_ names2 gs2 on x ->
    forall de into k c p' s c', processor_put p de into k c = Ok (p', s) c' ->
    exists t' x' added, processor_site p' path names gs t' /\ tele_site t' at_ names2 gs2 on x' /\ s = into ++ added
      /\ presented k c (names ++ names2) (gs ++ gs2) x x' de added c'.

  Lemma processors_put_all : forall de (l : list (processor X Y)),
    Forall (fun x => forall s, ticks (processor_put x de s)) l /\ Forall (fun x => forall s, grows s (processor_put x de s)) l.
  Proof.
    intros de l. split; apply Forall_forall; intros p _ s.
    - apply (processor_put_ticks HX HY).
    - exact (proj1 (processor_appends HA Y HB) p de s).
  Qed.

  Lemma mount_presents : forall d ps (ss : list (snapshooter X)) j p path names gs t,
    nth_error ps j = Some p -> presents p path names gs t ->
    forall at_ names2 gs2 on x, tele_site t at_ names2 gs2 on x ->
    forall de into k c m' s c', mount_put (Mount d ps ss) de into k c = Ok (m', s) c' ->
    processor_site p path names gs t ->
    exists ps' ss' p' t' x' added, m' = Mount d ps' ss' /\ nth_error ps' j = Some p' /\ processor_site p' path names gs t'
      /\ tele_site t' at_ names2 gs2 on x' /\ s = into ++ added
      /\ presented k c (opt_list (md_name d) ++ names ++ names2) (mount_guard d :: gs ++ gs2) x x' de added c'.
  Proof.
    intros d ps ss j p path names gs t Hn IH at_ names2 gs2 on x S de into k c m' s c' E Hp.
    rewrite mount_put_eq in E. apply guarded_put in E.
    destruct E as [(-> & Hh & added & ->)|(level & s1 & c1 & L & E & H)].
    { exists ps, ss, p, t, x, added. split; [reflexivity|]. split; [exact Hn|]. split; [exact Hp|]. split; [exact S|]. split; [reflexivity|].
      apply presented_hidden, Hh. }
    apply bind_ok in E. destruct E as ([ps' s2] & c2 & E2 & E). apply bind_ok in E. destruct E as ([ss' s3] & c3 & E3 & E). injection E as <- <- <-.
    destruct (tree_put_ticks HX) as (_ & _ & _ & Ts). destruct (tree_appends HA) as (_ & _ & _ & Gs).
    destruct (grows_traverse _ _ _ _ (all_grow _ _ _ Gs _) _ _ _ _ _ E3) as (a3 & ->).
    destruct (processors_put_all de ps) as (Tp & Gp).
    destruct (traverse_put_nth _ _ _ _ _ Hn Tp Gp _ _ _ _ _ _ E2) as (p' & s0 & b & d1 & d2 & K1 & F & K2 & Hj & before & after & ->).
    destruct (IH _ _ _ _ _ S _ _ _ _ _ _ _ F) as (t' & x' & b' & Hp' & S' & Eb & P). apply app_inv_head in Eb. subst b'.
    destruct (H (before ++ b ++ after ++ a3)) as (more & -> & Hm); [rewrite <- !app_assoc; reflexivity|].
    exists ps', ss', p', t', x', more. split; [reflexivity|]. split; [exact Hj|]. split; [exact Hp'|]. split; [exact S'|]. split; [reflexivity|].
    eapply presented_lift; [| | | exact P].
    - eauto using later_trans.
    - eapply later_trans; [exact K2|]. exact (ticks_traverse _ _ _ _ _ (all_put _ _ _ Ts _) _ _ _ _ E3).
    - intros fields Hc. apply Hm. apply contains_widen. exact Hc.
  Qed.

  Lemma processor_presents : forall (p : processor X Y) path names gs t, processor_site p path names gs t -> presents p path names gs t.
  Proof.
    intros p path names gs t S. induction S as [t|d ps ss j p path names gs t Hn S IH|i d ps ss j p path names gs t Hn S IH];
      intros at_ names2 gs2 on x T de into k c p' s c' E; cbn [processor_put] in E; unfold wrap in E;
      apply bind_ok in E; destruct E as ([q s1] & c1 & E1 & E); injection E as <- <- <-.
    - destruct (tele_site_put HX HA _ _ _ _ _ _ T _ _ _ _ _ _ _ E1) as (x' & added & T' & -> & P).
      exists q, x', added. split; [constructor|]. split; [exact T'|]. split; [reflexivity | exact P].
    - destruct (mount_presents _ _ _ _ _ _ _ _ _ Hn IH _ _ _ _ _ T _ _ _ _ _ _ _ E1 S)
        as (ps' & ss' & p' & t' & x' & added & -> & Hj & S' & T' & -> & P).
      exists t', x', added. split; [econstructor; eassumption|]. split; [exact T'|]. split; [reflexivity|].
      rewrite <- app_assoc. exact P.
    - destruct (mount_presents _ _ _ _ _ _ _ _ _ Hn IH _ _ _ _ _ T _ _ _ _ _ _ _ E1 S)
        as (ps' & ss' & p' & t' & x' & added & -> & Hj & S' & T' & -> & P).
      exists t', x', added. split; [econstructor; eassumption|]. split; [exact T'|]. split; [reflexivity|].
      rewrite <- app_assoc. exact P.
  Qed.

  Lemma driver_presents : forall (d : driver X Y) j p path names gs t at_ names2 gs2 on x de into k c d' s c',
    nth_error (dr_processors d) j = Some p -> processor_site p path names gs t -> tele_site t at_ names2 gs2 on x ->
    put_values_into_snapshot d de into k c = Ok (d', s) c' ->
    exists p' t' x' added,
      nth_error (dr_processors d') j = Some p' /\ processor_site p' path names gs t' /\ tele_site t' at_ names2 gs2 on x' /\ s = into ++ added
      /\ presented k c (opt_list (dr_name d) ++ names ++ names2) (gs ++ gs2) x x' de added c'.
  Proof.
    intros d j p path names gs t at_ names2 gs2 on x de into k c d' s c' Hn Hp T E.
    assert (V : forall st level c d' s c', add_snapshot_values d de st level k c = Ok (d', s) c' ->
      exists p' t' x' added,
        nth_error (dr_processors d') j = Some p' /\ processor_site p' path names gs t' /\ tele_site t' at_ names2 gs2 on x' /\ s = level ++ added
        /\ presented k c (names ++ names2) (gs ++ gs2) x x' de added c').
    { clear E c d' s c'. intros st level c d' s c' E. unfold add_snapshot_values in E. cbv zeta in E.
      destruct (described_text (dr_descr d) level de) as (texts & Et & _). rewrite Et in E.
      apply bind_ok in E. destruct E as ([ps s1] & c1 & E1 & E). apply bind_ok in E. destruct E as ([ss s2] & c2 & E2 & E).
      destruct (tree_put_ticks HX) as (_ & _ & _ & Ts). destruct (tree_appends HA) as (_ & _ & _ & Gs).
      destruct (grows_traverse _ _ _ _ (all_grow _ _ _ Gs _) _ _ _ _ _ E2) as (a2 & ->).
      destruct (processors_put_all de (dr_processors d)) as (Tp & Gp).
      destruct (traverse_put_nth _ _ _ _ _ Hn Tp Gp _ _ _ _ _ _ E1) as (p' & s0 & b & d1 & d2 & K1 & F & K2 & Hj & before & after & ->).
      destruct (processor_presents _ _ _ _ _ Hp _ _ _ _ _ T _ _ _ _ _ _ _ F) as (t' & x' & b' & Hp' & S' & Eb & P). apply app_inv_head in Eb. subst b'.
      assert (L2 : later d2 c2).
      { eapply later_trans; [exact K2|]. exact (ticks_traverse _ _ _ _ _ (all_put _ _ _ Ts _) _ _ _ _ E2). }
      assert (W : exists rest, s = level ++ (texts ++ before) ++ b ++ after ++ a2 ++ rest /\ later c2 c' /\ dr_processors d' = ps).
      { destruct (dr_metrics d) as [i|].
        - apply bind_ok in E. destruct E as (i3 & c3 & E3 & E). apply bind_ok in E. destruct E as ([i4 s4] & c4 & E4 & E). injection E as <- <- <-.
          assert (Lx : later c2 c4).
          { eapply later_trans; [exact (post_snapshot_ticks HX _ _ _ _ _ _ E3) | exact (instruments_put_ticks _ _ _ _ _ _ _ E4)]. }
          unfold instruments_put in E4. cbv zeta in E4.
          do 14 (apply bind_ok in E4; destruct E4 as (? & ? & _ & E4);
                 match type of E4 with (match ?y with (_, _) => _ end) _ _ = _ => destruct y | _ => idtac end).
          injection E4 as _ <- _. unfold push. eexists. split; [|split; [exact Lx | reflexivity]]. rewrite <- !app_assoc. reflexivity.
        - injection E as <- <- <-. exists []. split; [rewrite app_nil_r, <- !app_assoc; reflexivity|]. split; [apply later_refl | reflexivity]. }
      destruct W as (rest & -> & Lx & ->). exists p', t', x', ((texts ++ before) ++ b ++ after ++ a2 ++ rest).
      split; [exact Hj|]. split; [exact Hp'|]. split; [exact S'|]. split; [reflexivity|].
      eapply presented_widen; [| | | exact P].
      - exact K1.
      - eapply later_trans; [exact L2 | exact Lx].
      - intros fields Hc. apply contains_widen. exact Hc. }
    unfold put_values_into_snapshot in E. apply bind_ok in E. destruct E as (st & c0 & E0 & E). apply ticks_now in E0.
    destruct (dr_name d) as [n|].
    - apply bind_ok in E. destruct E as ([d1 l] & c1 & E1 & E). injection E as <- <- <-.
      destruct (V _ _ _ _ _ _ E1) as (p' & t' & x' & added & A1 & A2 & A3 & -> & P).
      exists p', t', x', [(n, ItemSnapshot (snapshot_default ++ added))]. split; [exact A1|]. split; [exact A2|]. split; [exact A3|].
      split; [reflexivity|]. eapply presented_widen; [exact E0 | apply later_refl | | exact P].
      intros fields Hc. cbn [opt_list app contains]. exists [], (snapshot_default ++ added), []. split; [reflexivity|]. apply contains_left. exact Hc.
    - destruct (V _ _ _ _ _ _ E) as (p' & t' & x' & added & A1 & A2 & A3 & -> & P).
      exists p', t', x', added. split; [exact A1|]. split; [exact A2|]. split; [exact A3|]. split; [reflexivity|].
      eapply presented_widen; [exact E0 | apply later_refl | | exact P]. auto.
  Qed.

  (** ** From ways to addresses *)

  Scheme located_ind' := Minimality for located Sort Prop
    with among_ind' := Minimality for among Sort Prop.
  Combined Scheme located_among from located_ind', among_ind'.

  Lemma located_site : forall r,
    (forall (p : processor X Y) path t, located r p path t ->
       exists gs, processor_site p path (names_on path) gs t /\ map gu_limit gs = limits_on path)
    /\ (forall (ps : list (processor X Y)) path t, among r ps path t ->
       exists j p rest gs, path = Position j :: rest /\ nth_error ps j = Some p
         /\ processor_site p rest (names_on rest) gs t /\ map gu_limit gs = limits_on rest).
  Proof.
    intros r. apply located_among.
    - intros t _. exists []. split; [constructor | reflexivity].
    - intros d ps ss path t _ (j & p & rest & gs & -> & Hn & S & Hl). exists (mount_guard d :: gs).
      split; [exact (si_mount d ps ss j p rest _ gs t Hn S)|]. cbn. f_equal. exact Hl.
    - intros i d ps ss path t _ (j & p & rest & gs & -> & Hn & S & Hl). exists (mount_guard d :: gs).
      split; [exact (si_attached i d ps ss j p rest _ gs t Hn S)|]. cbn. f_equal. exact Hl.
    - intros before p after path t _ _ (gs & S & Hl) _. exists (length before), p, path, gs.
      split; [reflexivity|]. split; [|auto]. rewrite nth_error_app2, Nat.sub_diag; [reflexivity | auto].
  Qed.

  Lemma iterates_name : forall k n (d : driver X Y) w d' w', iterates k n d w d' w' -> dr_name d' = dr_name d.
  Proof.
    intros k n d w d' w' H. induction H as [d w|n d w d1 w1 d2 w2 E H IH]; [reflexivity|]. rewrite IH. clear IH H.
    assert (C : forall c w d1 w1, driver_command d c k w = Ok d1 w1 -> dr_name d1 = dr_name d).
    { clear. intros c w d1 w1 E. destruct c; cbn [driver_command] in E; try (injection E as <- <-; reflexivity);
        apply bind_ok in E; destruct E as ([d2 s] & w2 & E1 & E); apply timed_inv in E1; destruct E1 as (cl & E1 & _);
        apply bind_ok in E; destruct E as (u & w3 & _ & E); injection E as <- <-; apply (put_values_grown _ _ _ _ _ _ _ _ E1). }
    unfold driver_iteration in E. apply bind_ok in E. destruct E as (b & wa & _ & E). destruct b; cbn [negb] in E.
    2: { apply bind_ok in E. destruct E as (u & wx & _ & E). discriminate E. }
    apply bind_ok in E. destruct E as (t0 & wb & _ & E). apply bind_ok in E. destruct E as (r & wc & _ & E).
    assert (D : exists dx wx wy, (match r with Message c => driver_command d c | _ => ret d end) k wx = Ok dx wy
      /\ (if dr_paused dx then ret (dx, true) else let* d := driver_run dx t0 in ret (d, true)) k wy = Ok (d1, true) w1).
    { destruct r; [| |apply bind_ok in E; destruct E as (u & wx & _ & E); discriminate E];
        apply bind_ok in E; destruct E as (dx & wy & E1 & E); exists dx, wc, wy; auto. }
    clear E. destruct D as (dx & wx & wy & E1 & E).
    assert (N : dr_name dx = dr_name d). { destruct r; [exact (C _ _ _ _ E1) | injection E1 as <- _; reflexivity | injection E1 as <- _; reflexivity]. }
    rewrite <- N. destruct (dr_paused dx); [injection E as <- _; reflexivity|].
    apply bind_ok in E. destruct E as (dy & wz & E2 & E). injection E as <- _.
    destruct (run_spec _ _ _ _ _ _ E2) as (v1 & ps & os & v2 & _ & _ & _ & _ & _ & Hn & _). exact Hn.
  Qed.

  (** ** From the queue to the snapshot *)

  Lemma snapshot_in_the_end : forall k n (d : driver X Y) w d' w' path t i at_ names gs on x b de d'' w'',
    iterates k n d w d' w' -> driver_ok w -> i = tp_receiver t -> nobody_else (QueueReceiver i) w -> among (QueueReceiver i) (dr_processors d) path t ->
    tele_site t at_ names gs on x ->
    driver_command d' (call_snapshot b de) k w' = Ok d'' w'' ->
    exists css es added,
      length css = n /\ Forall (fun cs => (length cs <= 1)%nat) css /\ moved (dw_commands w) (dw_commands w') (concat css)
      /\ map (@en_strategy X) es = strategies (dr_strategy d) (dr_paused d) css
      /\ moved (queue_of i w) (queue_of i w') (flat_map (@en_messages X) es)
      /\ dw_answers w'' = dw_answers w' ++ [(b, added)]
      /\ (Forall (spares (owners at_ (layout t))) (flat_map en_messages es) ->
          exists os x' x'' gs', seen on es os /\ leaf_life k (w_clock (dw_world w)) x os x' (w_clock (dw_world w'))
            /\ guards_on path gs gs'
            /\ presented k (w_clock (dw_world w')) (opt_list (dr_name d) ++ names_on path ++ names) gs' x' x'' de added (w_clock (dw_world w''))).
  Proof.
    intros k n d w d' w' path t i at_ names gs on x b de d'' w'' H Hok -> Hn A T E.
    rewrite <- (iterates_name _ _ _ _ _ _ H).
    destruct (iterates_located HX HY _ _ _ _ _ _ _ _ H Hok Hn A) as (css & es & t' & H1 & H2 & H3 & H4 & H5 & H7 & _ & _ & H6 & _).
    cbn [driver_command call_snapshot] in E. apply bind_ok in E. destruct E as ([d2 s] & w2 & E1 & E). apply timed_inv in E1. destruct E1 as (cl & E1 & ->).
    apply bind_ok in E. destruct E as (u & w3 & E2 & E). injection E2 as <- <-. injection E as <- <-.
    exists css, es, s. do 5 (split; [assumption|]). split; [reflexivity|]. intros Hs.
    destruct (chronicle_life HX HA _ _ _ _ _ _ _ _ H5 _ _ _ T Hs) as (at' & gs2 & os & x' & W & L & (T' & K) & _).
    destruct (proj2 (located_site _) _ _ _ H7) as (j & p & rest & gs1 & -> & Hj & S & Hl).
    destruct (driver_presents _ _ _ _ _ _ _ _ _ _ _ _ _ _ _ _ _ _ _ Hj S T' E1) as (p' & t'' & x'' & added & _ & _ & _ & Es & P).
    cbn [snapshot_default app] in Es. subst s.
    exists os, x', x'', (gs1 ++ gs2). split; [exact W|]. split; [exact L|]. split; [exists gs1, gs2; auto|]. exact P.
  Qed.

  Lemma presented_fields : forall k c names gs (x x' : leaf X) de added c' (P : snapshot -> Prop),
    (forall level fields c1 c2, leaf_put x de level k c1 = Ok (x', level ++ fields) c2 -> P fields) ->
    presented k c names gs x x' de added c' -> shown_unless_hidden c names gs added c' P.
  Proof.
    intros k c names gs x x' de added c' P HP [(-> & h & c3 & Hin & M1 & M2 & Hh)|(level & fields & c3 & c4 & M1 & E & M2 & H)].
    - right. exists h, c3. auto.
    - left. exists fields. split; [exact H|]. exact (HP _ _ _ _ E).
  Qed.

  Lemma counter_in_the_end : forall k n (d : driver X Y) w d' w' path t i at_ names gs on ct m b de d'' w'',
    iterates k n d w d' w' -> driver_ok w -> i = tp_receiver t -> nobody_else (QueueReceiver i) w -> among (QueueReceiver i) (dr_processors d) path t ->
    tele_site t at_ names gs on (LInstrument (ICounter ct) m) -> in_u64 (c_count ct) ->
    driver_command d' (call_snapshot b de) k w' = Ok d'' w'' ->
    exists css es added,
      length css = n /\ Forall (fun cs => (length cs <= 1)%nat) css /\ moved (dw_commands w) (dw_commands w') (concat css)
      /\ map (@en_strategy X) es = strategies (dr_strategy d) (dr_paused d) css
      /\ moved (queue_of i w) (queue_of i w') (flat_map (@en_messages X) es)
      /\ dw_answers w'' = dw_answers w' ++ [(b, added)]
      /\ (Forall (spares (owners at_ (layout t))) (flat_map en_messages es) ->
          exists os gs', seen on es os /\ guards_on path gs gs'
            /\ shown_unless_hidden (w_clock (dw_world w')) (opt_list (dr_name d) ++ names_on path ++ names) gs' added (w_clock (dw_world w''))
                 (In (c_name ct, UInt ((c_count ct + total (map (taken_as m) os)) mod two64)))).
  Proof.
    intros k n d w d' w' path t i at_ names gs on ct m b de d'' w'' H Hok Hi Hn A T Hin E.
    destruct (snapshot_in_the_end _ _ _ _ _ _ _ _ _ _ _ _ _ _ _ _ _ _ H Hok Hi Hn A T E) as (css & es & added & H1 & H2 & H3 & H4 & H5 & H6 & H7).
    exists css, es, added. do 6 (split; [assumption|]). intros Hs. destruct (H7 Hs) as (os & x' & x'' & gs' & W & L & G & P).
    exists os, gs'. split; [exact W|]. split; [exact G|].
    destruct (counter_life _ _ _ _ _ _ _ L Hin) as (-> & _).
    eapply presented_fields; [|exact P]. intros level fields c1 c2 Ep. apply counter_fields in Ep. destruct Ep as (_ & Ep). exact Ep.
  Qed.

  Lemma gauge_in_the_end : forall k n (d : driver X Y) w d' w' path t i at_ names gs on (a : gauge_adapter (lab X)) b de d'' w'',
    iterates k n d w d' w' -> driver_ok w -> i = tp_receiver t -> nobody_else (QueueReceiver i) w -> among (QueueReceiver i) (dr_processors d) path t ->
    tele_site t at_ names gs on (LGauge a) -> GaugeProofs.opt_in_i64 (gauge_get (ga_gauge a)) ->
    driver_command d' (call_snapshot b de) k w' = Ok d'' w'' ->
    exists css es added,
      length css = n /\ Forall (fun cs => (length cs <= 1)%nat) css /\ moved (dw_commands w) (dw_commands w') (concat css)
      /\ map (@en_strategy X) es = strategies (dr_strategy d) (dr_paused d) css
      /\ moved (queue_of i w) (queue_of i w') (flat_map (@en_messages X) es)
      /\ dw_answers w'' = dw_answers w' ++ [(b, added)]
      /\ (Forall (spares (owners at_ (layout t))) (flat_map en_messages es) ->
          exists os gs', seen on es os /\ guards_on path gs gs'
            /\ forall effects v,
                 Forall2 (reacts (lab_eqb X) (ga_modify_update a) (g_display_time_unit (ga_gauge a)) (ga_strategy a)) os effects ->
                 exact_value (begins (gauge_get (ga_gauge a)) ++ effects) v ->
                 shown_unless_hidden (w_clock (dw_world w')) (opt_list (dr_name d) ++ names_on path ++ names) gs' added (w_clock (dw_world w''))
                   (shows_gauge (ga_gauge a) (option_map wrap_i64 v))).
  Proof.
    intros k n d w d' w' path t i at_ names gs on a b de d'' w'' H Hok Hi Hn A T Hin E.
    destruct (snapshot_in_the_end _ _ _ _ _ _ _ _ _ _ _ _ _ _ _ _ _ _ H Hok Hi Hn A T E) as (css & es & added & H1 & H2 & H3 & H4 & H5 & H6 & H7).
    exists css, es, added. do 6 (split; [assumption|]). intros Hs. destruct (H7 Hs) as (os & x' & x'' & gs' & W & L & G & P).
    exists os, gs'. split; [exact W|]. split; [exact G|]. intros effects v F Hv.
    destruct (gauge_life _ _ _ _ _ _ _ _ L Hin F Hv) as (g' & -> & S & V).
    eapply presented_fields; [|exact P]. intros level fields c1 c2 Ep. apply gauge_leaf_fields in Ep.
    cbn [ga_with ga_gauge] in Ep. rewrite V in Ep. destruct S as (S1 & _ & _ & S2). unfold shows_gauge in *. rewrite S1, S2 in Ep. exact Ep.
  Qed.
End Presenting.
