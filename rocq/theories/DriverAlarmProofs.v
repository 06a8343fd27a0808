(** The alarms among the driver's metrics. *)
From Coq Require Import ZArith Bool String List Lia.
From Verif Require Import Base SpecRun MonadFacts SpecClock ClockProofs ModelObservation ModelSnapshot ModelGauge ModelMeter
  ModelHistogram ModelSwitches ModelInstrument ModelTree ModelChannel ModelProcessor ModelDriver SpecWriting
  SpecQueue SpecCollect SpecDriver DriverProofs DriverLoopProofs DriverMetricsProofs DriverShapeProofs.
Import ListNotations.
Open Scope string_scope.
Open Scope list_scope.
Open Scope Z_scope.

Section Alarms.
  Context {X : ext} {Y : pext}.
  Implicit Types (d : driver X Y) (w : dworld X Y).

  Definition greatest (t : Z) (l : list Z) : Prop := In t l /\ Forall (fun x => x <= t) l.
  Definition lit_for (u : option Z) (taps : list Z) : Prop :=
    match u with
    | None => taps = []
    | Some x => exists t, x = t + 60 * nanos_per_sec /\ greatest t taps
    end.

  Context (HX : parts_tick X) (HY : processors_tick Y).

  Lemma received_alarms : forall k d w wa t0 wb r wc dm wd,
    metrics_ok d ->
    load_running k w = Ok true wa -> timed now k wa = Ok t0 wb -> command_try_recv k wb = Ok r wc ->
    (match r with Message c => driver_command d c | _ => ret d end) k wc = Ok dm wd ->
    later (w_clock (dw_world w)) (w_clock (dw_world wd)) /\ metrics_ok dm
    /\ forall i, dr_metrics d = Some i -> exists i', dr_metrics dm = Some i' /\ alarms_same i i'.
  Proof.
    intros k d w wa t0 wb r wc dm wd Hd E1 E2 E3 E4.
    assert (Wa : dw_world wa = dw_world w).
    { unfold load_running in E1. apply bind_ok in E1. destruct E1 as (u & wx & E1 & F). injection F as _ <-. exact (clients_world _ _ _ _ E1). }
    apply timed_inv in E2. destruct E2 as (c2 & E2 & Eb). apply ticks_now in E2.
    assert (Wc : w_clock (dw_world wc) = c2).
    { unfold command_try_recv in E3. apply bind_ok in E3. destruct E3 as (u & wx & E3 & F).
      destruct (chan_try_recv (dw_commands wx)). injection F as _ <-. cbn [dw_with dw_world].
      rewrite (clients_world _ _ _ _ E3), Eb. reflexivity. }
    rewrite Wa in E2.
    assert (Cm : later (w_clock (dw_world wc)) (w_clock (dw_world wd)) /\ metrics_ok dm
      /\ forall i, dr_metrics d = Some i -> exists i', dr_metrics dm = Some i' /\ alarms_same i i').
    { destruct r as [c| |]; [exact (command_alarms HX HY _ _ _ _ _ _ Hd E4)|..]; injection E4 as <- <-;
        (split; [apply later_refl|]; split; [exact Hd|]; intros i Hi; exists i; repeat split; exact Hi). }
    destruct Cm as (C1 & C2 & C3). rewrite Wc in C1. split; [exact (later_trans _ _ _ E2 C1) | auto].
  Qed.

  Lemma greatest_more : forall t l x, greatest t l -> Forall (fun y => y <= x) l -> greatest x (l ++ [x]).
  Proof.
    intros t l x _ H. split; [apply in_app_iff; right; left; reflexivity|]. apply Forall_app. split; [exact H|].
    constructor; [lia | constructor].
  Qed.

  Lemma history_alarms : forall k n d w log d' w', history k n d w log d' w' -> metrics_ok d -> monotone (w_clock (dw_world w)) ->
    later (w_clock (dw_world w)) (w_clock (dw_world w')) /\ metrics_ok d'
    /\ forall i taps0 runs0, dr_metrics d = Some i ->
         lit_for (st_stay_on_until (di_dropped_observations_alarm i)) taps0 -> greatest (ni_happened_last (di_inactivity_alarm i)) runs0 ->
         Forall (fun t => t <= w_clock (dw_world w) O) taps0 -> Forall (fun t => t <= w_clock (dw_world w) O) runs0 ->
         exists i' taps runs, dr_metrics d' = Some i'
           /\ Forall2 within taps (dropping log) /\ Forall2 within runs log
           /\ lit_for (st_stay_on_until (di_dropped_observations_alarm i')) (taps0 ++ taps)
           /\ greatest (ni_happened_last (di_inactivity_alarm i')) (runs0 ++ runs).
  Proof.
    intros k n d w log d' w' H. induction H as [d w|n d w wa t0 wb r wc dm wd e d1 w1 log d2 w2 E1 E2 E3 D E4 C H IH]; intros Hd Mo.
    - split; [apply later_refl|]. split; [exact Hd|]. intros i taps0 runs0 Hi L G F1 F2. exists i, [], []. rewrite !app_nil_r.
      split; [exact Hi|]. split; [apply Forall2_nil|]. split; [apply Forall2_nil|]. auto.
    - destruct (received_alarms _ _ _ _ _ _ _ _ _ _ Hd E1 E2 E3 E4) as (L1 & Hm & A1). clear E1 E2 E3 E4 D.
      assert (Mod := later_monotone _ _ Mo L1).
      destruct (collected_alarms HX HY _ _ _ _ _ _ _ Hm Mod C) as (L2 & H1 & B & A2).
      assert (L12 := later_trans _ _ _ L1 L2). assert (Mo1 := later_monotone _ _ Mo L12).
      destruct (IH H1 Mo1) as (L3 & H2 & IH'). split; [exact (later_trans _ _ _ L12 L3)|]. split; [exact H2|].
      intros i taps0 runs0 Hi Lit G F1 F2. destruct (A1 _ Hi) as (im & Mm & S1 & S2). destruct (A2 _ Mm) as (i1 & M1 & Cs).
      assert (Le : forall l, Forall (fun t => t <= w_clock (dw_world w) O) l -> Forall (fun t => t <= w_clock (dw_world w1) O) l).
      { intros l Hl. eapply Forall_impl; [|exact Hl]. cbv beta. intros a Ha. pose proof (later_first _ _ Mo L12). lia. }
      assert (Lm : forall l, Forall (fun t => t <= w_clock (dw_world w) O) l -> Forall (fun t => t <= w_clock (dw_world wd) O) l).
      { intros l Hl. eapply Forall_impl; [|exact Hl]. cbv beta. intros a Ha. pose proof (later_first _ _ Mo L1). lia. }
      destruct Cs as [(-> & S3 & S4)|(x & tap & -> & Wt & Hr & Nd & Dr)].
      + destruct (IH' i1 taps0 runs0 M1) as (i' & taps & runs & K); try (rewrite ?S3, ?S1, ?S4, ?S2; auto; fail).
        exists i', taps, runs. exact K.
      + inversion B as [|x' l' (B1 & B2) _]. subst x' l'.
        assert (Wb : forall t, within t x -> w_clock (dw_world wd) O <= t <= w_clock (dw_world w1) O).
        { unfold within. intros t Ht. lia. }
        assert (Gr : greatest (ni_happened_last (di_inactivity_alarm i1)) (runs0 ++ [tap])).
        { rewrite Hr. eapply greatest_more; [exact G|]. eapply Forall_impl; [|exact (Lm _ F2)]. cbv beta. intros a Ha.
          pose proof (Wb _ Wt). lia. }
        assert (Fr : Forall (fun t => t <= w_clock (dw_world w1) O) (runs0 ++ [tap])).
        { apply Forall_app. split; [exact (Le _ F2)|]. constructor; [apply (Wb _ Wt) | constructor]. }
        destruct (Z.ltb_spec 0 (oc_dropped (snd (fst x)))) as [Dx|Dx].
        * destruct (Dr Dx) as (t & Wx & Hx).
          destruct (IH' i1 (taps0 ++ [t]) (runs0 ++ [tap]) M1) as (i' & taps & runs & K1 & K2 & K3 & K4 & K5); auto.
          { rewrite Hx. exists t. split; [reflexivity|]. split; [apply in_app_iff; right; left; reflexivity|].
            apply Forall_app. split; [|constructor; [lia | constructor]]. eapply Forall_impl; [|exact (Lm _ F1)]. cbv beta. intros a Ha.
            pose proof (Wb _ Wx). lia. }
          { apply Forall_app. split; [exact (Le _ F1)|]. constructor; [apply (Wb _ Wx) | constructor]. }
          exists i', (t :: taps), (tap :: runs). rewrite <- app_assoc in K4, K5. split; [exact K1|]. split.
          { unfold dropping. cbn [app filter]. destruct (Z.ltb_spec 0 (oc_dropped (snd (fst x)))); [|lia]. constructor; assumption. }
          split; [constructor; assumption|]. split; [exact K4 | exact K5].
        * destruct (IH' i1 taps0 (runs0 ++ [tap]) M1) as (i' & taps & runs & K1 & K2 & K3 & K4 & K5); auto.
          { rewrite (Nd Dx), S1. exact Lit. }
          exists i', taps, (tap :: runs). rewrite <- app_assoc in K5. split; [exact K1|]. split.
          { unfold dropping. cbn [app filter]. destruct (Z.ltb_spec 0 (oc_dropped (snd (fst x)))); [lia|]. exact K2. }
          split; [constructor; assumption|]. split; [exact K4 | exact K5].
  Qed.

  Lemma start_ok : forall name ds s b k c d c', driver_start (X := X) (Y := Y) name ds s b k c = Ok d c' ->
    later c c' /\ metrics_ok d /\ (dr_metrics d = None <-> b = false)
    /\ dr_name d = name /\ dr_descr d = ds /\ dr_processors d = [] /\ dr_snapshooters d = [] /\ dr_strategy d = s /\ dr_paused d = false
    /\ (monotone c -> forall i, dr_metrics d = Some i ->
         st_stay_on_until (di_dropped_observations_alarm i) = None
         /\ c O <= ni_happened_last (di_inactivity_alarm i) <= c' O).
  Proof.
    intros name ds s b k c d c' E. unfold driver_start in E.
    apply bind_ok in E. destruct E as (m & c1 & E1 & E). apply bind_ok in E. destruct E as (t & c2 & E2 & E).
    apply bind_ok in E. destruct E as (last & c3 & E3 & E). injection E as <- <-.
    assert (L : later c1 c3) by exact (later_trans _ _ _ (ticks_now _ _ _ _ E2) (ticks_sub _ _ _ _ _ _ E3)).
    cbn [dr_metrics dr_name dr_descr dr_processors dr_snapshooters dr_strategy dr_paused].
    destruct b.
    - apply bind_ok in E1. destruct E1 as (i & c4 & E1 & E4). injection E4 as <- <-.
      destruct (default_ok HX _ _ _ _ E1) as (O1 & N & ca & cb & La & Ea & Lb & Lc).
      assert (Lac : later ca c4) by exact (later_trans _ _ _ (later_trans _ _ _ (later_tail _) Lb) Lc).
      assert (Lall : later c c3) by exact (later_trans _ _ _ (later_trans _ _ _ La Lac) L).
      split; [exact Lall|]. split; [intros j J; injection J as <-; exact O1|]. split; [split; discriminate|].
      do 6 (split; [reflexivity|]). intros Mo j J. injection J as <-. split; [exact N|]. rewrite Ea.
      split; [exact (later_first _ _ Mo La)|]. apply later_first; [exact (later_monotone _ _ Mo La)|]. exact (later_trans _ _ _ Lac L).
    - injection E1 as <- <-. split; [exact L|]. split; [intros j J; discriminate J|]. split; [split; reflexivity|].
      do 6 (split; [reflexivity|]). intros _ j J. discriminate J.
  Qed.

  Lemma greatest_compare : forall t l x, greatest t l -> (x <= t <-> Exists (fun y => x <= y) l) /\ (t <= x <-> Forall (fun y => y <= x) l).
  Proof.
    intros t l x (Hi & Hf). split; split.
    - intros H. apply Exists_exists. exists t. auto.
    - intros H. apply Exists_exists in H. destruct H as (y & Hy & H). rewrite Forall_forall in Hf. specialize (Hf _ Hy). lia.
    - intros H. eapply Forall_impl; [|exact Hf]. cbv beta. lia.
    - intros H. rewrite Forall_forall in H. auto.
  Qed.

  (** Everything about both alarms in a snapshot. *)
  Lemma alarms_shown : forall k name ds s c d c1 v sched n log d1 w1 c2 de into d2 snap c3,
    monotone c -> driver_start name ds s true k c = Ok d c1 ->
    later c1 (w_clock v) -> history k n d (new_world v sched) log d1 w1 ->
    later (w_clock (dw_world w1)) c2 -> put_values_into_snapshot d1 de into k c2 = Ok (d2, snap) c3 ->
    exists inner, shows_metrix d1 into snap inner /\ keys inner = metrix_names
      /\ (exists taps at_ b, Forall2 within taps (dropping log) /\ c2 O <= at_ <= c3 O
            /\ lookup "dropped_observations_alarm" inner = Some (Boolean b)
            /\ (b = true <-> Exists (fun t => at_ <= t + 60 * nanos_per_sec) taps))
      /\ (exists started runs at_ b, c O <= started <= c1 O /\ Forall2 within runs log /\ c2 O <= at_ <= c3 O
            /\ lookup "inactivity_alarm" inner = Some (Boolean b)
            /\ (b = true <-> Forall (fun t => t + 60 * nanos_per_sec <= at_) (started :: runs))).
  Proof.
    intros k name ds s c d c1 v sched n log d1 w1 c2 de into d2 snap c3 Mo E L1 Hi L2 E2.
    destruct (start_ok _ _ _ _ _ _ _ _ E) as (L0 & Hd & Nm & _ & _ & _ & _ & _ & _ & St).
    assert (Mv : monotone (w_clock v)) by exact (later_monotone _ _ Mo (later_trans _ _ _ L0 L1)).
    destruct (history_alarms _ _ _ _ _ _ _ Hi Hd Mv) as (L3 & Hd1 & HA). cbn [new_world dw_world] in L3, HA.
    destruct (dr_metrics d) as [i|] eqn:Md; [|discriminate (proj1 Nm eq_refl)].
    destruct (St Mo _ eq_refl) as (N & Ns).
    assert (Mc1 : monotone c1) by exact (later_monotone _ _ Mo L0).
    destruct (HA i [] [ni_happened_last (di_inactivity_alarm i)] eq_refl) as (i' & taps & runs & M' & T & R & Lit & Gr).
    { rewrite N. reflexivity. }
    { split; [left; reflexivity | constructor; [lia | constructor]]. }
    { constructor. }
    { constructor; [|constructor]. pose proof (later_first _ _ Mc1 L1). lia. }
    assert (Mc2 : monotone c2) by exact (later_monotone _ _ Mv (later_trans _ _ _ L3 L2)).
    destruct (snapshot_alarms HX HY _ _ _ _ _ _ _ _ Hd1 E2) as (_ & _ & _ & SA).
    destruct (SA _ M') as (i2 & _ & _ & inner & ca & cb & Sh & K & La & La' & Pa & Lb & Lb' & Pb).
    exists inner. split; [exact Sh|]. split; [exact K|]. split.
    - exists taps, (ca O). eexists. split; [exact T|]. split.
      { split; [exact (later_first _ _ Mc2 La)|]. apply later_first; [exact (later_monotone _ _ Mc2 La) | exact La']. }
      split; [exact Pa|]. cbn [app] in Lit. destruct (st_stay_on_until (di_dropped_observations_alarm i')) as [u|].
      + destruct Lit as (t & -> & G). rewrite Z.leb_le.
        assert (Hx := proj1 (greatest_compare t taps (ca O - 60 * nanos_per_sec) G)).
        split.
        * intros Hl. assert (Hl' : ca O - 60 * nanos_per_sec <= t) by lia. apply Hx in Hl'. eapply Exists_impl; [|exact Hl'].
          cbv beta. intros y. lia.
        * intros Hl. assert (ca O - 60 * nanos_per_sec <= t); [|lia]. apply Hx. eapply Exists_impl; [|exact Hl].
          cbv beta. intros y. lia.
      + rewrite Lit. split; [discriminate|]. intros Hl. inversion Hl.
    - exists (ni_happened_last (di_inactivity_alarm i)), runs, (cb O). eexists. split; [exact Ns|]. split; [exact R|]. split.
      { split; [exact (later_first _ _ Mc2 Lb)|]. apply later_first; [exact (later_monotone _ _ Mc2 Lb) | exact Lb']. }
      split; [exact Pb|]. rewrite Z.leb_le. cbn [app] in Gr.
      assert (Hx := proj2 (greatest_compare _ _ (cb O - 60 * nanos_per_sec) Gr)). rewrite Hx.
      split; intros Hl; (eapply Forall_impl; [|exact Hl]); cbv beta; intros y; lia.
  Qed.

  (** Without the unknown readings. *)
  Lemma dropped_alarm_on : forall k name ds s c d c1 v sched n log d1 w1 c2 de into d2 snap c3 a o e,
    monotone c -> driver_start name ds s true k c = Ok d c1 ->
    later c1 (w_clock v) -> history k n d (new_world v sched) log d1 w1 ->
    later (w_clock (dw_world w1)) c2 -> put_values_into_snapshot d1 de into k c2 = Ok (d2, snap) c3 ->
    In (a, o, e) log -> 0 < oc_dropped o -> c3 O <= a + 60 * nanos_per_sec ->
    exists inner, shows_metrix d1 into snap inner /\ lookup "dropped_observations_alarm" inner = Some (Boolean true).
  Proof.
    intros k name ds s c d c1 v sched n log d1 w1 c2 de into d2 snap c3 a o e Mo E L1 Hi L2 E2 Ie D A.
    destruct (alarms_shown _ _ _ _ _ _ _ _ _ _ _ _ _ _ _ _ _ _ _ Mo E L1 Hi L2 E2) as (inner & Sh & _ & (taps & at_ & b & T & B & P & I) & _).
    exists inner. split; [exact Sh|]. rewrite P. do 2 f_equal. apply I.
    assert (Ie' : In (a, o, e) (dropping log)).
    { unfold dropping. apply filter_In. split; [exact Ie|]. apply Z.ltb_lt. exact D. }
    clear - T B A Ie'. induction T as [|t x taps l Wt T IH]; [destruct Ie'|]. destruct Ie' as [->|Ie'].
    - apply Exists_cons_hd. unfold within in Wt. cbn [fst snd] in Wt. lia.
    - apply Exists_cons_tl. apply IH. exact Ie'.
  Qed.

  Lemma dropped_alarm_off : forall k name ds s c d c1 v sched n log d1 w1 c2 de into d2 snap c3,
    monotone c -> driver_start name ds s true k c = Ok d c1 ->
    later c1 (w_clock v) -> history k n d (new_world v sched) log d1 w1 ->
    later (w_clock (dw_world w1)) c2 -> put_values_into_snapshot d1 de into k c2 = Ok (d2, snap) c3 ->
    (forall a o e, In (a, o, e) log -> 0 < oc_dropped o -> e + 60 * nanos_per_sec < c2 O) ->
    exists inner, shows_metrix d1 into snap inner /\ lookup "dropped_observations_alarm" inner = Some (Boolean false).
  Proof.
    intros k name ds s c d c1 v sched n log d1 w1 c2 de into d2 snap c3 Mo E L1 Hi L2 E2 A.
    destruct (alarms_shown _ _ _ _ _ _ _ _ _ _ _ _ _ _ _ _ _ _ _ Mo E L1 Hi L2 E2) as (inner & Sh & _ & (taps & at_ & b & T & B & P & I) & _).
    exists inner. split; [exact Sh|]. rewrite P. do 2 f_equal. destruct b; [|reflexivity]. exfalso.
    assert (X0 := proj1 I eq_refl). clear I P. apply Exists_exists in X0. destruct X0 as (t & It & Ht).
    assert (W : exists x, In x (dropping log) /\ within t x).
    { clear - T It. induction T as [|t0 x taps l Wt T IH]; [destruct It|]. destruct It as [->|It].
      - exists x. split; [left; reflexivity | exact Wt].
      - destruct (IH It) as (y & Iy & Wy). exists y. split; [right; exact Iy | exact Wy]. }
    destruct W as ([[a o] e] & Ix & Wx). unfold dropping in Ix. apply filter_In in Ix. destruct Ix as (Ix & Dx).
    cbn [fst snd] in Dx. apply Z.ltb_lt in Dx. specialize (A _ _ _ Ix Dx). unfold within in Wx. cbn [fst snd] in Wx. lia.
  Qed.

  Lemma inactivity_off : forall k name ds s c d c1 v sched n log d1 w1 c2 de into d2 snap c3 a o e,
    monotone c -> driver_start name ds s true k c = Ok d c1 ->
    later c1 (w_clock v) -> history k n d (new_world v sched) log d1 w1 ->
    later (w_clock (dw_world w1)) c2 -> put_values_into_snapshot d1 de into k c2 = Ok (d2, snap) c3 ->
    In (a, o, e) log -> c3 O < a + 60 * nanos_per_sec ->
    exists inner, shows_metrix d1 into snap inner /\ lookup "inactivity_alarm" inner = Some (Boolean false).
  Proof.
    intros k name ds s c d c1 v sched n log d1 w1 c2 de into d2 snap c3 a o e Mo E L1 Hi L2 E2 Ie A.
    destruct (alarms_shown _ _ _ _ _ _ _ _ _ _ _ _ _ _ _ _ _ _ _ Mo E L1 Hi L2 E2) as (inner & Sh & _ & _ & (st & taps & at_ & b & _ & T & B & P & I)).
    exists inner. split; [exact Sh|]. rewrite P. do 2 f_equal. destruct b; [|reflexivity]. exfalso.
    assert (X0 := proj1 I eq_refl). clear I P. inversion X0 as [|y l _ F]. subst. clear X0.
    clear - T B A Ie F. induction T as [|t x taps l Wt T IH]; [destruct Ie|]. inversion F as [|y l' H1 H2]. subst. destruct Ie as [->|Ie].
    - unfold within in Wt. cbn [fst snd] in Wt. lia.
    - apply IH; assumption.
  Qed.

  Lemma inactivity_on : forall k name ds s c d c1 v sched n log d1 w1 c2 de into d2 snap c3,
    monotone c -> driver_start name ds s true k c = Ok d c1 ->
    later c1 (w_clock v) -> history k n d (new_world v sched) log d1 w1 ->
    later (w_clock (dw_world w1)) c2 -> put_values_into_snapshot d1 de into k c2 = Ok (d2, snap) c3 ->
    c1 O + 60 * nanos_per_sec <= c2 O ->
    (forall a o e, In (a, o, e) log -> e + 60 * nanos_per_sec <= c2 O) ->
    exists inner, shows_metrix d1 into snap inner /\ lookup "inactivity_alarm" inner = Some (Boolean true).
  Proof.
    intros k name ds s c d c1 v sched n log d1 w1 c2 de into d2 snap c3 Mo E L1 Hi L2 E2 A0 A.
    destruct (alarms_shown _ _ _ _ _ _ _ _ _ _ _ _ _ _ _ _ _ _ _ Mo E L1 Hi L2 E2) as (inner & Sh & _ & _ & (st & taps & at_ & b & B0 & T & B & P & I)).
    exists inner. split; [exact Sh|]. rewrite P. do 2 f_equal. apply I. constructor; [lia|].
    clear - T B A. induction T as [|t x taps l Wt T IH]; constructor.
    - destruct x as [[a o] e]. unfold within in Wt. cbn [fst snd] in Wt. specialize (A a o e (or_introl eq_refl)). lia.
    - apply IH. intros a o e Ie. apply (A a o e). right. exact Ie.
  Qed.
End Alarms.
