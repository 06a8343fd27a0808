(** What the driver's own metrics show about the share of the collections. *)
From Coq Require Import ZArith QArith Bool String List Lia.
From Verif Require Import Base SpecRun MonadFacts SpecClock ClockProofs ModelObservation ModelLabelFilter ModelSnapshot ModelGauge ModelMeter
  ModelHistogram ModelSwitches ModelInstrument ModelTree ModelChannel ModelProcessor ModelDriver SpecWriting AppendProofs SpecTree
  SpecQueue SpecCollect WorldClockProofs GroupProofs SpecDriver DriverProofs DriverLoopProofs DriverMetricsProofs DriverShapeProofs DriverAlarmProofs
  SpecCounting SpecGauge SpecMeter SpecHistogram SpecObservation SpecSite SiteProofs SpecLife SpecLives LifeProofs LivesHistogram LivesDriver MeterHistoryProofs
  SpecMetrix SpecRatio MetrixProofs MetrixFigures RatioProofs.
Import ListNotations.
Open Scope string_scope.
Open Scope list_scope.
Open Scope Z_scope.

Section Ratios.
  Context {X : ext} {Y : pext}.
  Context (HX : parts_tick X) (HY : processors_tick Y).
  Context (contents : histo (ex_histo X) -> list Z) (Hc : counting (ex_histo X) contents).

  Lemma shares_fit : forall b a rs log, timeline b a rs log -> b < a + 2 ^ 53 * nanos_per_sec ->
    Forall (fun p => 0 <= fst p <= snd p /\ 0 < snd p < 2 ^ 53 * nanos_per_sec) (shares rs).
  Proof.
    intros b a rs log T. induction T as [a La|a r over rs log L1 L2 L3 L4 L5 Ra T IH]; intros H; [constructor|].
    assert (Lo : over <= b).
    { clear - T. induction T; lia. }
    unfold shares. cbn [flat_map]. fold (shares rs). apply Forall_app. split.
    - unfold timed_ratio in Ra. destruct (ru_ratio r) as [[y z]|]; [|constructor]. constructor; [|constructor]. cbn [fst snd]. lia.
    - apply IH. lia.
  Qed.

  Lemma share_figure : forall p, 0 <= fst p <= snd p -> 0 < snd p < 2 ^ 53 * nanos_per_sec -> 0 <= per_mille (fst p) (snd p) <= i64_max.
  Proof.
    intros [t w] H1 H2. cbn [fst snd] in *. pose proof (per_mille_range t w H1 ltac:(lia)) as R. unfold in_duration in R. specialize (R ltac:(lia)). lia.
  Qed.

  Lemma ratios_ok : forall rs, Forall (fun p => 0 <= per_mille (fst p) (snd p) <= i64_max) (shares rs) ->
    Forall update_ok (map update_of (ratios rs))
    /\ Forall2 (update_effect Microseconds) (map update_of (ratios rs)) (map Sets (map (fun p => per_mille (fst p) (snd p)) (shares rs))).
  Proof.
    induction rs as [|r rs IH]; intros H; [split; constructor|]. unfold shares, ratios in *. cbn [flat_map] in *.
    apply Forall_app in H. destruct H as (H1 & H2). destruct (IH H2) as (A & B). destruct (ru_ratio r) as [[y z]|]; cbn [app map] in *; [|split; assumption].
    inversion H1 as [|? ? Hp]; subst. cbn [fst snd] in *. split; constructor; try assumption.
    - cbn. unfold in_u64. lia.
    - cbn [update_of]. apply exactly. exact Hp.
  Qed.

  Lemma ratios_shown : forall k c0 i c1 c i1 c' rs ss log b a b' a' de inner c3,
    monotone c0 -> driver_instruments_default (X := X) k c0 = Ok i c1 -> later c1 c ->
    live X k c c' (metrics_of X i) (told rs ss) (metrics_of X i1) -> metrix_ok i1 ->
    timeline b a rs log -> shots b' a' ss ->
    display X k de c' (metrics_of X i1) [] inner c3 ->
    b < a + 2 ^ 53 * nanos_per_sec ->
    ratio_figures X contents rs inner.
  Proof.
    intros k c0 i c1 c i1 c' rs ss log b a b' a' de inner c3 Mo E0 L1 V Hi T Sh D Yr.
    destruct (default_parts HX _ _ _ _ E0) as (L0 & Pm & Ph & Pg).
    assert (Mc1 := later_monotone _ _ Mo L0). assert (Mc := later_monotone _ _ Mc1 L1).
    unfold metrics_of, told in V, D. destruct Hi as [M1 M2 M3 M4 M5 M6 M7 M8 M9 M10 M11 M12 M13 M14].
    repeat match goal with
           | H : live X k _ _ (_ :: _) _ _ |- _ => inversion H; clear H; subst
           end.
    match goal with H : live X k _ _ [] _ _ |- _ => clear H end.
    apply (display_leaf HX) in D. destruct D as (q1 & y1 & f1 & p1 & r1 & Q1 & F1 & I1 & Z1 & D).
    apply (display_leaf HX) in D. destruct D as (q2 & y2 & f2 & p2 & r2 & Q2 & F2 & I2 & Z2 & D).
    apply (display_leaf HX) in D. destruct D as (q3 & y3 & f3 & p3 & r3 & Q3 & F3 & I3 & Z3 & D).
    apply (display_leaf HX) in D. destruct D as (q4 & y4 & f4 & p4 & r4 & Q4 & F4 & I4 & Z4 & D).
    apply (display_leaf HX) in D. destruct D as (q5 & y5 & f5 & p5 & r5 & Q5 & F5 & I5 & Z5 & D).
    apply (display_leaf HX) in D. destruct D as (q6 & y6 & f6 & p6 & r6 & Q6 & F6 & I6 & Z6 & D).
    apply (display_leaf HX) in D. destruct D as (q7 & y7 & f7 & p7 & r7 & Q7 & F7 & I7 & Z7 & D).
    apply (display_leaf HX) in D. destruct D as (q8 & y8 & f8 & p8 & r8 & Q8 & F8 & I8 & Z8 & D).
    apply (display_leaf HX) in D. destruct D as (q9 & y9 & f9 & p9 & r9 & Q9 & F9 & I9 & Z9 & D).
    apply (display_leaf HX) in D. destruct D as (q10 & y10 & f10 & p10 & r10 & Q10 & F10 & I10 & Z10 & D).
    pose proof (display_later HX _ _ _ _ _ _ _ D) as Zd.
    apply (display_leaf HX) in D. destruct D as (q11 & y11 & f11 & p11 & r11 & Q11 & F11 & I11 & Z11 & D).
    apply (display_leaf HX) in D. destruct D as (q12 & y12 & f12 & p12 & r12 & Q12 & F12 & I12 & Z12 & D).
    apply (display_leaf HX) in D. destruct D as (q13 & y13 & f13 & p13 & r13 & Q13 & F13 & I13 & Z13 & D).
    apply (display_leaf HX) in D. destruct D as (q14 & y14 & f14 & p14 & r14 & Q14 & F14 & I14 & Z14 & D).
    inversion D; subst.
    destruct (meter_field _ _ _ _ _ _ _ _ _ M1 F1) as (v1 & ->). destruct (histogram_field _ _ _ _ _ _ _ _ _ M2 F2) as (v2 & ->).
    destruct (meter_field _ _ _ _ _ _ _ _ _ M3 F3) as (v3 & ->). destruct (histogram_field _ _ _ _ _ _ _ _ _ M4 F4) as (v4 & ->).
    destruct (meter_field _ _ _ _ _ _ _ _ _ M5 F5) as (v5 & ->). destruct (histogram_field _ _ _ _ _ _ _ _ _ M6 F6) as (v6 & ->).
    destruct (gauge_field _ _ _ _ _ _ _ _ _ M7 F7) as (v7 & ->). destruct (meter_field _ _ _ _ _ _ _ _ _ M8 F8) as (v8 & ->).
    destruct (meter_field _ _ _ _ _ _ _ _ _ M9 F9) as (v9 & ->). destruct (histogram_field _ _ _ _ _ _ _ _ _ M10 F10) as (v10 & ->).
    destruct (staircase_field _ _ _ _ _ _ _ _ _ M11 F11) as (v11 & ->). destruct (absence_field _ _ _ _ _ _ _ _ _ M12 F12) as (v12 & ->).
    destruct (gauge_field _ _ _ _ _ _ _ _ _ M14 F13) as (v13 & ->). destruct (histogram_field _ _ _ _ _ _ _ _ _ M13 F14) as (v14 & ->).
    repeat match goal with H : leaf_life _ _ _ _ _ _ |- _ => revert H end.
    intros K1 K2 K3 K4 K5 K6 K7 K8 K9 K10 K11 K12 K13 K14. clear K1 K2 K3 K4 K5 K6 K7 K8 K9 K10 K11 K12.
    assert (Fit := shares_fit _ _ _ _ T Yr).
    assert (In64 : Forall (fun p => 0 <= per_mille (fst p) (snd p) <= i64_max) (shares rs)).
    { eapply Forall_impl; [|exact Fit]. cbv beta. intros p (P1 & P2). exact (share_figure p P1 P2). }
    destruct (ratios_ok _ In64) as (Rok & Re).
    exists (map (fun p => per_mille (fst p) (snd p)) (shares rs)). split; [|split].
    - clear - Fit. induction Fit as [|[t w] l (P1 & P2) F IH]; cbn [map]; constructor; [|exact IH]. cbn [fst snd] in *.
      assert (Dw : in_duration w) by (unfold in_duration; lia). unfold thousandths. cbn [fst snd]. split; [apply per_mille_range; lia || exact Dw|].
      split; [apply per_mille_close; lia || exact Dw|]. intros Lw. apply per_mille_exact; lia.
    - exists v13. split; [reflexivity|].
      destruct (Pg "iteration_update_ratio_per_mille" (di_per_mille_ratio i) ltac:(cbn [In]; tauto)) as (ca & cb & Eg).
      refine (last_figure _ _ _ _ _ _ _ _ _ _ _ _ _ _ _ _ Eg K13 Rok Re _ F13).
      clear - In64. induction In64; cbn [map]; constructor; [unfold in_i64; lia|assumption].
    - exists v14. split; [reflexivity|].
      destruct (Ph "iteration_update_ratio_per_mille_histo" (di_per_mille_ratio_histo i) ltac:(cbn [In]; tauto)) as (ca & cb & Eh).
      exact (statistics_figure contents Hc _ _ _ _ _ _ _ _ _ _ _ _ _ _ _ _ Mc Eh K14 Rok Re F14).
  Qed.

  Lemma start_ratios : forall k name ds s c d c1 v sched n log (d1 : driver X Y) w1 cmd b de d2 w2,
    monotone c -> driver_start name ds s true k c = Ok d c1 -> later c1 (w_clock v) ->
    history k n d (new_world v sched) log d1 w1 -> w_clock (dw_world w1) O < w_clock v O + 2 ^ 53 * nanos_per_sec ->
    cmd = call_snapshot b de \/ cmd = call_snapshot_async b de -> driver_command d1 cmd k w1 = Ok d2 w2 ->
    exists snap inner rs,
      dw_answers w2 = dw_answers w1 ++ [(b, snap)] /\ shows_metrix d1 [] snap inner
      /\ timeline (w_clock (dw_world w1) O) (w_clock v O) rs log /\ ratio_figures X contents rs inner.
  Proof.
    intros k name ds s c d c1 v sched n log d1 w1 cmd b de d2 w2 Mo E L1 H Yr Hcmd Ec.
    destruct (start_ok HX _ _ _ _ _ _ _ _ E) as (L0 & Hd & Nm & _).
    assert (Mv : monotone (w_clock v)) by exact (later_monotone _ _ Mo (later_trans _ _ _ L0 L1)).
    destruct (history_alarms HX HY _ _ _ _ _ _ _ H Hd Mv) as (L3 & Hd1 & _).
    destruct (dr_metrics d) as [i|] eqn:Mi; [|discriminate (proj1 Nm eq_refl)].
    assert (De : exists ci, driver_instruments_default (X := X) k c = Ok i ci /\ later ci c1).
    { unfold driver_start in E. apply bind_ok in E. destruct E as (m & ci & E1 & E). apply bind_ok in E1. destruct E1 as (i0 & ci' & E1 & E2).
      injection E2 as <- <-. exists ci'. apply bind_ok in E. destruct E as (t & c2 & E2 & E).
      apply bind_ok in E. destruct E as (last & c3 & E3 & E). injection E as <- <-.
      cbn [dr_metrics] in Mi. injection Mi as <-. split; [exact E1|].
      exact (later_trans _ _ _ (ticks_now _ _ _ _ E2) (ticks_sub _ _ _ _ _ _ E3)). }
    destruct De as (ci & Ei & Li).
    destruct (life_shown HX HY _ _ _ _ _ _ _ _ _ _ _ _ H Mv Hcmd Ec i Mi)
      as (i1 & rs & ss & ans & x & y & cx & cy & snap & inner & V & T & S & Xa & Xy & Ya & A & N & A2 & Sh & Lx & D & Ly & Ok1).
    cbn [new_world dw_world dw_answers] in *.
    assert (S2 : shots (w_clock (dw_world w2) O) (w_clock v O) (ss ++ [(x, y)])).
    { refine (shots_app _ _ _ S _ _ _). constructor; [lia|lia|]. constructor. lia. }
    exists snap, inner, rs. split; [exact A2|]. split; [exact Sh|]. split; [exact T|].
    exact (ratios_shown _ _ _ _ _ _ _ _ _ _ _ _ _ _ _ _ _ Mo Ei (later_trans _ _ _ Li L1) V (Ok1 Hd1) T S2 D Yr).
  Qed.
End Ratios.
