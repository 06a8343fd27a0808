(** The warnings of a driver about dropped messages. *)
From Coq Require Import ZArith Bool String List Lia.
From Verif Require Import Base SpecRun MonadFacts SpecClock ClockProofs ModelObservation ModelSnapshot ModelGauge ModelMeter
  ModelHistogram ModelSwitches ModelInstrument ModelTree ModelChannel ModelProcessor ModelDriver
  WorldClockProofs SpecDriver DriverProofs DriverMetricsProofs DriverShapeProofs RoomDriverProofs SpecLedger.
Import ListNotations.
Open Scope Z_scope.

(** ** Ledgers *)

Lemma ledger_adds_up : forall last open log ws last' open', ledger last open log ws last' open' ->
  sum (map snd ws) + open' = open + dropped_total log /\ apart last ws /\ Forall (fun w => 0 < snd w) ws.
Proof.
  unfold dropped_total. intros last open log ws last' open' H.
  induction H as [last open|last open e log t ws last' open' Hp Ht Hw H (I1 & I2 & I3)|last open e log ws last' open' Hn H (I1 & I2 & I3)];
    cbn [map sum snd apart].
  - split; [lia|]. split; [exact I | constructor].
  - split; [lia|]. split; [split; assumption|]. constructor; assumption.
  - split; [lia|]. split; assumption.
Qed.

(** ** Counts are never negative *)

Lemma add_usize_inv : forall W a b k (w : W) r w', add_usize a b k w = Ok r w' -> w' = w /\ 0 <= r /\ (0 <= a + b <= u64_max -> r = a + b).
Proof.
  intros W a b k w r w' E. unfold add_usize, u64_arith, arith in E.
  destruct ((0 <=? a + b) && (a + b <=? u64_max)) eqn:B.
  - injection E as <- <-. apply andb_prop in B. destruct B as [B1 B2]. apply Z.leb_le in B1. auto.
  - destruct (overflow_checks k); [discriminate|]. injection E as <- <-. split; [reflexivity|]. split.
    + apply Z.mod_pos_bound. reflexivity.
    + intros [H1 H2]. apply Z.leb_le in H1, H2. rewrite H1, H2 in B. discriminate B.
Qed.

Section Driver.
  Context {X : ext} {Y : pext}.
  Implicit Types (d : driver X Y) (w : dworld X Y).

  Lemma run_dropped : forall (ps : list (processor X Y)) max s k v ps' o v', do_a_run ps max s k v = Ok (ps', o) v' -> 0 <= oc_dropped o.
  Proof.
    intros ps max s k v ps' o v' E. unfold do_a_run in E. revert E. assert (H : 0 <= oc_dropped outcome_default) by (vm_compute; discriminate).
    revert H. generalize outcome_default as acc. generalize (fun p => processor_process (X := X) (Y := Y) (fuel k) p max s) as f.
    intros f. revert v ps'. induction ps as [|p ps IH]; intros v ps' acc H E; cbn [traverse] in E.
    - injection E as <- <- <-. exact H.
    - apply bind_ok in E. destruct E as ([p1 a1] & v1 & E1 & E). apply bind_ok in E. destruct E as ([ps1 a2] & v2 & E2 & E).
      injection E as <- <- <-. eapply IH; [|exact E2]. unfold collect_one in E1.
      apply bind_ok in E1. destruct E1 as ([p2 o2] & v3 & _ & E1). apply bind_ok in E1. destruct E1 as (a & v4 & E1 & E3). injection E3 as <- <- <-.
      unfold combine_with in E1. apply bind_ok in E1. destruct E1 as (x1 & v5 & _ & E1). apply bind_ok in E1. destruct E1 as (x2 & v6 & E4 & E1).
      apply bind_ok in E1. destruct E1 as (x3 & v7 & _ & E1). apply bind_ok in E1. destruct E1 as (x4 & v8 & _ & E1). injection E1 as <- <-.
      apply add_usize_inv in E4. exact (proj1 (proj2 E4)).
  Qed.

  (** ** Clocks *)

  Notation clk w := (w_clock (dw_world w)).
  Context (HX : parts_tick X) (HY : processors_tick Y).

  Lemma timed_later : forall B (m : M B) k w a w', ticks m -> timed m k w = Ok a w' -> later (clk w) (clk w').
  Proof. intros B m k w a w' H E. apply timed_inv in E. destruct E as (c & E & ->). exact (H _ _ _ _ E). Qed.

  Lemma command_kept : forall d c k w d' w', driver_command d c k w = Ok d' w' ->
    dr_last_outcome_logged d' = dr_last_outcome_logged d /\ dr_dropped_since_last_logged d' = dr_dropped_since_last_logged d
    /\ later (clk w) (clk w').
  Proof.
    intros d c k w d' w' E.
    assert (Put : forall into b de, (let* '(d, s) := timed (put_values_into_snapshot d de into) in let* _ := answer b s in ret d) k w = Ok d' w' ->
      dr_last_outcome_logged d' = dr_last_outcome_logged d /\ dr_dropped_since_last_logged d' = dr_dropped_since_last_logged d
      /\ later (clk w) (clk w')).
    { intros into b de F. apply bind_ok in F. destruct F as ([d1 s] & w1 & F1 & F).
      pose proof (timed_later _ _ _ _ _ _ (driver_snapshot_ticks HX HY _ _ _) F1) as L. apply timed_inv in F1. destruct F1 as (c1 & F1 & ->).
      apply bind_ok in F. destruct F as (u & w2 & F2 & F). injection F as <- <-. injection F2 as _ <-. cbn [dw_world w_clock] in L |- *.
      assert (V : forall st i0 c0 d2 s2 c2, add_snapshot_values d de st i0 k c0 = Ok (d2, s2) c2 ->
        dr_last_outcome_logged d2 = dr_last_outcome_logged d /\ dr_dropped_since_last_logged d2 = dr_dropped_since_last_logged d).
      { intros st i0 c0 d2 s2 c2 G. unfold add_snapshot_values in G. cbv zeta in G. apply bind_ok in G. destruct G as ([ps i1] & c3 & _ & G).
        apply bind_ok in G. destruct G as ([ss i2] & c4 & _ & G). destruct (dr_metrics d).
        - apply bind_ok in G. destruct G as (i3 & c5 & _ & G). apply bind_ok in G. destruct G as ([i4 i5] & c6 & _ & G). injection G as <- _ _. split; reflexivity.
        - injection G as <- _ _. split; reflexivity. }
      unfold put_values_into_snapshot in F1. apply bind_ok in F1. destruct F1 as (st & c2 & _ & F1). destruct (dr_name d).
      - apply bind_ok in F1. destruct F1 as ([d2 l] & c3 & F2 & F1). injection F1 as <- _ _. apply V in F2. tauto.
      - apply V in F1. tauto. }
    destruct c; cbn [driver_command] in E; eauto; injection E as <- <-; (split; [reflexivity|]); (split; [reflexivity|]); apply later_refl.
  Qed.

  Lemma collected_ledger : forall k d t0 w e d1 w1, monotone (clk w) -> collected k d t0 w e d1 w1 ->
    0 <= dr_dropped_since_last_logged d -> dr_dropped_since_last_logged d + dropped_total e <= u64_max ->
    later (clk w) (clk w1) /\ 0 <= dr_dropped_since_last_logged d1
    /\ Forall (fun x => 0 <= dropped_in x) e
    /\ exists ws, ledger (dr_last_outcome_logged d) (dr_dropped_since_last_logged d) e ws (dr_last_outcome_logged d1) (dr_dropped_since_last_logged d1).
  Proof.
    intros k d t0 w e d1 w1 Mo C Hd Hsum. destruct C as [d t0 w P|d t0 w d1 w1 t v1 ps o v2 P R E1 E2].
    { split; [apply later_refl|]. split; [exact Hd|]. split; [constructor|]. exists []. constructor. }
    pose proof (run_dropped _ _ _ _ _ _ _ _ E2) as Ho. unfold dropped_total in Hsum. cbn [map sum] in Hsum. unfold dropped_in in Hsum. cbn [fst snd] in Hsum.
    unfold driver_run in R.
    apply bind_ok in R. destruct R as (t' & wa & R1 & R). apply in_world_inv in R1. destruct R1 as (v1' & R1 & ->).
    rewrite E1 in R1. injection R1 as <- <-.
    apply bind_ok in R. destruct R as ([ps' o'] & wb & R2 & R). apply in_world_inv in R2. destruct R2 as (v2' & R2 & ->).
    cbn [dw_world] in R2. rewrite E2 in R2. injection R2 as <- <- <-.
    assert (L1 := lift_wticks _ _ ticks_now _ _ _ _ E1). assert (L2 := do_a_run_wticks HX HY _ _ _ _ _ _ _ E2).
    assert (L12 := later_trans _ _ _ L1 L2).
    set (w2 := DWorld v2 _ _ _ _ _ _) in R.
    apply bind_ok in R. destruct R as (rt & wc & R3 & R). pose proof (timed_later _ _ _ _ _ _ (elapsed_ticks _) R3) as L3. change (clk w2) with (w_clock v2) in L3. clear R3.
    apply bind_ok in R. destruct R as (dropped & wc' & R4 & R). apply add_usize_inv in R4. destruct R4 as (-> & Hp & R4).
    change (dr_dropped_since_last_logged (driver_with d ps (dr_snapshooters d) (dr_metrics d))) with (dr_dropped_since_last_logged d) in R4.
    specialize (R4 ltac:(lia)). subst dropped.
    set (n := dr_dropped_since_last_logged d + oc_dropped o) in *.
    apply bind_ok in R. destruct R as (d2 & wd & R5 & R).
    assert (M2 : monotone (w_clock v2)) by exact (later_monotone _ _ Mo L12).
    assert (M3 : monotone (clk wc)) by exact (later_monotone _ _ M2 L3).
    assert (S5 : later (clk wc) (clk wd)
      /\ ((0 < n /\ dr_dropped_since_last_logged d2 = 0 /\ dr_last_outcome_logged d + 5 * nanos_per_sec < dr_last_outcome_logged d2
           /\ clk wc O <= dr_last_outcome_logged d2 <= clk wd O)
          \/ ((n = 0 \/ clk wc O <= dr_last_outcome_logged d + 5 * nanos_per_sec) /\ dr_dropped_since_last_logged d2 = n
              /\ dr_last_outcome_logged d2 = dr_last_outcome_logged d))).
    { destruct (0 <? n) eqn:Pn.
      - apply Z.ltb_lt in Pn. apply bind_ok in R5. destruct R5 as (el & we & R6 & R5). apply timed_inv in R6. destruct R6 as (c6 & R6 & ->).
        rewrite elapsed_eq in R6. injection R6 as <- <-. change (dr_last_outcome_logged (driver_with d ps (dr_snapshooters d) (dr_metrics d))) with (dr_last_outcome_logged d) in R5.
        destruct (5 * nanos_per_sec <? _) eqn:Q.
        + apply Z.ltb_lt in Q. apply bind_ok in R5. destruct R5 as (tn & wf & R7 & R5). apply timed_inv in R7. destruct R7 as (c7 & R7 & ->).
          rewrite now_eq in R7. injection R7 as <- <-. injection R5 as <- <-. cbn [dw_world w_clock driver_set_log dr_dropped_since_last_logged dr_last_outcome_logged].
          split; [exact (later_trans _ _ _ (later_tail _) (later_tail _))|]. left.
          pose proof (M3 O). pose proof (M3 1%nat). unfold clock_tail. repeat split; lia.
        + apply Z.ltb_ge in Q. injection R5 as <- <-. cbn [dw_world w_clock driver_set_log dr_dropped_since_last_logged dr_last_outcome_logged driver_with].
          split; [apply later_tail|]. right. split; [right; lia|]. split; reflexivity.
      - apply Z.ltb_ge in Pn. injection R5 as <- <-. split; [apply later_refl|]. right. split; [left; lia|]. split; reflexivity. }
    destruct S5 as (L5 & S5). clear R5.
    apply bind_ok in R. destruct R as (m & we & R6 & R).
    assert (L6 : later (clk wd) (clk we)).
    { destruct (dr_metrics d2).
      - apply bind_ok in R6. destruct R6 as (i1 & wf & R6 & R8). injection R8 as _ <-. exact (timed_later _ _ _ _ _ _ (post_collection_ticks HX _ _ _) R6).
      - injection R6 as _ <-. apply later_refl. }
    assert (S7 : later (clk we) (clk w1) /\ dr_last_outcome_logged d1 = dr_last_outcome_logged d2
      /\ dr_dropped_since_last_logged d1 = dr_dropped_since_last_logged d2).
    { destruct (_ || _).
      - injection R as <- <-. split; [apply later_refl|]. split; reflexivity.
      - apply bind_ok in R. destruct R as (tf & wf & R7 & R). apply bind_ok in R. destruct R as (m1 & wg & R8 & R). injection R as <- <-.
        split; [|split; reflexivity]. exact (later_trans _ _ _ (timed_later _ _ _ _ _ _ ticks_now R7) (timed_later _ _ _ _ _ _ (elapsed_stats_ticks HX _ _ _) R8)). }
    destruct S7 as (L7 & Q1 & Q2). pose proof (later_trans _ _ _ L5 (later_trans _ _ _ L6 L7)) as L57.
    split; [exact (later_trans _ _ _ L12 (later_trans _ _ _ L3 L57))|].
    rewrite Q1, Q2. split; [destruct S5 as [S5|S5]; lia|]. split; [constructor; [exact Ho | constructor]|].
    pose proof (later_first _ _ M2 L3) as F3. pose proof (later_first _ _ (later_monotone _ _ M3 L5) (later_trans _ _ _ L6 L7)) as F7.
    destruct S5 as [(A1 & A2 & A3 & A4)|(A1 & A2 & A3)].
    - eexists. apply (lg_warning _ _ _ _ (dr_last_outcome_logged d2)); [exact A1 | exact A3 | cbn [fst snd]; lia | rewrite A2; constructor].
    - exists []. apply lg_silent; [unfold dropped_in; cbn [fst snd]; destruct A1 as [A1|A1]; [left; exact A1 | right; lia]|].
      rewrite A2, A3. constructor.
  Qed.

  Lemma ledger_app : forall last open l1 ws1 last1 open1 l2 ws2 last2 open2,
    ledger last open l1 ws1 last1 open1 -> ledger last1 open1 l2 ws2 last2 open2 -> ledger last open (l1 ++ l2) (ws1 ++ ws2) last2 open2.
  Proof.
    intros last open l1 ws1 last1 open1 l2 ws2 last2 open2 H1 H2. induction H1; cbn [app]; [exact H2|econstructor; eauto|apply lg_silent; auto].
  Qed.

  Lemma iteration_start : forall k w wa t0 wb r wc, load_running k w = Ok true wa -> timed now k wa = Ok t0 wb -> command_try_recv k wb = Ok r wc ->
    later (clk w) (clk wc).
  Proof.
    intros k w wa t0 wb r wc E1 E2 E3.
    assert (W1 : dw_world wa = dw_world w).
    { unfold load_running in E1. apply bind_ok in E1. destruct E1 as (u & w1 & E & E1). apply clients_world in E. injection E1 as _ <-. exact E. }
    assert (W3 : dw_world wc = dw_world wb).
    { unfold command_try_recv in E3. apply bind_ok in E3. destruct E3 as (u & w1 & E & E3). apply clients_world in E.
      destruct (chan_try_recv _) as [c x]. injection E3 as _ <-. exact E. }
    rewrite W3, <- W1. exact (timed_later _ _ _ _ _ _ ticks_now E2).
  Qed.

  Lemma dropped_total_app : forall a b, dropped_total (a ++ b) = dropped_total a + dropped_total b.
  Proof. intros a b. unfold dropped_total. induction a as [|x a IH]; [reflexivity|]. cbn [app map sum]. lia. Qed.
  Lemma dropped_total_nonneg : forall a, Forall (fun x => 0 <= dropped_in x) a -> 0 <= dropped_total a.
  Proof. intros a H. unfold dropped_total. induction H; cbn [map sum]; lia. Qed.

  Lemma collected_nonneg : forall k d t0 w e d1 w1, collected k d t0 w e d1 w1 -> Forall (fun x => 0 <= dropped_in x) e.
  Proof. intros k d t0 w e d1 w1 C. destruct C; constructor; [|constructor]. eapply run_dropped. eassumption. Qed.

  Lemma history_nonneg : forall k n d w log d' w', history k n d w log d' w' -> Forall (fun x => 0 <= dropped_in x) log.
  Proof.
    intros k n d w log d' w' H. induction H; [constructor|]. apply Forall_app. split; [eapply collected_nonneg; eassumption | assumption].
  Qed.

  Theorem history_ledger : forall k n d w log d' w', monotone (clk w) -> history k n d w log d' w' ->
    0 <= dr_dropped_since_last_logged d -> dr_dropped_since_last_logged d + dropped_total log <= u64_max ->
    exists ws, ledger (dr_last_outcome_logged d) (dr_dropped_since_last_logged d) log ws (dr_last_outcome_logged d') (dr_dropped_since_last_logged d')
      /\ sum (map snd ws) + dr_dropped_since_last_logged d' = dr_dropped_since_last_logged d + dropped_total log
      /\ apart (dr_last_outcome_logged d) ws /\ Forall (fun x => 0 < snd x) ws.
  Proof.
    intros k n d w log d' w' Mo H Hd Hs.
    assert (G : exists ws, ledger (dr_last_outcome_logged d) (dr_dropped_since_last_logged d) log ws (dr_last_outcome_logged d') (dr_dropped_since_last_logged d')).
    { induction H as [d w|n d w wa t0 wb r wc dm wd e d1 w1 log d2 w2 E1 E2 E3 D E4 C H IH]; [exists []; constructor|].
      rewrite dropped_total_app in Hs. pose proof (dropped_total_nonneg _ (history_nonneg _ _ _ _ _ _ _ H)) as N2.
      pose proof (iteration_start _ _ _ _ _ _ _ E1 E2 E3) as L1.
      assert (S4 : dr_last_outcome_logged dm = dr_last_outcome_logged d /\ dr_dropped_since_last_logged dm = dr_dropped_since_last_logged d
        /\ later (clk wc) (clk wd)).
      { destruct r; [eapply command_kept; exact E4|..]; injection E4 as <- <-; (split; [reflexivity|]); (split; [reflexivity | apply later_refl]). }
      destruct S4 as (S1 & S2 & L4). rewrite <- S1, <- S2 in *.
      assert (Md : monotone (clk wd)) by exact (later_monotone _ _ Mo (later_trans _ _ _ L1 L4)).
      destruct (collected_ledger _ _ _ _ _ _ _ Md C Hd ltac:(lia)) as (L5 & P5 & _ & ws1 & G1).
      pose proof (proj1 (ledger_adds_up _ _ _ _ _ _ G1)) as A. pose proof (proj2 (proj2 (ledger_adds_up _ _ _ _ _ _ G1))) as A3.
      assert (A0 : 0 <= sum (map snd ws1)) by (clear - A3; induction A3; cbn [map sum]; lia).
      destruct (IH (later_monotone _ _ Md L5) P5 ltac:(lia)) as (ws2 & G2). exists (ws1 ++ ws2). eapply ledger_app; eassumption. }
    destruct G as (ws & G). exists ws. split; [exact G|]. exact (ledger_adds_up _ _ _ _ _ _ G).
  Qed.
End Driver.

Lemma start_ledger : forall (X : ext) (Y : pext), parts_tick X -> forall name ds s b k c (d : driver X Y) c1, monotone c ->
  driver_start name ds s b k c = Ok d c1 ->
  dr_dropped_since_last_logged d = 0 /\ c O <= dr_last_outcome_logged d + 60 * nanos_per_sec <= c1 O.
Proof.
  intros X Y HX name ds s b k c d c1 Mo E. unfold driver_start in E. apply bind_ok in E. destruct E as (m & c2 & E1 & E).
  assert (L : later c c2).
  { destruct b; [|injection E1 as _ <-; apply later_refl]. apply bind_ok in E1. destruct E1 as (i & c3 & E1 & E2). injection E2 as _ <-.
    destruct (default_ok HX _ _ _ _ E1) as (_ & _ & c4 & c5 & L1 & _ & L2 & L3).
    exact (later_trans _ _ _ L1 (later_trans _ _ _ (later_tail _) (later_trans _ _ _ L2 L3))). }
  apply bind_ok in E. destruct E as (t & c3 & E2 & E). rewrite now_eq in E2. injection E2 as <- <-.
  apply bind_ok in E. destruct E as (l & c4 & E3 & E). injection E as <- <-. cbn [dr_dropped_since_last_logged dr_last_outcome_logged].
  unfold instant_sub in E3. destruct (_ <=? _); [|discriminate E3]. injection E3 as <- <-. split; [reflexivity|].
  pose proof (later_first _ _ Mo L). pose proof (later_monotone _ _ Mo L O). unfold clock_tail. lia.
Qed.

(** Losses are not reported only while the last warning is recent. *)
Lemma ledger_prompt : forall last open log ws last' open', ledger last open log ws last' open' ->
  forall l e, log = l ++ [e] -> open' <> 0 -> fst (fst e) <= last' + 5 * nanos_per_sec.
Proof.
  intros last open log ws last' open' H.
  induction H as [last open|last open e0 log t ws last' open' Hp Ht Hw H IH|last open e0 log ws last' open' Hn H IH]; intros l e E Ho.
  - destruct l; discriminate E.
  - destruct l as [|x l]; cbn [app] in E; injection E as -> ->; [|eapply IH; [reflexivity | exact Ho]].
    inversion H. subst. lia.
  - destruct l as [|x l]; cbn [app] in E; injection E as -> ->; [|eapply IH; [reflexivity | exact Ho]].
    inversion H. subst. destruct Hn as [Hn|Hn]; [contradiction | exact Hn].
Qed.

Lemma history_prompt : forall (X : ext) (Y : pext), parts_tick X -> processors_tick Y ->
  forall k n (d : driver X Y) w l e d' w', monotone (w_clock (dw_world w)) -> history k n d w (l ++ [e]) d' w' ->
  0 <= dr_dropped_since_last_logged d -> dr_dropped_since_last_logged d + dropped_total (l ++ [e]) <= u64_max ->
  dr_last_outcome_logged d' + 5 * nanos_per_sec < fst (fst e) -> dr_dropped_since_last_logged d' = 0.
Proof.
  intros X Y HX HY k n d w l e d' w' Mo H Hd Hs Ht. destruct (history_ledger HX HY _ _ _ _ _ _ _ Mo H Hd Hs) as (ws & L & _).
  destruct (Z.eq_dec (dr_dropped_since_last_logged d') 0) as [E|E]; [exact E|].
  pose proof (ledger_prompt _ _ _ _ _ _ L l e eq_refl E). lia.
Qed.
