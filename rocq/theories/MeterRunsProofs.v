(** Meters neither panic nor loop as long as the times are representable and
    the count fits, and extra reads change nothing. *)
From Coq Require Import ZArith QArith Bool String List Lia ZifyBool Floats.SpecFloat.
From Verif Require Import Base SpecRun SpecCounting SpecGauge SpecObservation SpecMeter MonadFacts
  ModelObservation ModelSnapshot ModelCounter ModelMeter
  ObservationProofs FloatProofs GaugeProofs CounterProofs MeterProofs MeterHistoryProofs.
Import ListNotations.
Open Scope Z_scope.

Ltac Zify.zify_post_hook ::= Z.to_euclidean_division_equations.

Record sane (k : cfg) (c : clock) (start : Z) : Prop := Sane {
  sane_mono : monotone c;
  sane_max : forall i, c i + 5000000000 <= max_instant k;
  sane_span : forall i, c i - start <= u64_max
}.

Lemma sane_passes : forall k c c' start, sane k c start -> passes c c' -> sane k c' start.
Proof.
  intros k c c' start [A B C] [j ->]. constructor; [apply monotone_iter; exact A|..];
    intros i; rewrite iter_tail; auto.
Qed.

Lemma sane_tail : forall k c start, sane k c start -> sane k (clock_tail c) start.
Proof. intros. eapply sane_passes; [eassumption|apply passes_tail]. Qed.

Lemma i64_arith_runs : forall W r k (w : W), (overflow_checks k = true -> in_i64 r) ->
  exists x, i64_arith r k w = Ok x w.
Proof.
  intros W r k w H. destruct (overflow_checks k) eqn:E.
  - exists r. apply i64_arith_fits. apply H. reflexivity.
  - exists (wrap_i64 r). apply i64_arith_release. exact E.
Qed.

Lemma maybe_tick_runs : forall m al start t l k c,
  sane k c start -> metered (m_inner m) al start t l -> t <= c O ->
  exists m' c', meter_maybe_tick m k c = Ok m' c'.
Proof.
  intros m al start t l k c Hs Hm Hle. unfold meter_maybe_tick, bind at 1. rewrite elapsed_eq.
  destruct (_ <=? _); [|eexists _, _; reflexivity].
  assert (Hle1 : t <= clock_tail c O) by (pose proof (sane_mono _ _ _ Hs O); unfold clock_tail; lia).
  destruct (tick_inner_runs _ _ _ _ _ _ _ Hm Hle1 (sane_max _ _ _ (sane_tail _ _ _ Hs) O)) as [s' E].
  unfold bind, std_tick. rewrite E. eexists _, _. reflexivity.
Qed.

Lemma meter_mark_runs : forall m al start t l n k c,
  sane k c start -> metered (m_inner m) al start t l -> t <= c O ->
  (overflow_checks k = true -> in_i64 (sm_count (m_inner m) + n)) ->
  exists m' c', meter_mark m n k c = Ok m' c'.
Proof.
  intros m al start t l n k c Hs Hm Hle Hn. unfold meter_mark, std_mark.
  destruct (tick_inner_runs _ _ _ _ _ _ _ Hm Hle (sane_max _ _ _ Hs O)) as [s' E].
  pose proof (tick_inner_count _ _ _ _ _ E) as Hc. unfold bind. rewrite E.
  destruct (i64_arith_runs clock (sm_count s' + n) k (clock_tail c)) as [x E2]; [rewrite Hc; exact Hn|].
  unfold add_i64. rewrite E2. eexists _, _. reflexivity.
Qed.

Lemma meter_update_runs : forall m u al start t l k c,
  update_ok u -> sane k c start -> metered (m_inner m) al start t l -> t <= c O ->
  (overflow_checks k = true -> in_i64 (sm_count (m_inner m) + amount_or_0 (meter_amount u))) ->
  exists m' c', meter_update m u k c = Ok (m', 1) c'.
Proof.
  intros m u al start t l k c Hok Hs Hm Hle Hn. unfold meter_update, bind at 1.
  destruct (maybe_tick_runs _ _ _ _ _ _ _ Hs Hm Hle) as (m1 & c1 & E1). rewrite E1.
  destruct (maybe_tick_metered _ _ _ _ _ _ _ _ _ (sane_mono _ _ _ Hs) Hm Hle E1) as (t1 & H1 & Hle1 & Hp1 & Hs1 & _).
  destruct (maybe_tick_count _ _ _ _ _ E1) as [Hc _].
  assert (Hmark : forall n, (overflow_checks k = true -> in_i64 (sm_count (m_inner m) + n)) ->
    exists m' c', (let* m := meter_mark m1 n in ret (m, 1)) k c1 = Ok (m', 1) c').
  { intros n Hn'. rewrite <- Hc in Hn'.
    destruct (meter_mark_runs _ _ _ _ _ _ _ _ (sane_passes _ _ _ _ Hs Hp1) H1 Hle1 Hn') as (m2 & c2 & E2).
    unfold bind. rewrite E2. eexists _, _. reflexivity. }
  destruct u as [n ts|ts|v ts]; cbn [meter_amount] in Hn; try (apply Hmark; exact Hn).
  destruct ((n <=? i64_max) && negb (n =? 0)) eqn:En.
  - apply Hmark. cbn in Hok. unfold in_u64 in Hok.
    replace ((0 <? n) && (n <=? i64_max))%bool with true in Hn by lia. exact Hn.
  - eexists _, _. reflexivity.
Qed.

Lemma u64_nanos : forall x, 0 <= x <= u64_max ->
  0 <= as_secs x * nanos_per_sec <= u64_max /\ 0 <= as_secs x * nanos_per_sec + subsec_nanos x <= u64_max.
Proof. intros x Hx. unfold as_secs, subsec_nanos. lia. Qed.

Lemma meter_put_runs : forall m d into al start t l k c,
  sane k c start -> metered (m_inner m) al start t l -> t <= c O ->
  exists m' s c', meter_put m d into k c = Ok (m', s) c'.
Proof.
  intros m d into al start t l k c Hs Hm Hle. unfold meter_put, meter_get_snapshot.
  destruct (maybe_tick_runs _ _ _ _ _ _ _ Hs Hm Hle) as (m1 & c1 & E1).
  destruct (maybe_tick_metered _ _ _ _ _ _ _ _ _ (sane_mono _ _ _ Hs) Hm Hle E1) as (t1 & H1 & Hle1 & Hp1 & _).
  pose proof (sane_passes _ _ _ _ Hs Hp1) as Hs1.
  destruct (tick_inner_runs _ _ _ _ _ _ _ H1 Hle1 (sane_max _ _ _ Hs1 O)) as [s2 E2].
  destruct (tick_inner_metered _ _ _ _ _ _ _ _ _ H1 Hle1 E2) as (_ & H2).
  assert (Hmean : exists x c3, std_mean_inner s2 k (clock_tail c1) = Ok x c3).
  { unfold std_mean_inner. destruct (_ =? 0); [eexists _, _; reflexivity|].
    unfold bind at 1. rewrite elapsed_eq. rewrite (mt_start _ _ _ _ _ H2).
    pose proof (sane_span _ _ _ (sane_tail _ _ _ Hs1) O) as Hspan.
    destruct (u64_nanos (Z.max 0 (clock_tail c1 O - start))) as [A B]; [lia|].
    unfold bind, mul_u64, add_u64.
    rewrite u64_arith_fits by exact A. rewrite u64_arith_fits by exact B. eexists _, _. reflexivity. }
  destruct Hmean as (x & c3 & E3).
  unfold bind, std_snapshot, bind. rewrite E1, E2, E3. eexists _, _, _. reflexivity.
Qed.

Lemma meter_run_runs : forall ops m al start t l k c,
  ops_ok ops -> sane k c start -> metered (m_inner m) al start t l -> t <= c O ->
  in_i64 (sm_count (m_inner m)) ->
  (overflow_checks k = true -> sm_count (m_inner m) + sum (amounts meter_amount ops) <= i64_max) ->
  exists m' c', meter_run meter_update meter_put m ops k c = Ok m' c'.
Proof.
  induction ops as [|o ops IH]; intros m al start t l k c Hok Hs Hm Hle Hin Hfit.
  - eexists _, _. reflexivity.
  - inversion Hok as [|? ? Hok1 Hok2]; subst.
    destruct o as [u|d]; cbn [meter_run].
    + pose proof (sum_nonneg _ (Forall_impl _ (fun n (H : 0 < n) => Z.lt_le_incl _ _ H) (amounts_nonneg ops))) as Hnn.
      assert (Hamt : sum (amounts meter_amount (MUpdate u :: ops)) = amount_or_0 (meter_amount u) + sum (amounts meter_amount ops)).
      { unfold amounts. cbn [flat_map]. rewrite sum_app. destruct (meter_amount u); cbn [sum amount_or_0]; lia. }
      assert (Ha0 : 0 <= amount_or_0 (meter_amount u)).
      { destruct u as [n ts|ts|v ts]; cbn; try lia. destruct (_ && _) eqn:En; cbn; lia. }
      assert (Hn : overflow_checks k = true -> in_i64 (sm_count (m_inner m) + amount_or_0 (meter_amount u))).
      { intros Hk. specialize (Hfit Hk). unfold in_i64 in *. lia. }
      destruct (meter_update_runs _ _ _ _ _ _ _ _ Hok1 Hs Hm Hle Hn) as (m1 & c1 & E1).
      unfold bind. rewrite E1.
      destruct (meter_update_metered _ _ _ _ _ _ _ _ _ _ _ Hok1 (sane_mono _ _ _ Hs) Hm Hle E1) as (Hp & _ & t' & Hle' & H').
      destruct (meter_update_count _ _ _ _ _ _ _ Hok1 Hin E1) as (Hc & _ & _ & _).
      assert (Hin1 : in_i64 (sm_count (m_inner m1))) by (rewrite Hc; apply wrap_i64_range).
      assert (Hfit1 : overflow_checks k = true -> sm_count (m_inner m1) + sum (amounts meter_amount ops) <= i64_max).
      { intros Hk. rewrite Hc, wrap_i64_id by (apply Hn, Hk). specialize (Hfit Hk). lia. }
      pose proof (sane_passes _ _ _ _ Hs Hp) as Hs1.
      destruct (meter_amount u) as [n|].
      * destruct H' as [_ H']. eapply IH; eauto.
      * eapply IH; eauto.
    + destruct (meter_put_runs m d [] _ _ _ _ _ _ Hs Hm Hle) as (m1 & s1 & c1 & E1).
      unfold bind. rewrite E1.
      destruct (meter_put_metered _ _ _ _ _ _ _ _ _ _ _ _ (sane_mono _ _ _ Hs) Hm Hle E1) as (Hp & _ & t' & _ & Hle' & H' & _).
      destruct (meter_put_shape _ _ _ _ _ _ _ _ E1) as (_ & Hc & _).
      pose proof (sane_passes _ _ _ _ Hs Hp) as Hs1.
      eapply IH; eauto; rewrite Hc; assumption.
Qed.

(** A new meter, used at any representable times, works. *)
Lemma meter_works : forall al name k c ops d,
  monotone c -> (forall i, c i + 5000000000 <= max_instant k) -> (forall i, c i - c 1%nat <= u64_max) ->
  ops_ok ops -> (overflow_checks k = true -> sum (amounts meter_amount ops) <= i64_max) ->
  exists m c1 m' c2 m'' s c3,
    meter_new al name k c = Ok m c1
    /\ meter_run meter_update meter_put m ops k c1 = Ok m' c2
    /\ meter_put m' d [] k c2 = Ok (m'', s) c3.
Proof.
  intros al name k c ops d Hc Hmax Hspan Hok Hfit.
  assert (E1 : exists m, meter_new al name k c = Ok m (clock_tail (clock_tail c))).
  { unfold meter_new, std_meter_default, bind. rewrite !now_eq.
    rewrite instant_add_ok by apply Hmax. eexists. reflexivity. }
  destruct E1 as [m E1].
  destruct (meter_new_inner _ _ _ _ _ _ E1) as (_ & H1 & _ & _ & _ & _ & _ & _ & H0).
  assert (Hs : sane k (clock_tail (clock_tail c)) (c 1%nat)).
  { constructor; [apply monotone_tail, monotone_tail, Hc|..]; intros i; unfold clock_tail; auto. }
  assert (Hle : c 1%nat <= clock_tail (clock_tail c) O) by (apply (Hc 1%nat)).
  destruct (meter_run_runs ops m al _ _ _ k _ Hok Hs H1 Hle) as (m' & c2 & E2).
  { rewrite H0. split; discriminate. }
  { rewrite H0. exact Hfit. }
  destruct (history_metered meter_update meter_put meter_amount m_inner same_settings meter_good
              meter_upd_metered meter_put_metered' same_settings_refl same_settings_trans
              (fun x y u _ H => H) ops m al _ _ [] k _ _ _ Hok (sane_mono _ _ _ Hs) H1 Hle E2)
    as (l & t' & _ & Ht' & [j Hj] & Hm' & _).
  assert (Hs2 : sane k c2 (c 1%nat)).
  { subst c2. destruct j as [|j]; [exact Hs|]. eapply sane_passes; [exact Hs|]. exists j. reflexivity. }
  destruct (meter_put_runs m' d [] _ _ _ _ _ _ Hs2 Hm' Ht') as (m'' & s & c3 & E3).
  exists m, (clock_tail (clock_tail c)), m', c2, m'', s, c3. auto.
Qed.

(** ** Snapshots do not matter *)

Lemma instant_marks_filter : forall amount h,
  instant_marks amount (filter is_update h) = instant_marks amount h.
Proof.
  intros amount h. induction h as [|[t [u|d]] h IH]; cbn; [reflexivity|..].
  - unfold instant_marks in IH. rewrite IH. reflexivity.
  - exact IH.
Qed.

Lemma meter_reads_do_not_matter : forall al name k t0 m0 c1 m h1 h2 m1 m2 q d1 d2 m1' m2' s1 s2 c2 c3,
  meter_new al name k (frozen t0) = Ok m0 c1 ->
  m_inner m = m_inner m0 -> m_descr m = no_descr ->
  ops_ok (map snd h1) -> ops_ok (map snd h2) -> times_ordered t0 h1 q -> times_ordered t0 h2 q ->
  filter is_update h1 = filter is_update h2 ->
  instant_run meter_update meter_put k m h1 = Some m1 ->
  instant_run meter_update meter_put k m h2 = Some m2 ->
  meter_put m1 d1 [] k (frozen q) = Ok (m1', s1) c2 ->
  meter_put m2 d2 [] k (frozen q) = Ok (m2', s2) c3 ->
  s1 = s2.
Proof.
  intros al name k t0 m0 c1 m h1 h2 m1 m2 q d1 d2 m1' m2' s1 s2 c2 c3 E1 Hi Hd Ho1 Ho2 Ht1 Ht2 Hf R1 R2 P1 P2.
  rewrite (meter_rates_at_instants _ _ _ _ _ _ _ _ _ _ _ _ _ _ E1 Hi Hd Ho1 Ht1 R1 P1).
  rewrite (meter_rates_at_instants _ _ _ _ _ _ _ _ _ _ _ _ _ _ E1 Hi Hd Ho2 Ht2 R2 P2).
  rewrite <- (instant_marks_filter _ h1), <- (instant_marks_filter _ h2), Hf. reflexivity.
Qed.
