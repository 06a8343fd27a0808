From Coq Require Import ZArith QArith Bool String List Lia ZifyBool Floats.SpecFloat.
From Verif Require Import Base SpecRun SpecCounting SpecGauge SpecObservation SpecMeter MonadFacts
  ModelObservation ModelSnapshot ModelCounter ModelMeter
  ObservationProofs FloatProofs GaugeProofs CounterProofs MeterProofs.
Import ListNotations.
Open Scope Z_scope.

Lemma put_no_descr : forall name into d, put_postfixed_descriptives no_descr name into d = into.
Proof. intros. destruct d; reflexivity. Qed.

(** ** Counts: the clock does not matter *)

Lemma tick_loop_count : forall n t s k c s' c',
  std_tick_loop n t s k c = Ok s' c' -> sm_count s' = sm_count s.
Proof.
  induction n as [|n IH]; intros t s k c s' c' E; cbn [std_tick_loop] in E; destruct (_ <=? _).
  - discriminate E.
  - steps. reflexivity.
  - apply bind_ok in E. destruct E as (nt & c1 & _ & E). apply IH in E. exact E.
  - steps. reflexivity.
Qed.

Lemma tick_inner_count : forall s k c s' c', std_tick_inner s k c = Ok s' c' -> sm_count s' = sm_count s.
Proof.
  intros s k c s' c' E. unfold std_tick_inner in E. apply bind_ok in E.
  destruct E as (t & c1 & _ & E). eapply tick_loop_count; exact E.
Qed.

Lemma maybe_tick_count : forall m k c m' c', meter_maybe_tick m k c = Ok m' c' ->
  sm_count (m_inner m') = sm_count (m_inner m) /\ same_settings m m'.
Proof.
  intros m k c m' c' E. unfold meter_maybe_tick in E.
  apply bind_ok in E. destruct E as (e & c1 & _ & E). destruct (_ <=? _).
  - apply bind_ok in E. destruct E as (s & c2 & E1 & E). apply tick_inner_count in E1. steps.
    cbn [m_inner meter_with]. split; [assumption|repeat split].
  - steps. split; [reflexivity|repeat split].
Qed.

Lemma meter_mark_count : forall m n k c m' c', meter_mark m n k c = Ok m' c' ->
  sm_count (m_inner m') = wrap_i64 (sm_count (m_inner m) + n) /\ same_settings m m'
  /\ (overflow_checks k = true -> in_i64 (sm_count (m_inner m) + n)).
Proof.
  intros m n k c m' c' E. unfold meter_mark in E.
  apply bind_ok in E. destruct E as (s & c1 & E1 & E). steps.
  unfold std_mark in E1. apply bind_ok in E1. destruct E1 as (s1 & c2 & E1 & E).
  apply tick_inner_count in E1. rewrite <- E1.
  apply bind_ok in E. destruct E as (cn & c3 & E2 & E). apply i64_arith_inv in E2. destruct E2 as (-> & -> & Hk).
  steps. cbn [m_inner meter_with sm_count]. split; [reflexivity|]. split; [repeat split|exact Hk].
Qed.

Definition amount_or_0 (o : option Z) : Z := match o with Some n => n | None => 0 end.

Lemma meter_update_count : forall m u k c m' r c', update_ok u -> in_i64 (sm_count (m_inner m)) ->
  meter_update m u k c = Ok (m', r) c' ->
  sm_count (m_inner m') = wrap_i64 (sm_count (m_inner m) + amount_or_0 (meter_amount u)) /\ same_settings m m'
  /\ (overflow_checks k = true -> in_i64 (sm_count (m_inner m) + amount_or_0 (meter_amount u))) /\ r = 1.
Proof.
  intros m u k c m' r c' Hok Hin E. unfold meter_update in E.
  apply bind_ok in E. destruct E as (m1 & c1 & E1 & E).
  apply maybe_tick_count in E1. destruct E1 as [Hc Hs].
  assert (Hmark : forall n m2 r2 c2, (let* m := meter_mark m1 n in ret (m, 1)) k c1 = Ok (m2, r2) c2 ->
    sm_count (m_inner m2) = wrap_i64 (sm_count (m_inner m) + n) /\ same_settings m m2
    /\ (overflow_checks k = true -> in_i64 (sm_count (m_inner m) + n)) /\ r2 = 1).
  { intros n m2 r2 c2 E2. apply bind_ok in E2. destruct E2 as (m3 & c3 & E2 & E3).
    apply meter_mark_count in E2. destruct E2 as (A & B & C). steps. rewrite Hc in *.
    split; [exact A|]. split; [eapply same_settings_trans; eassumption|]. split; [exact C|reflexivity]. }
  destruct u as [n ts|ts|v ts]; cbn [meter_amount].
  - cbn in Hok. unfold in_u64 in Hok.
    destruct ((n <=? i64_max) && negb (n =? 0)) eqn:En.
    + replace ((0 <? n) && (n <=? i64_max))%bool with true by lia. cbn [amount_or_0]. eapply Hmark. exact E.
    + replace ((0 <? n) && (n <=? i64_max))%bool with false by lia. cbn [amount_or_0]. steps.
      rewrite Z.add_0_r, Hc. split; [symmetry; apply wrap_i64_id; exact Hin|].
      split; [exact Hs|]. split; [intros _; exact Hin|reflexivity].
  - cbn [amount_or_0]. eapply Hmark. exact E.
  - cbn [amount_or_0]. eapply Hmark. exact E.
Qed.

Lemma std_snapshot_count : forall s k c s' d c', std_snapshot s k c = Ok (s', d) c' ->
  sm_count s' = sm_count s /\ d = StdSnapshot (sm_count s') (ewma_rate (sm_e1 s')) (ewma_rate (sm_e5 s'))
            (ewma_rate (sm_e15 s')) (ss_mean d).
Proof.
  intros s k c s' d c' E. unfold std_snapshot in E.
  apply bind_ok in E. destruct E as (s1 & c1 & E1 & E). apply tick_inner_count in E1.
  apply bind_ok in E. destruct E as (mn & c2 & E2 & E). steps. split; [exact E1|reflexivity].
Qed.

(** Any state, any clock: the shape of what is shown. *)
Lemma meter_put_shape : forall m d into k c m' s c',
  meter_put m d into k c = Ok (m', s) c' ->
  let shown e := shown_rate (m_lower_cutoff m) (ewma_rate e) in
  s = put_postfixed_descriptives (m_descr m) (m_name m) into d
      ++ meter_items (m_name m) (sm_count (m_inner m) mod two64)
           (window_item (m_one_minute m) "one_minute" (shown (sm_e1 (m_inner m'))))
           (window_item (m_five_minute m) "five_minutes" (shown (sm_e5 (m_inner m'))))
           (window_item (m_fifteen_minute m) "fifteen_minutes" (shown (sm_e15 (m_inner m'))))
  /\ sm_count (m_inner m') = sm_count (m_inner m) /\ same_settings m m'.
Proof.
  intros m d into k c m' s c' E shown. subst shown. unfold meter_put in E.
  apply bind_ok in E. destruct E as ([m1 sn] & c1 & E1 & E).
  unfold meter_get_snapshot in E1.
  apply bind_ok in E1. destruct E1 as (m2 & c2 & E1 & E2).
  apply maybe_tick_count in E1. destruct E1 as [Hc Hs].
  apply bind_ok in E2. destruct E2 as ([s2 sd] & c3 & E2 & E3).
  apply std_snapshot_count in E2. destruct E2 as [Hc2 Hsd].
  cbv zeta in E3. cbn [m_lower_cutoff m_one_minute m_five_minute m_fifteen_minute meter_with] in E3. steps.
  cbn [m_inner meter_with m_name m_descr].
  unfold meter_snapshot_put, meter_items.
  cbn [ms_count ms_one_minute ms_five_minutes ms_fifteen_minutes].
  split; [|split; [congruence|destruct Hs as (? & ? & ? & ? & ? & ?); repeat split; assumption]].
  destruct Hs as (-> & -> & -> & -> & -> & ->). rewrite Hsd. cbn [ss_count ss_rate1 ss_rate5 ss_rate15].
  rewrite Hc2, Hc. fold (wrap_u64 (sm_count (m_inner m))). unfold push at 1. do 4 f_equal.
  unfold push_rate, push, cut, shown_rate, f64_ltb, window_item, put_rate.
  destruct (m_one_minute m), (m_five_minute m), (m_fifteen_minute m); reflexivity.
Qed.

Lemma meter_run_count : forall ops m k c m' c', ops_ok ops -> in_i64 (sm_count (m_inner m)) ->
  meter_run meter_update meter_put m ops k c = Ok m' c' ->
  sm_count (m_inner m') = wrap_i64 (sm_count (m_inner m) + sum (amounts meter_amount ops))
  /\ same_settings m m'.
Proof.
  induction ops as [|o ops IH]; intros m k c m' c' Hok Hin E.
  - cbn in *. steps. rewrite Z.add_0_r. split; [symmetry; apply wrap_i64_id; exact Hin|apply same_settings_refl].
  - inversion Hok as [|? ? Hok1 Hok2]; subst.
    destruct o as [u|d]; cbn [meter_run] in E; apply bind_ok in E; destruct E as ([m1 r] & c1 & E1 & E).
    + destruct (meter_update_count _ _ _ _ _ _ _ Hok1 Hin E1) as (Hc & Hs & _).
      destruct (IH _ _ _ _ _ Hok2 ltac:(rewrite Hc; apply wrap_i64_range) E) as (Hc2 & Hs2).
      split; [|eapply same_settings_trans; eassumption].
      rewrite Hc2, Hc, wrap_i64_add_l. f_equal. unfold amounts. cbn [flat_map]. rewrite sum_app.
      destruct (meter_amount u); cbn [sum amount_or_0]; lia.
    + destruct (meter_put_shape _ _ _ _ _ _ _ _ E1) as (_ & Hc & Hs).
      destruct (IH _ _ _ _ _ Hok2 ltac:(rewrite Hc; exact Hin) E) as (Hc2 & Hs2).
      split; [|eapply same_settings_trans; eassumption].
      rewrite Hc2, Hc. reflexivity.
Qed.

Lemma meter_new_inner : forall al name k c m c', meter_new al name k c = Ok m c' ->
  c' = clock_tail (clock_tail c) /\ metered (m_inner m) al (c 1%nat) (c 1%nat) []
  /\ m_name m = name /\ m_descr m = no_descr /\ m_lower_cutoff m = default_cutoff
  /\ m_one_minute m = true /\ m_five_minute m = false /\ m_fifteen_minute m = false
  /\ sm_count (m_inner m) = 0.
Proof.
  intros al name k c m c' E. unfold meter_new in E.
  apply bind_ok in E. destruct E as (t & c1 & E1 & E). rewrite now_eq in E1. injection E1 as <- <-.
  apply bind_ok in E. destruct E as (s & c1 & E1 & E). apply default_metered in E1. destruct E1 as [-> H1].
  steps. cbn [m_inner m_name m_descr m_lower_cutoff m_one_minute m_five_minute m_fifteen_minute].
  split; [reflexivity|]. split; [exact H1|]. repeat split. apply (mt_count _ _ _ _ _ H1).
Qed.

Lemma meter_counts : forall al name k c m c1 ops m' c2 d m'' s c3,
  meter_new al name k c = Ok m c1 -> ops_ok ops ->
  meter_run meter_update meter_put m ops k c1 = Ok m' c2 ->
  meter_put m' d [] k c2 = Ok (m'', s) c3 ->
  exists rates, s = [(name, ItemSnapshot (("count"%string, UInt (sum (amounts meter_amount ops) mod two64)) :: rates))].
Proof.
  intros al name k c m c1 ops m' c2 d m'' s c3 E1 Hok E2 E3.
  destruct (meter_new_inner _ _ _ _ _ _ E1) as (_ & _ & Hn & Hd & _ & _ & _ & _ & H0).
  destruct (meter_run_count _ _ _ _ _ _ Hok ltac:(rewrite H0; split; discriminate) E2) as (Hc & Hs).
  destruct (meter_put_shape _ _ _ _ _ _ _ _ E3) as (-> & _ & _).
  destruct Hs as (Hn' & Hd' & _). rewrite Hn', Hd', Hn, Hd, Hc, H0. cbn [Z.add].
  unfold meter_items. fold (wrap_u64 (wrap_i64 (sum (amounts meter_amount ops)))).
  rewrite wrap_u64_i64, put_no_descr, app_nil_l. eexists. reflexivity.
Qed.

Lemma amounts_nonneg : forall ops, Forall (fun n => 0 < n) (amounts meter_amount ops).
Proof.
  induction ops as [|[u|d] ops IH]; cbn; auto. apply Forall_app. split; [|exact IH].
  destruct u as [n t|t|v t]; cbn; try (constructor; [lia|constructor]).
  destruct ((0 <? n) && (n <=? i64_max)) eqn:E; constructor; [lia|constructor].
Qed.

Lemma total_amounts : forall us, Forall update_ok us -> total us <= i64_max ->
  sum (amounts meter_amount (map MUpdate us)) = total us.
Proof.
  induction us as [|u us IH]; intros Hok Hle; [reflexivity|].
  inversion Hok as [|? ? Hok1 Hok2]; subst. unfold total in *. cbn [map sum] in *.
  assert (Hnn : 0 <= sum (map occurrences us)).
  { apply sum_nonneg. apply Forall_map. eapply Forall_impl; [|exact Hok2].
    intros [n t|t|v t]; cbn; unfold in_u64; lia. }
  unfold amounts. cbn [flat_map]. rewrite sum_app. unfold amounts in IH. rewrite IH; auto.
  - f_equal. destruct u as [n t|t|v t]; cbn [meter_amount occurrences]; try reflexivity.
    cbn in Hok1, Hle. unfold in_u64 in Hok1.
    destruct ((0 <? n) && (n <=? i64_max)) eqn:E; cbn [sum]; lia.
  - assert (0 <= occurrences u) by (destruct u; cbn in *; unfold in_u64 in *; lia). lia.
Qed.

Lemma meter_agrees_with_counter : forall al name k c m c1 us m' c2 d m'' s c3,
  meter_new al name k c = Ok m c1 -> Forall update_ok us -> total us <= i64_max ->
  meter_run meter_update meter_put m (map MUpdate us) k c1 = Ok m' c2 ->
  meter_put m' d [] k c2 = Ok (m'', s) c3 ->
  exists rates counted n,
    s = [(name, ItemSnapshot (("count"%string, UInt n) :: rates))]
    /\ run_all counter_update (counter_new name) us k c = Ok (counted, repeat 1 (length us)) c
    /\ counter_put counted false [] = [(name, UInt n)].
Proof.
  intros al name k c m c1 us m' c2 d m'' s c3 E1 Hok Hle E2 E3.
  assert (Hops : ops_ok (map MUpdate us)).
  { unfold ops_ok. apply Forall_map. exact Hok. }
  destruct (meter_counts _ _ _ _ _ _ _ _ _ _ _ _ _ E1 Hops E2 E3) as [rates ->].
  destruct (counter_fits clock k name us c Hok) as (cc & Hrun & Hput).
  { lia. }
  rewrite total_amounts by assumption.
  assert (Hnn : 0 <= total us).
  { rewrite <- total_amounts by assumption. apply sum_nonneg. eapply Forall_impl; [|apply amounts_nonneg].
    intros; cbn in *; lia. }
  rewrite Z.mod_small by lia. exists rates, cc, (total us). auto.
Qed.

(** ** Rates of a meter *)

Definition meter_good (m : meter) (u : update) : Prop := update_ok u.

Lemma meter_upd_metered : upd_metered meter_update meter_amount m_inner same_settings meter_good.
Proof.
  intros m u al start t l k c m' r c' Hg Hc Hm Hle E.
  destruct (meter_update_metered _ _ _ _ _ _ _ _ _ _ _ Hg Hc Hm Hle E) as (A & B & C). auto.
Qed.

Lemma meter_put_metered' : put_metered meter_put m_inner same_settings.
Proof.
  intros m d into al start t l k c m' s c' Hc Hm Hle E.
  destruct (meter_put_metered _ _ _ _ _ _ _ _ _ _ _ _ Hc Hm Hle E) as (A & B & t' & C & D & F & _). eauto 10.
Qed.

(** What a snapshot of a meter with its settings shows at time [t]. *)
Lemma meter_rates : forall al name k c m0 c1 m ops m' c2 d m'' s c3,
  monotone c -> meter_new al name k c = Ok m0 c1 ->
  m_inner m = m_inner m0 -> m_descr m = no_descr -> ops_ok ops ->
  meter_run meter_update meter_put m ops k c1 = Ok m' c2 ->
  meter_put m' d [] k c2 = Ok (m'', s) c3 ->
  exists start l t,
    read_during c c1 start
    /\ metering meter_update meter_put meter_amount k m c1 ops l m' c2
    /\ read_during c2 c3 t
    /\ s = meter_shows m al start l t.
Proof.
  intros al name k c m0 c1 m ops m' c2 d m'' s c3 Hc E1 Hi Hd Hok E2 E3.
  destruct (meter_new_inner _ _ _ _ _ _ E1) as (-> & H1 & _). rewrite <- Hi in H1.
  assert (Hc1 : monotone (clock_tail (clock_tail c))) by (apply monotone_tail, monotone_tail, Hc).
  assert (Hle : c 1%nat <= clock_tail (clock_tail c) O) by (apply (Hc 1%nat)).
  destruct (history_metered meter_update meter_put meter_amount m_inner same_settings meter_good
              meter_upd_metered meter_put_metered' same_settings_refl same_settings_trans
              (fun x y u _ H => H) ops m al _ _ [] k _ _ _ Hok Hc1 H1 Hle E2)
    as (l & t' & Hmet & Ht' & [j Hj] & Hm' & Hs).
  assert (Hc2 : monotone c2) by (rewrite Hj; apply monotone_iter; assumption).
  destruct (meter_put_metered _ _ _ _ _ _ _ _ _ _ _ _ Hc2 Hm' Ht' E3) as (_ & _ & t & Hr & _ & _ & ->).
  exists (c 1%nat), l, t. split.
  - exists 1%nat, 2%nat. split; [lia|]. split; reflexivity.
  - split; [exact Hmet|]. split; [exact Hr|].
    destruct Hs as (Hs1 & Hs2 & Hs3 & Hs4 & Hs5 & Hs6). rewrite app_nil_l. unfold meter_shows.
    rewrite Hs1, Hs2, Hs3, Hs4, Hs5, Hs6, Hd, put_no_descr. reflexivity.
Qed.

Lemma meter_rates_at_instants : forall al name k t0 m0 c1 m h m' q d m'' s c3,
  meter_new al name k (frozen t0) = Ok m0 c1 ->
  m_inner m = m_inner m0 -> m_descr m = no_descr ->
  ops_ok (map snd h) ->
  times_ordered t0 h q ->
  instant_run meter_update meter_put k m h = Some m' ->
  meter_put m' d [] k (frozen q) = Ok (m'', s) c3 ->
  s = meter_shows m al t0 (instant_marks meter_amount h) q.
Proof.
  intros al name k t0 m0 c1 m h m' q d m'' s c3 E1 Hi Hd Hok Hord E2 E3.
  destruct (meter_new_inner _ _ _ _ _ _ E1) as (-> & H1 & _). rewrite <- Hi in H1.
  change (frozen t0 1%nat) with t0 in H1.
  unfold ops_ok in Hok. rewrite Forall_map in Hok.
  destruct (instant_metered meter_update meter_put meter_amount m_inner same_settings meter_good
              meter_upd_metered meter_put_metered' same_settings_refl same_settings_trans
              (fun x y u _ H => H) h m al _ _ [] q k _ Hok Hord H1 E2)
    as (t' & Ht' & Hm' & Hs).
  destruct (meter_put_metered _ _ _ _ _ _ _ _ _ _ _ _ (frozen_monotone q) Hm' Ht' E3) as (_ & _ & t & Hr & _ & _ & ->).
  destruct Hr as (i & j & _ & _ & ->). change (frozen q i) with q.
  destruct Hs as (Hs1 & Hs2 & Hs3 & Hs4 & Hs5 & Hs6). rewrite app_nil_l. unfold meter_shows.
  rewrite Hs1, Hs2, Hs3, Hs4, Hs5, Hs6, Hd, put_no_descr. reflexivity.
Qed.

(** ** Value meters *)

Definition same_vm (a b : value_meter) : Prop :=
  same_settings (vm_meter a) (vm_meter b) /\ vm_display_time_unit b = vm_display_time_unit a.

Definition vm_good (amount : update -> option Z) (vm : value_meter) (u : update) : Prop :=
  update_ok u /\ value_counts (vm_display_time_unit vm) u (amount u).

Lemma vm_good_same : forall amount a b u, same_vm a b -> vm_good amount a u -> vm_good amount b u.
Proof. intros amount a b u [_ H] [A B]. split; [exact A|]. rewrite H. exact B. Qed.

Lemma value_meter_update_cases : forall vm u o k c vm' r c',
  update_ok u -> value_counts (vm_display_time_unit vm) u o ->
  value_meter_update vm u k c = Ok (vm', r) c' ->
  match o with
  | Some n => exists m, meter_mark (vm_meter vm) n k c = Ok m c'
                        /\ vm' = ValueMeter m (vm_display_time_unit vm) /\ r = 1
  | None => vm' = vm /\ c' = c /\ r = 0
  end.
Proof.
  intros vm u o k c vm' r c' Hok Hv E.
  assert (Hmark : forall n v2 r2 c2,
    (let* m := meter_mark (vm_meter vm) n in ret (ValueMeter m (vm_display_time_unit vm), 1)) k c = Ok (v2, r2) c2 ->
    exists m, meter_mark (vm_meter vm) n k c = Ok m c2 /\ v2 = ValueMeter m (vm_display_time_unit vm) /\ r2 = 1).
  { intros n v2 r2 c2 H. apply bind_ok in H. destruct H as (m & c3 & H1 & H2). steps. eauto. }
  destruct Hv as [v t z Hv|v t Hv|d t|t|n t].
  - cbn in Hok. inversion Hv; subst.
    + match goal with A : number v = Some ?q, B : nearest_half_away _ _, C : in_i64 _ |- _ =>
        pose proof (to_i64_number v q z Hok A B C) as E0; rename A into HA end.
      destruct v; cbn in HA; try discriminate HA; cbn [value_meter_update] in E; rewrite E0 in E; eapply Hmark; exact E.
    + cbn [value_meter_update] in E. cbn in Hok. unfold bind at 1 in E.
      rewrite display_fits in E by (assumption || lia).
      assert (0 <= t0 * nanos_in a / nanos_in (vm_display_time_unit vm)).
      { apply Z.div_pos; [|apply nanos_in_pos]. pose proof (nanos_in_pos a). unfold in_u64 in Hok. nia. }
      rewrite wrap_i64_id in E by lia. eapply Hmark; exact E.
  - cbn in Hok. inversion Hv; subst.
    + match goal with A : number v = Some ?q, B : (_ < _)%Q |- _ =>
        pose proof (proj1 (to_int_too_large v q Hok A) B) as E0; rename A into HA end.
      destruct v; cbn in HA; try discriminate HA; cbn [value_meter_update] in E; rewrite E0 in E; steps; auto.
    + cbn in E. steps. auto.
    + cbn in E. steps. auto.
    + cbn in E. steps. auto.
  - cbn in E. steps. auto.
  - cbn in E. steps. auto.
  - cbn in E. steps. auto.
Qed.

Lemma value_meter_upd_metered : forall amount,
  upd_metered value_meter_update amount (fun v => m_inner (vm_meter v)) same_vm (vm_good amount).
Proof.
  intros amount vm u al start t l k c vm' r c' [Hok Hv] Hc Hm Hle E.
  pose proof (value_meter_update_cases _ _ _ _ _ _ _ _ Hok Hv E) as H.
  destruct (amount u) as [n|].
  - destruct H as (m & H1 & -> & _).
    destruct (meter_mark_metered _ _ _ _ _ _ _ _ _ _ Hc Hm Hle H1) as (H2 & -> & Hs).
    split; [right; apply passes_tail|]. split; [split; [exact Hs|reflexivity]|].
    exists (c O). split; [apply Hc|]. split; [apply read_first, passes_tail|exact H2].
  - destruct H as (-> & -> & _). split; [left; reflexivity|].
    split; [split; [apply same_settings_refl|reflexivity]|]. exists t. auto.
Qed.

Lemma value_meter_put_metered :
  put_metered value_meter_put (fun v => m_inner (vm_meter v)) same_vm.
Proof.
  intros vm d into al start t l k c vm' s c' Hc Hm Hle E. unfold value_meter_put in E.
  apply bind_ok in E. destruct E as ([m1 s1] & c1 & E1 & E). steps.
  destruct (meter_put_metered _ _ _ _ _ _ _ _ _ _ _ _ Hc Hm Hle E1) as (A & B & t' & C & D & F & _).
  split; [exact A|]. split; [split; [exact B|reflexivity]|]. eauto.
Qed.

Lemma same_vm_refl : forall v, same_vm v v.
Proof. intros. split; [apply same_settings_refl|reflexivity]. Qed.

Lemma same_vm_trans : forall a b c, same_vm a b -> same_vm b c -> same_vm a c.
Proof.
  intros a b c [A1 A2] [B1 B2]. split; [eapply same_settings_trans; eassumption|congruence].
Qed.

Lemma value_meter_new_inner : forall al name k c v c', value_meter_new al name k c = Ok v c' ->
  meter_new al name k c = Ok (vm_meter v) c' /\ vm_display_time_unit v = time_unit_default.
Proof.
  intros al name k c v c' E. unfold value_meter_new in E.
  apply bind_ok in E. destruct E as (m & c1 & E1 & E). steps. auto.
Qed.

Lemma value_meter_rates : forall al name k c v0 c1 v amount ops v' c2 d v'' s c3,
  monotone c -> value_meter_new al name k c = Ok v0 c1 ->
  m_inner (vm_meter v) = m_inner (vm_meter v0) -> m_descr (vm_meter v) = no_descr ->
  Forall (vm_ops_counted (vm_display_time_unit v) amount) ops ->
  meter_run value_meter_update value_meter_put v ops k c1 = Ok v' c2 ->
  value_meter_put v' d [] k c2 = Ok (v'', s) c3 ->
  exists start l t,
    read_during c c1 start
    /\ metering value_meter_update value_meter_put amount k v c1 ops l v' c2
    /\ read_during c2 c3 t
    /\ s = meter_shows (vm_meter v) al start l t.
Proof.
  intros al name k c v0 c1 v amount ops v' c2 d v'' s c3 Hc E1 Hi Hd Hok E2 E3.
  apply value_meter_new_inner in E1. destruct E1 as [E1 _].
  destruct (meter_new_inner _ _ _ _ _ _ E1) as (-> & H1 & _). rewrite <- Hi in H1.
  assert (Hc1 : monotone (clock_tail (clock_tail c))) by (apply monotone_tail, monotone_tail, Hc).
  assert (Hle : c 1%nat <= clock_tail (clock_tail c) O) by (apply (Hc 1%nat)).
  destruct (history_metered value_meter_update value_meter_put amount (fun v => m_inner (vm_meter v)) same_vm (vm_good amount)
              (value_meter_upd_metered amount) value_meter_put_metered same_vm_refl same_vm_trans
              (vm_good_same amount) ops v al _ _ [] k _ _ _ Hok Hc1 H1 Hle E2)
    as (l & t' & Hmet & Ht' & [j Hj] & Hm' & [Hs _]).
  assert (Hc2 : monotone c2) by (rewrite Hj; apply monotone_iter; assumption).
  unfold value_meter_put in E3. apply bind_ok in E3. destruct E3 as ([m1 s1] & c4 & E3 & E4). steps.
  destruct (meter_put_metered _ _ _ _ _ _ _ _ _ _ _ _ Hc2 Hm' Ht' E3) as (_ & _ & t & Hr & _ & _ & ->).
  exists (c 1%nat), l, t. split.
  - exists 1%nat, 2%nat. split; [lia|]. split; reflexivity.
  - split; [exact Hmet|]. split; [exact Hr|].
    destruct Hs as (Hs1 & Hs2 & Hs3 & Hs4 & Hs5 & Hs6). rewrite app_nil_l. unfold meter_shows.
    rewrite Hs1, Hs2, Hs3, Hs4, Hs5, Hs6, Hd, put_no_descr. reflexivity.
Qed.

Lemma value_meter_rates_at_instants : forall al name k t0 v0 c1 v amount h v' q d v'' s c3,
  value_meter_new al name k (frozen t0) = Ok v0 c1 ->
  m_inner (vm_meter v) = m_inner (vm_meter v0) -> m_descr (vm_meter v) = no_descr ->
  Forall (vm_ops_counted (vm_display_time_unit v) amount) (map snd h) ->
  times_ordered t0 h q ->
  instant_run value_meter_update value_meter_put k v h = Some v' ->
  value_meter_put v' d [] k (frozen q) = Ok (v'', s) c3 ->
  s = meter_shows (vm_meter v) al t0 (instant_marks amount h) q.
Proof.
  intros al name k t0 v0 c1 v amount h v' q d v'' s c3 E1 Hi Hd Hok Hord E2 E3.
  apply value_meter_new_inner in E1. destruct E1 as [E1 _].
  destruct (meter_new_inner _ _ _ _ _ _ E1) as (-> & H1 & _). rewrite <- Hi in H1.
  change (frozen t0 1%nat) with t0 in H1.
  rewrite Forall_map in Hok.
  destruct (instant_metered value_meter_update value_meter_put amount (fun v => m_inner (vm_meter v)) same_vm (vm_good amount)
              (value_meter_upd_metered amount) value_meter_put_metered same_vm_refl same_vm_trans
              (vm_good_same amount) h v al _ _ [] q k _ Hok Hord H1 E2)
    as (t' & Ht' & Hm' & [Hs _]).
  unfold value_meter_put in E3. apply bind_ok in E3. destruct E3 as ([m1 s1] & c4 & E3 & E4). steps.
  destruct (meter_put_metered _ _ _ _ _ _ _ _ _ _ _ _ (frozen_monotone q) Hm' Ht' E3) as (_ & _ & t & Hr & _ & _ & ->).
  destruct Hr as (i & j & _ & _ & ->). change (frozen q i) with q.
  destruct Hs as (Hs1 & Hs2 & Hs3 & Hs4 & Hs5 & Hs6). rewrite app_nil_l. unfold meter_shows.
  rewrite Hs1, Hs2, Hs3, Hs4, Hs5, Hs6, Hd, put_no_descr. reflexivity.
Qed.

(** Every value is reported as one update, nothing else as any. *)
Lemma value_meter_reports : forall amount vm u k c vm' r c',
  vm_good amount vm u -> value_meter_update vm u k c = Ok (vm', r) c' ->
  r = match amount u with Some _ => 1 | None => 0 end.
Proof.
  intros amount vm u k c vm' r c' [Hok Hv] E.
  pose proof (value_meter_update_cases _ _ _ _ _ _ _ _ Hok Hv E) as H.
  destruct (amount u); [destruct H as (m & _ & _ & ->)|destruct H as (_ & _ & ->)]; reflexivity.
Qed.

Lemma value_meter_run_count : forall ops amount v k c v' c',
  Forall (vm_ops_counted (vm_display_time_unit v) amount) ops -> in_i64 (sm_count (m_inner (vm_meter v))) ->
  meter_run value_meter_update value_meter_put v ops k c = Ok v' c' ->
  sm_count (m_inner (vm_meter v')) = wrap_i64 (sm_count (m_inner (vm_meter v)) + sum (amounts amount ops))
  /\ same_vm v v'.
Proof.
  induction ops as [|o ops IH]; intros amount v k c v' c' Hok Hin E.
  - cbn in *. steps. rewrite Z.add_0_r. split; [symmetry; apply wrap_i64_id; exact Hin|apply same_vm_refl].
  - inversion Hok as [|? ? Hok1 Hok2]; subst.
    destruct o as [u|d]; cbn [meter_run] in E; apply bind_ok in E; destruct E as ([v1 r] & c1 & E1 & E).
    + destruct Hok1 as [Hok1 Hv].
      pose proof (value_meter_update_cases _ _ _ _ _ _ _ _ Hok1 Hv E1) as H.
      unfold amounts. cbn [flat_map]. destruct (amount u) as [n|] eqn:Ea.
      * destruct H as (m & H1 & -> & _). apply meter_mark_count in H1. destruct H1 as (Hc & Hs & _).
        destruct (fun H => IH amount (ValueMeter m (vm_display_time_unit v)) _ _ _ _ Hok2 H E) as (Hc2 & Hs2).
        { cbn [vm_meter]. rewrite Hc. apply wrap_i64_range. }
        split; [|refine (same_vm_trans _ _ _ (conj _ _) Hs2); [exact Hs|reflexivity]].
        rewrite Hc2. cbn [vm_meter]. rewrite Hc, wrap_i64_add_l. f_equal.
        rewrite sum_app. cbn [sum]. unfold amounts. lia.
      * destruct H as (-> & -> & _). exact (IH amount _ _ _ _ _ Hok2 Hin E).
    + unfold value_meter_put in E1. apply bind_ok in E1. destruct E1 as ([m1 s1] & c4 & E1 & E4). steps.
      destruct (meter_put_shape _ _ _ _ _ _ _ _ E1) as (_ & Hc & Hs).
      destruct (fun H => IH amount (ValueMeter m1 (vm_display_time_unit v)) _ _ _ _ Hok2 H E) as (Hc2 & Hs2).
      { cbn [vm_meter]. rewrite Hc. exact Hin. }
      split; [|refine (same_vm_trans _ _ _ (conj _ _) Hs2); [exact Hs|reflexivity]].
      rewrite Hc2. cbn [vm_meter]. rewrite Hc. reflexivity.
Qed.

Lemma value_meter_counts : forall al name k c v c1 ops amount v' c2 d v'' s c3,
  value_meter_new al name k c = Ok v c1 ->
  Forall (vm_ops_counted (vm_display_time_unit v) amount) ops ->
  meter_run value_meter_update value_meter_put v ops k c1 = Ok v' c2 ->
  value_meter_put v' d [] k c2 = Ok (v'', s) c3 ->
  exists rates, s = [(name, ItemSnapshot (("count"%string, UInt (sum (amounts amount ops) mod two64)) :: rates))].
Proof.
  intros al name k c v c1 ops amount v' c2 d v'' s c3 E1 Hok E2 E3.
  apply value_meter_new_inner in E1. destruct E1 as [E1 _].
  destruct (meter_new_inner _ _ _ _ _ _ E1) as (_ & _ & Hn & Hd & _ & _ & _ & _ & H0).
  destruct (value_meter_run_count _ _ _ _ _ _ _ Hok ltac:(rewrite H0; split; discriminate) E2) as (Hc & [Hs _]).
  unfold value_meter_put in E3. apply bind_ok in E3. destruct E3 as ([m1 s1] & c4 & E3 & E4). steps.
  destruct (meter_put_shape _ _ _ _ _ _ _ _ E3) as (-> & _ & _).
  destruct Hs as (Hn' & Hd' & _). rewrite Hn', Hd', Hd, Hc, H0. cbn [Z.add].
  unfold meter_items. fold (wrap_u64 (wrap_i64 (sum (amounts amount ops)))).
  rewrite wrap_u64_i64, put_no_descr, app_nil_l. eexists. reflexivity.
Qed.
