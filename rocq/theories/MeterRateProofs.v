(** The range of the rates of a meter. *)
From Coq Require Import ZArith QArith Bool String List Lia ZifyBool Reals Lra Floats.SpecFloat.
From Flocq Require Import Core BinarySingleNaN.
From Verif Require Import Base SpecRun SpecCounting SpecGauge SpecObservation SpecMeter MonadFacts
  ModelObservation ModelSnapshot ModelMeter FloatReal EwmaProofs
  MeterProofs MeterHistoryProofs.
Import ListNotations.
Open Scope R_scope.

Lemma factor_alpha : forall a, smoothing_factor a -> is_alpha a.
Proof.
  intros a (Hv & H0 & Hh).
  assert (Hg : good a).
  { split; [exact Hv|]. destruct a as [s|s| |s m e]; try reflexivity; try destruct s; discriminate. }
  split; [exact Hg|]. split.
  - apply (leb_real f64_zero a) in H0; [exact H0|split; reflexivity|exact Hg].
  - apply (leb_real a (S754_finite false 4503599627370496 (-53))) in Hh; [|exact Hg|split; reflexivity].
    replace (1 / 2) with (real (S754_finite false 4503599627370496 (-53))); [exact Hh|].
    unfold real, SF2R, F2R, cond_Zopp. cbn [Fnum Fexp].
    change 4503599627370496%Z with (2 ^ 52)%Z. change (IZR (2 ^ 52)) with (bpow radix2 52).
    rewrite <- bpow_plus. cbn. lra.
Qed.

Lemma good_finite : forall f, good f -> finite f = true.
Proof. intros f [_ H]. destruct f; exact H. Qed.

Lemma counts_u64 : forall start l t, Forall (fun n => 0 <= n < two64)%Z (complete_intervals start l t).
Proof.
  intros. apply Forall_map. apply Forall_forall. intros i _. apply Z.mod_pos_bound. reflexivity.
Qed.

Lemma rate_at_good : forall a start l t, is_alpha a ->
  good (rate_at a start l t) /\ 0 <= real (rate_at a start l t).
Proof.
  intros a start l t Ha. destruct (smoothed_good a _ Ha (counts_u64 start l t)) as [G H].
  destruct (per_second_real _ G H) as (G2 & _ & H2). auto.
Qed.

Lemma interval_per_second_good : forall n, (0 <= n < two64)%Z ->
  good (interval_per_second n) /\ 0 <= real (interval_per_second n).
Proof.
  intros n Hn. destruct (interval_rate_real n Hn) as (G & _ & H & _).
  destruct (per_second_real _ G H) as (G2 & _ & H2). auto.
Qed.

Lemma counts_bounds : forall start l t lo hi,
  (forall i, 0 <= i < interval5 start t -> lo <= marked_in start l i mod two64 <= hi)%Z ->
  counts_in lo hi (complete_intervals start l t).
Proof.
  intros start l t lo hi H. apply Forall_map. apply Forall_forall. intros i Hi. apply in_seq in Hi. apply H. lia.
Qed.

Lemma rate_at_between : forall a start l t lo hi, is_alpha a -> (0 <= lo)%Z -> (hi < two64)%Z ->
  (1 <= interval5 start t)%Z ->
  (forall i, 0 <= i < interval5 start t -> lo <= marked_in start l i mod two64 <= hi)%Z ->
  real (interval_per_second lo) <= real (rate_at a start l t) <= real (interval_per_second hi).
Proof.
  intros a start l t lo hi Ha Hlo Hhi Ht H.
  assert (Hlh : (lo <= hi)%Z) by (specialize (H 0%Z ltac:(lia)); lia).
  destruct (smoothed_between a lo hi (complete_intervals start l t) Ha Hlo Hhi) as [G Hr].
  - intros E. apply (f_equal (@List.length Z)) in E. unfold complete_intervals in E.
    rewrite map_length, seq_length in E. cbn in E. lia.
  - apply counts_bounds. exact H.
  - destruct (interval_rate_real lo ltac:(lia)) as (G1 & _ & H1 & _).
    destruct (interval_rate_real hi ltac:(lia)) as (G2 & _ & H2 & _).
    split; apply per_second_mono; auto; lra.
Qed.

Lemma rate_in_range : forall a start l t, smoothing_factor a ->
  finite (rate_at a start l t) = true /\ SFleb f64_zero (rate_at a start l t) = true.
Proof.
  intros a start l t Ha. apply factor_alpha in Ha. destruct (rate_at_good a start l t Ha) as [G H].
  split; [apply good_finite, G|]. apply (leb_real f64_zero _); [split; reflexivity|exact G|exact H].
Qed.

Lemma rate_within_intervals : forall a start l t lo hi, smoothing_factor a -> (0 <= lo)%Z -> (hi < two64)%Z ->
  (start + 5000000000 <= t)%Z ->
  (forall i, 0 <= i < interval5 start t -> lo <= marked_in start l i mod two64 <= hi)%Z ->
  SFleb (interval_per_second lo) (rate_at a start l t) = true
  /\ SFleb (rate_at a start l t) (interval_per_second hi) = true.
Proof.
  intros a start l t lo hi Ha Hlo Hhi Ht H. apply factor_alpha in Ha.
  assert (H1 : (1 <= interval5 start t)%Z).
  { unfold interval5. apply Z.div_le_lower_bound; lia. }
  assert (Hlh : (lo <= hi)%Z) by (specialize (H 0%Z ltac:(lia)); lia).
  pose proof (rate_at_between a start l t lo hi Ha Hlo Hhi H1 H) as [A B].
  destruct (rate_at_good a start l t Ha) as [G _].
  destruct (interval_per_second_good lo ltac:(lia)) as [G1 _].
  destruct (interval_per_second_good hi ltac:(lia)) as [G2 _].
  split; [apply (leb_real _ _ G1 G), A|apply (leb_real _ _ G G2), B].
Qed.

Lemma rate_quiet : forall a start l t t', is_alpha a -> (start <= t <= t')%Z ->
  (forall i, interval5 start t <= i < interval5 start t' -> marked_in start l i mod two64 = 0)%Z ->
  real (rate_at a start l t') <= real (rate_at a start l t).
Proof.
  intros a start l t t' Ha Ht H.
  pose proof (interval5_mono start t t' ltac:(lia)) as Hm. pose proof (interval5_nonneg start t ltac:(lia)) as H0.
  assert (E : complete_intervals start l t'
              = complete_intervals start l t ++ repeat 0%Z (Z.to_nat (interval5 start t' - interval5 start t))).
  { unfold complete_intervals.
    replace (Z.to_nat (interval5 start t'))
      with (Z.to_nat (interval5 start t) + Z.to_nat (interval5 start t' - interval5 start t))%nat by lia.
    rewrite seq_app, map_app. f_equal.
    assert (Hz : forall n k, (Z.to_nat (interval5 start t) <= k)%nat -> (k + n <= Z.to_nat (interval5 start t'))%nat ->
      map (fun i => (marked_in start l (Z.of_nat i) mod two64)%Z) (seq k n) = repeat 0%Z n).
    { induction n as [|n IH]; intros k Hk Hkn; [reflexivity|]. cbn [seq map repeat]. f_equal.
      - apply H. lia.
      - apply IH; lia. }
    apply Hz; lia. }
  destruct (smoothed_good a _ Ha (counts_u64 start l t)) as [G1 H1].
  destruct (smoothed_good a _ Ha (counts_u64 start l t')) as [G2 H2].
  apply per_second_mono; auto; try lra. split; [|lra].
  rewrite E. apply smoothed_quiet; [exact Ha|apply counts_u64].
Qed.

Lemma rate_decays : forall a start l t t', smoothing_factor a -> (start <= t <= t')%Z ->
  (forall i, interval5 start t <= i < interval5 start t' -> marked_in start l i mod two64 = 0)%Z ->
  SFleb (rate_at a start l t') (rate_at a start l t) = true.
Proof.
  intros a start l t t' Ha Ht H. apply factor_alpha in Ha.
  destruct (rate_at_good a start l t Ha) as [G _]. destruct (rate_at_good a start l t' Ha) as [G' _].
  apply (leb_real _ _ G' G). apply rate_quiet; assumption.
Qed.

(** ** What is shown *)

Lemma shown_good : forall c r, good r -> 0 <= real r ->
  good (shown_rate c r) /\ 0 <= real (shown_rate c r) <= real r.
Proof.
  intros c r G H. unfold shown_rate. destruct (SFltb r c).
  - split; [split; reflexivity|]. unfold real at 1 2. cbn. lra.
  - split; [exact G|lra].
Qed.

Lemma shown_acceptable : forall a start l t hi c, smoothing_factor a -> (0 <= hi < two64)%Z -> (start <= t)%Z ->
  (forall i, 0 <= marked_in start l i <= hi)%Z ->
  acceptable hi (shown_rate c (rate_at a start l t)).
Proof.
  intros a start l t hi c Ha Hhi Ht H. apply factor_alpha in Ha.
  destruct (rate_at_good a start l t Ha) as [G H0].
  destruct (interval_per_second_good hi Hhi) as [G2 H2].
  assert (Hle : real (rate_at a start l t) <= real (interval_per_second hi)).
  { destruct (Z.eq_dec (interval5 start t) 0) as [E|E].
    - unfold rate_at, complete_intervals. rewrite E. cbn [Z.to_nat seq map smoothed].
      destruct (per_second_real f64_zero) as (_ & E2 & _); [split; reflexivity|unfold real; cbn; lra|].
      unfold per_second in E2. rewrite E2. unfold real at 1. cbn [SF2R f64_zero]. rewrite Rmult_0_l, RN_0. exact H2.
    - apply (rate_at_between a start l t 0 hi); auto; try lia.
      + pose proof (interval5_nonneg start t Ht). lia.
      + intros i _. specialize (H i). rewrite Z.mod_small by lia. exact H. }
  destruct (shown_good c _ G H0) as [G3 H3].
  split; [apply good_finite, G3|]. split.
  - apply (leb_real f64_zero _); [split; reflexivity|exact G3|]. exact (proj1 H3).
  - apply (leb_real _ _ G3 G2). lra.
Qed.

Lemma marked_in_nonneg : forall start l i, Forall (fun e => 0 <= snd e)%Z l -> (0 <= marked_in start l i)%Z.
Proof.
  intros start l i H. unfold marked_in. apply sum_nonneg. apply Forall_map. apply Forall_forall.
  intros e He. apply filter_In in He. rewrite Forall_forall in H. apply H, He.
Qed.

Lemma meter_marks_nonneg : forall h, Forall (fun e => 0 <= snd e)%Z (instant_marks meter_amount h).
Proof.
  induction h as [|[t [u|d]] h IH]; cbn; [constructor|..].
  - apply Forall_app. split; [|exact IH]. destruct u as [n ts|ts|v ts]; cbn.
    + destruct ((0 <? n) && (n <=? i64_max))%Z eqn:E; constructor; [cbn; lia|constructor].
    + constructor; [cbn; lia|constructor].
    + constructor; [cbn; lia|constructor].
  - exact IH.
Qed.

Lemma times_ordered_le : forall h t q, times_ordered t h q -> (t <= q)%Z.
Proof. induction 1; lia. Qed.

Lemma meter_rates_range : forall al name k t0 m0 c1 m h m' q d m'' s c3 hi,
  meter_new al name k (frozen t0) = Ok m0 c1 ->
  m_inner m = m_inner m0 -> m_descr m = no_descr ->
  ops_ok (map snd h) -> times_ordered t0 h q ->
  instant_run meter_update meter_put k m h = Some m' ->
  meter_put m' d [] k (frozen q) = Ok (m'', s) c3 ->
  smoothing_factors al -> (0 <= hi < two64)%Z ->
  (forall i, marked_in t0 (instant_marks meter_amount h) i <= hi)%Z ->
  exists n r1 r5 r15,
    s = meter_items (m_name m) n (window_item (m_one_minute m) "one_minute" r1)
          (window_item (m_five_minute m) "five_minutes" r5)
          (window_item (m_fifteen_minute m) "fifteen_minutes" r15)
    /\ Forall (acceptable hi) [r1; r5; r15].
Proof.
  intros al name k t0 m0 c1 m h m' q d m'' s c3 hi E1 Hi Hd Hok Hord R P (A1 & A5 & A15) Hhi H.
  rewrite (meter_rates_at_instants _ _ _ _ _ _ _ _ _ _ _ _ _ _ E1 Hi Hd Hok Hord R P).
  assert (Hb : forall i, (0 <= marked_in t0 (instant_marks meter_amount h) i <= hi)%Z).
  { intros i. split; [apply marked_in_nonneg, meter_marks_nonneg|apply H]. }
  pose proof (times_ordered_le _ _ _ Hord) as Hq.
  eexists _, _, _, _. split; [reflexivity|].
  repeat apply Forall_cons; try apply Forall_nil; apply shown_acceptable; assumption.
Qed.

Lemma shown_mono : forall c r r', f64_valid c = true -> good r -> good r' -> 0 <= real r' <= real r ->
  SFleb (shown_rate c r') (shown_rate c r) = true.
Proof.
  intros c r r' Hv G G' H. unfold shown_rate.
  assert (Hz : good f64_zero) by (split; reflexivity).
  destruct (SFltb r' c) eqn:E'; destruct (SFltb r c) eqn:E.
  - reflexivity.
  - apply (leb_real _ _ Hz G). change (real f64_zero) with 0. lra.
  - (* a smaller rate would have been cut as well *)
    exfalso. destruct c as [s|s| |s m e].
    + assert (Hc : good (S754_zero s)) by (split; reflexivity).
      apply (ltb_real _ _ G Hc) in E.
      assert (Ht : f64_ltb r' (S754_zero s) = true) by (apply (ltb_real _ _ G' Hc); lra).
      unfold f64_ltb in Ht. congruence.
    + destruct G' as [_ G']. destruct G as [_ G].
      destruct s; destruct r as [sr|sr| |sr mr er]; destruct r' as [s1|s1| |s1 m1 e1];
        try destruct sr; try destruct s1; cbn in *; congruence.
    + destruct r as [sr|sr| |sr mr er]; try destruct sr; discriminate E.
    + assert (Hc : good (S754_finite s m e)) by (split; [exact Hv|reflexivity]).
      apply (ltb_real _ _ G Hc) in E.
      assert (Ht : f64_ltb r' (S754_finite s m e) = true) by (apply (ltb_real _ _ G' Hc); lra).
      unfold f64_ltb in Ht. congruence.
  - apply (leb_real _ _ G' G). lra.
Qed.

Lemma marked_in_none : forall start l i, (forall e, In e l -> interval5 start (fst e) <> i) -> marked_in start l i = 0%Z.
Proof.
  intros start l i H. unfold marked_in. induction l as [|e l IH]; [reflexivity|]. cbn [filter].
  destruct (Z.eqb_spec (interval5 start (fst e)) i) as [E|E].
  - exfalso. apply (H e); [left; reflexivity|exact E].
  - apply IH. intros e' He'. apply H. right. exact He'.
Qed.

(** Two snapshots after the last interval with events. *)
Lemma meter_rates_decay : forall al name k t0 m0 c1 m h m' q d m'' s c2 q' d' m3 s' c3 snaps m4,
  meter_new al name k (frozen t0) = Ok m0 c1 ->
  m_inner m = m_inner m0 -> m_descr m = no_descr -> f64_valid (m_lower_cutoff m) = true ->
  ops_ok (map snd h) -> times_ordered t0 h q ->
  instant_run meter_update meter_put k m h = Some m' ->
  meter_put m' d [] k (frozen q) = Ok (m'', s) c2 ->
  (forall to, In to snaps -> is_update to = false) -> times_ordered q snaps q' ->
  instant_run meter_update meter_put k m'' snaps = Some m3 ->
  meter_put m3 d' [] k (frozen q') = Ok (m4, s') c3 ->
  smoothing_factors al ->
  (forall e, In e (instant_marks meter_amount h) -> interval5 t0 (fst e) < interval5 t0 q)%Z ->
  exists n r1 r5 r15 r1' r5' r15',
    let shows one five fifteen :=
      meter_items (m_name m) n (window_item (m_one_minute m) "one_minute" one)
        (window_item (m_five_minute m) "five_minutes" five)
        (window_item (m_fifteen_minute m) "fifteen_minutes" fifteen) in
    s = shows r1 r5 r15 /\ s' = shows r1' r5' r15'
    /\ SFleb r1' r1 = true /\ SFleb r5' r5 = true /\ SFleb r15' r15 = true.
Proof.
  intros al name k t0 m0 c1 m h m' q d m'' s c2 q' d' m3 s' c3 snaps m4
    E1 Hi Hd Hcut Hok Hord R P Hsn Hord' R' P' (A1 & A5 & A15) Hlast.
  rewrite (meter_rates_at_instants _ _ _ _ _ _ _ _ _ _ _ _ _ _ E1 Hi Hd Hok Hord R P).
  pose (h2 := h ++ (q, MSnapshot d) :: snaps).
  assert (R2 : instant_run meter_update meter_put k m h2 = Some m3).
  { subst h2. clear - R P R'. revert m R. induction h as [|[t o] h IH]; intros m R.
    - cbn in R. injection R as ->. cbn [app instant_run meter_run]. unfold bind. rewrite P. exact R'.
    - cbn [app instant_run] in *. destruct (meter_run meter_update meter_put m [o] k (frozen t)); try discriminate R.
      apply IH. exact R. }
  assert (Hok2 : ops_ok (map snd h2)).
  { subst h2. rewrite map_app. apply Forall_app. split; [exact Hok|]. cbn. constructor; [exact I|].
    apply Forall_map, Forall_forall. intros [t o] Hin. apply Hsn in Hin. destruct o; [discriminate Hin|exact I]. }
  assert (Hord2 : times_ordered t0 h2 q').
  { subst h2. clear - Hord Hord'. induction Hord as [t q H|t t' o h q H _ IH].
    - cbn. constructor; assumption.
    - cbn. constructor; [exact H|]. apply IH. exact Hord'. }
  assert (Hmarks : instant_marks meter_amount h2 = instant_marks meter_amount h).
  { subst h2. unfold instant_marks. rewrite flat_map_app. cbn [flat_map snd app].
    rewrite <- (app_nil_r (flat_map _ h)) at 2. f_equal.
    clear - Hsn. induction snaps as [|[t o] l IH]; [reflexivity|]. cbn [flat_map snd].
    rewrite IH by (intros; apply Hsn; right; assumption).
    specialize (Hsn (t, o) (or_introl eq_refl)). destruct o; [discriminate Hsn|reflexivity]. }
  rewrite (meter_rates_at_instants _ _ _ _ _ _ _ _ _ _ _ _ _ _ E1 Hi Hd Hok2 Hord2 R2 P'), Hmarks.
  pose proof (times_ordered_le _ _ _ Hord) as Hq. pose proof (times_ordered_le _ _ _ Hord') as Hq'.
  eexists _, _, _, _, _, _, _. cbv zeta. split; [reflexivity|]. split; [reflexivity|].
  assert (Hall : forall a, smoothing_factor a ->
    SFleb (shown_rate (m_lower_cutoff m) (rate_at a t0 (instant_marks meter_amount h) q'))
          (shown_rate (m_lower_cutoff m) (rate_at a t0 (instant_marks meter_amount h) q)) = true).
  { intros a Ha. apply factor_alpha in Ha.
    destruct (rate_at_good a t0 (instant_marks meter_amount h) q Ha) as [G _].
    destruct (rate_at_good a t0 (instant_marks meter_amount h) q' Ha) as [G' H0].
    apply shown_mono; auto. split; [exact H0|]. apply rate_quiet; [exact Ha|lia|].
    intros i Hr. rewrite marked_in_none; [reflexivity|]. intros e He. apply Hlast in He. lia. }
  auto.
Qed.
