(** The rates a meter shows against the exact moving average. *)
From Coq Require Import ZArith Bool String List Lia Reals Lra Floats.SpecFloat.
From Flocq Require Import Core BinarySingleNaN.
From Verif Require Import Base SpecRun SpecCounting SpecGauge SpecObservation SpecMeter SpecAverage
  ModelObservation ModelSnapshot ModelMeter FloatReal EwmaProofs RatioProofs
  MeterProofs MeterHistoryProofs MeterRateProofs AverageProofs.
Import ListNotations.
Open Scope R_scope.

Lemma averaged_scale : forall a c l, averaged a (map (Rmult c) l) = c * averaged a l.
Proof.
  intros a c l. induction l as [|x l IH]; [cbn; lra|]. destruct l as [|y l]; [reflexivity|].
  change (map (Rmult c) (x :: y :: l)) with (c * x :: map (Rmult c) (y :: l)).
  rewrite (averaged_cons a (c * x)), (averaged_cons a x) by discriminate. rewrite IH. ring.
Qed.

Lemma averaged_range : forall a b l, 0 <= a <= 1 -> 0 <= b -> Forall (fun x => 0 <= x <= b) l -> 0 <= averaged a l <= b.
Proof.
  intros a b l Ha Hb. induction 1 as [|x l Hx Hl IH]; [cbn; lra|]. destruct l as [|y l]; [exact Hx|].
  rewrite averaged_cons by discriminate. nra.
Qed.

(** A constant load *)
Lemma averaged_steady : forall a x l n, l <> [] -> averaged a (repeat x n ++ l) - x = (1 - a) ^ n * (averaged a l - x).
Proof.
  intros a x l n Hl. induction n as [|n IH]; [cbn; lra|]. cbn [repeat app].
  rewrite averaged_cons by (intros H; apply app_eq_nil in H; destruct H; contradiction).
  cbn [pow]. rewrite Rmult_assoc, <- IH. ring.
Qed.

Lemma loads_events : forall start l t, (forall i, 0 <= marked_in start l i < two64)%Z ->
  loads start l t = map (Rmult 1000000000) (rev (map (fun n => events n) (complete_intervals start l t))).
Proof.
  intros start l t H. unfold loads, complete_intervals. rewrite map_map, <- map_rev, map_map.
  apply map_ext. intros i. rewrite Z.mod_small by apply H. field.
Qed.

Lemma rate_close : forall a start l t hi, is_alpha a -> 0 < real a -> (0 <= hi < two64)%Z ->
  (forall i, 0 <= marked_in start l i <= hi)%Z ->
  Rabs (real (rate_at a start l t) - averaged (real a) (loads start l t)) <= tolerance (real a) hi.
Proof.
  intros a start l t hi Ha Hp Hhi H. pose proof Ha as [_ Hr].
  rewrite loads_events by (intros i; specialize (H i); lia). rewrite averaged_scale. unfold rate_at.
  assert (Hc : counts_in 0 hi (complete_intervals start l t)).
  { apply counts_bounds. intros i _. specialize (H i). rewrite Z.mod_small by lia. exact H. }
  destruct (smoothed_good a _ Ha (counts_u64 start l t)) as [G H32].
  destruct (per_second_real _ G H32) as (_ & E & _). unfold per_second in E. rewrite E. clear E.
  set (cs := complete_intervals start l t) in *.
  assert (T0 : 0 <= tolerance (real a) hi).
  { unfold tolerance. apply Rmult_le_pos; [|left; apply Rinv_0_lt_compat; lra].
    apply Rmult_le_pos; [|left; apply Rinv_0_lt_compat, pow_lt; lra].
    apply Rmult_le_pos; [apply IZR_le; lia|lra]. }
  destruct cs as [|c0 cs'] eqn:Ecs.
  { cbn [map rev averaged smoothed]. unfold real at 1. cbn [SF2R f64_zero]. rewrite Rmult_0_l, RN_0, Rmult_0_r, Rminus_0_r, Rabs_R0. exact T0. }
  rewrite <- Ecs in *. assert (Hne : cs <> []) by (rewrite Ecs; discriminate). clear Ecs c0 cs'.
  destruct (Z.eq_dec hi 0) as [->|Hz].
  - destruct (smoothed_between a 0 0 cs Ha ltac:(lia) ltac:(lia) Hne Hc) as [_ Hs]. rewrite interval_rate_0 in Hs.
    assert (real (smoothed a cs) = 0) as -> by lra. rewrite Rmult_0_l, RN_0.
    assert (Z0 : 0 <= averaged (real a) (rev (map (fun n => events n) cs)) <= 0).
    { apply averaged_range; [lra|lra|]. apply Forall_rev, Forall_map. eapply Forall_impl; [|exact Hc]. cbv beta.
      intros n Hn. assert (n = 0%Z) as -> by lia. unfold Rdiv. lra. }
    assert (averaged (real a) (rev (map (fun n => events n) cs)) = 0) as -> by lra.
    rewrite Rmult_0_r, Rminus_0_r, Rabs_R0. exact T0.
  - pose proof (smoothed_close a hi Ha Hp ltac:(lia) cs Hne Hc) as C.
    destruct (smoothed_between a 0 hi cs Ha ltac:(lia) ltac:(lia) Hne Hc) as [_ Hs]. rewrite interval_rate_0 in Hs.
    pose proof (interval_error hi ltac:(lia)) as I. apply Rabs_le_inv in I.
    pose proof small_pos as U. pose proof (bpow_gt_0 radix2 (-53)) as U0.
    pose proof (events_low hi ltac:(lia)) as M1.
    pose proof (events_pos hi ltac:(lia)) as M0.
    assert (EM : IZR hi / 5 = 1000000000 * events hi) by field.
    unfold tolerance. rewrite EM. clear EM.
    set (M := events hi) in *. set (r := real (smoothed a cs)) in *.
    set (A := averaged (real a) (rev (map (fun n => events n) cs))) in *.
    assert (UM : 0 <= u * M) by (apply Rmult_le_pos; lra).
    assert (HB : r <= 11 / 10 * M) by nra.
    pose proof (RN_abs (r * IZR second)) as R1. rewrite (Rabs_pos_eq (r * IZR second)) in R1 by nra.
    assert (T : 100 * eta <= u * M).
    { apply tiny. refine (Rle_trans _ _ _ _ M1). apply bpow_le. lia. }
    assert (W : 1 <= / real a / 2).
    { apply Rmult_le_reg_r with (real a); [exact Hp|]. replace (/ real a / 2 * real a) with (1 / 2) by (field; lra). lra. }
    replace (RN (r * IZR second) - 1000000000 * A) with ((RN (r * IZR second) - r * IZR second) + 1000000000 * (r - A)) by lra.
    refine (Rle_trans _ _ _ (Rabs_triang _ _) _).
    rewrite Rabs_mult, (Rabs_pos_eq 1000000000) by lra.
    assert (P50 : 1000000000 * M / 2 ^ 50 / real a = 8000000000 * (u * M) * / real a).
    { change u with (/ IZR (8 * 2 ^ 50)). rewrite mult_IZR.
      change (IZR (2 ^ 50)) with (IZR (2 ^ Z.of_nat 50)). rewrite <- pow_IZR.
      assert (0 < 2 ^ 50) by (apply pow_lt; lra). set (p := 2 ^ 50) in *. field. lra. }
    rewrite P50. unfold Rdiv in C.
    set (w := / real a) in *. set (x := u * M) in *.
    assert (C2 : Rabs (r - A) <= 7 * x * w) by (unfold x; lra).
    assert (R2 : u * (r * IZR second) <= 1100000000 * x) by (unfold x; nra).
    assert (xw : x <= x * w / 2) by nra.
    lra.
Qed.

Lemma rate_converges : forall a start l t hi c n, is_alpha a -> 0 < real a -> (0 <= hi < two64)%Z ->
  (forall i, 0 <= marked_in start l i <= hi)%Z ->
  (Z.of_nat n < interval5 start t)%Z ->
  (forall i, interval5 start t - Z.of_nat n <= i < interval5 start t -> marked_in start l i = c)%Z ->
  (0 <= c <= hi)%Z ->
  Rabs (real (rate_at a start l t) - IZR c / 5) <= (1 - real a) ^ n * (IZR hi / 5) + tolerance (real a) hi.
Proof.
  intros a start l t hi c n Ha Hp Hhi H Hn Hc Hch. pose proof Ha as [_ Hr].
  pose proof (rate_close a start l t hi Ha Hp Hhi H) as C.
  set (k := (Z.to_nat (interval5 start t) - n)%nat).
  set (x := IZR c / 5) in *.
  set (older := map (fun i => IZR (marked_in start l (Z.of_nat i)) / 5) (rev (seq 0 k))).
  assert (E : loads start l t = repeat x n ++ older).
  { unfold loads, older. replace (Z.to_nat (interval5 start t)) with (k + n)%nat by lia.
    rewrite seq_app, rev_app_distr, map_app. f_equal. cbn [plus].
    assert (Hk : forall m j, (k <= j)%nat -> (j + m <= k + n)%nat ->
      map (fun i => IZR (marked_in start l (Z.of_nat i)) / 5) (seq j m) = repeat x m).
    { induction m as [|m IH]; intros j Hj Hm; [reflexivity|]. cbn [seq map repeat]. rewrite Hc by lia. f_equal. apply IH; lia. }
    rewrite map_rev, Hk by lia. clear. induction n as [|n IH]; [reflexivity|].
    cbn [repeat rev]. rewrite IH, <- repeat_cons. reflexivity. }
  rewrite E in C.
  assert (No : older <> []).
  { unfold older. intros Q. apply (f_equal (@List.length R)) in Q. rewrite map_length, rev_length, seq_length in Q. cbn in Q. lia. }
  pose proof (averaged_steady (real a) x older n No) as S.
  assert (H0 : 0 <= x <= IZR hi / 5).
  { pose proof (IZR_le 0 c ltac:(lia)). pose proof (IZR_le c hi ltac:(lia)). unfold x. lra. }
  assert (R0 : 0 <= averaged (real a) older <= IZR hi / 5).
  { apply averaged_range; [lra|lra|]. apply Forall_map. apply Forall_forall. intros i _.
    pose proof (H (Z.of_nat i)) as B. pose proof (IZR_le _ _ (proj1 B)). pose proof (IZR_le _ _ (proj2 B)). lra. }
  set (f := real (rate_at a start l t)) in *. set (A := averaged (real a) (repeat x n ++ older)) in *.
  replace (f - x) with ((A - x) + (f - A)) by ring.
  refine (Rle_trans _ _ _ (Rabs_triang _ _) _). apply Rplus_le_compat; [|exact C].
  rewrite S, Rabs_mult. assert (P : 0 <= (1 - real a) ^ n) by (apply pow_le; lra). rewrite (Rabs_pos_eq _ P).
  apply Rmult_le_compat_l; [exact P|]. apply Rabs_le. lra.
Qed.

(** A smoothing factor that is not zero *)
Lemma factor_pos : forall a, smoothing_factor a -> SFltb f64_zero a = true -> is_alpha a /\ 0 < real a.
Proof.
  intros a Ha Hp. apply factor_alpha in Ha. split; [exact Ha|]. destruct Ha as [G _].
  apply (ltb_real f64_zero a) in Hp; [exact Hp|split; reflexivity|exact G].
Qed.

Lemma meter_averages : forall al name k t0 m0 c1 m h m' q d m'' s c3 hi,
  meter_new al name k (frozen t0) = Ok m0 c1 ->
  m_inner m = m_inner m0 -> m_descr m = no_descr ->
  ops_ok (map snd h) -> times_ordered t0 h q ->
  instant_run meter_update meter_put k m h = Some m' ->
  meter_put m' d [] k (frozen q) = Ok (m'', s) c3 ->
  smoothing_factors al -> positive_factors al -> (0 <= hi < two64)%Z ->
  (forall i, marked_in t0 (instant_marks meter_amount h) i <= hi)%Z ->
  let about a r := Rabs (real r - averaged (real a) (loads t0 (instant_marks meter_amount h) q)) <= tolerance (real a) hi in
  exists n r1 r5 r15,
    s = meter_items (m_name m) n
          (window_item (m_one_minute m) "one_minute" (shown_rate (m_lower_cutoff m) r1))
          (window_item (m_five_minute m) "five_minutes" (shown_rate (m_lower_cutoff m) r5))
          (window_item (m_fifteen_minute m) "fifteen_minutes" (shown_rate (m_lower_cutoff m) r15))
    /\ Forall (fun r => finite r = true) [r1; r5; r15]
    /\ about (alpha1 al) r1 /\ about (alpha5 al) r5 /\ about (alpha15 al) r15.
Proof.
  intros al name k t0 m0 c1 m h m' q d m'' s c3 hi E1 Hi Hd Hok Hord R P (A1 & A5 & A15) (P1 & P5 & P15) Hhi H about.
  rewrite (meter_rates_at_instants _ _ _ _ _ _ _ _ _ _ _ _ _ _ E1 Hi Hd Hok Hord R P).
  assert (Hb : forall i, (0 <= marked_in t0 (instant_marks meter_amount h) i <= hi)%Z).
  { intros i. split; [apply marked_in_nonneg, meter_marks_nonneg|apply H]. }
  destruct (factor_pos _ A1 P1) as [B1 C1]. destruct (factor_pos _ A5 P5) as [B5 C5]. destruct (factor_pos _ A15 P15) as [B15 C15].
  eexists _, _, _, _. split; [reflexivity|]. split.
  - repeat apply Forall_cons; try apply Forall_nil; apply good_finite, rate_at_good; assumption.
  - split; [|split]; apply rate_close; assumption.
Qed.

Lemma meter_settles : forall al name k t0 m0 c1 m h m' q d m'' s c3 hi c n,
  meter_new al name k (frozen t0) = Ok m0 c1 ->
  m_inner m = m_inner m0 -> m_descr m = no_descr ->
  ops_ok (map snd h) -> times_ordered t0 h q ->
  instant_run meter_update meter_put k m h = Some m' ->
  meter_put m' d [] k (frozen q) = Ok (m'', s) c3 ->
  smoothing_factors al -> positive_factors al -> (0 <= hi < two64)%Z ->
  (forall i, marked_in t0 (instant_marks meter_amount h) i <= hi)%Z ->
  (Z.of_nat n < interval5 t0 q)%Z -> (0 <= c <= hi)%Z ->
  (forall i, interval5 t0 q - Z.of_nat n <= i < interval5 t0 q -> marked_in t0 (instant_marks meter_amount h) i = c)%Z ->
  let about a r := Rabs (real r - IZR c / 5) <= (1 - real a) ^ n * (IZR hi / 5) + tolerance (real a) hi in
  exists total r1 r5 r15,
    s = meter_items (m_name m) total
          (window_item (m_one_minute m) "one_minute" (shown_rate (m_lower_cutoff m) r1))
          (window_item (m_five_minute m) "five_minutes" (shown_rate (m_lower_cutoff m) r5))
          (window_item (m_fifteen_minute m) "fifteen_minutes" (shown_rate (m_lower_cutoff m) r15))
    /\ about (alpha1 al) r1 /\ about (alpha5 al) r5 /\ about (alpha15 al) r15.
Proof.
  intros al name k t0 m0 c1 m h m' q d m'' s c3 hi c n E1 Hi Hd Hok Hord R P (A1 & A5 & A15) (P1 & P5 & P15) Hhi H Hn Hc Hs about.
  rewrite (meter_rates_at_instants _ _ _ _ _ _ _ _ _ _ _ _ _ _ E1 Hi Hd Hok Hord R P).
  assert (Hb : forall i, (0 <= marked_in t0 (instant_marks meter_amount h) i <= hi)%Z).
  { intros i. split; [apply marked_in_nonneg, meter_marks_nonneg|apply H]. }
  destruct (factor_pos _ A1 P1) as [B1 C1]. destruct (factor_pos _ A5 P5) as [B5 C5]. destruct (factor_pos _ A15 P15) as [B15 C15].
  eexists _, _, _, _. split; [reflexivity|].
  split; [|split]; apply rate_converges; assumption.
Qed.
