(** The windows of a meter. *)
From Coq Require Import ZArith Bool String List Lia Reals Lra Floats.SpecFloat.
From Flocq Require Import Core BinarySingleNaN.
From Verif Require Import Base SpecRun SpecCounting SpecGauge SpecObservation SpecMeter SpecAverage SpecAlpha
  ModelObservation ModelSnapshot ModelMeter ModelAlpha FloatReal EwmaProofs RatioProofs
  MeterProofs MeterHistoryProofs MeterRateProofs AverageProofs AverageShown.
Import ListNotations.
Open Scope R_scope.

(** ** The exponential function *)

Lemma exp_below_1 : forall x, x <= 0 -> exp x <= 1.
Proof. intros x [H | ->]; [left; rewrite <- exp_0; apply exp_increasing; exact H | rewrite exp_0; lra]. Qed.

Lemma exp_lipschitz_le : forall x y, x <= y -> y <= 0 -> 0 <= exp y - exp x <= y - x.
Proof.
  intros x y Hxy Hy. replace x with (y + (x - y)) at 1 2 by lra. rewrite exp_plus.
  pose proof (exp_below_1 y Hy). pose proof (exp_pos y). pose proof (exp_ineq1_le (x - y)). pose proof (exp_below_1 (x - y)). nra.
Qed.

Lemma exp_lipschitz : forall x y, x <= 0 -> y <= 0 -> Rabs (exp x - exp y) <= Rabs (x - y).
Proof.
  intros x y Hx Hy. destruct (Rle_dec x y) as [H | H].
  - pose proof (exp_lipschitz_le x y H Hy). rewrite (Rabs_left1 (exp x - exp y)), (Rabs_left1 (x - y)) by lra. lra.
  - pose proof (exp_lipschitz_le y x ltac:(lra) Hx). rewrite (Rabs_pos_eq (exp x - exp y)), (Rabs_pos_eq (x - y)) by lra. lra.
Qed.

Lemma exp_pow : forall x n, exp x ^ n = exp (INR n * x).
Proof.
  intros x n. induction n as [|n IH]; [cbn; rewrite Rmult_0_l, exp_0; reflexivity|].
  rewrite S_INR. cbn [pow]. rewrite IH, <- exp_plus. f_equal. lra.
Qed.

Lemma exp_upper : forall x, 0 <= x -> exp (- x) <= / (1 + x).
Proof.
  intros x Hx. rewrite exp_Ropp. apply Rinv_le_contravar; [lra|]. apply exp_ineq1_le.
Qed.

(** ** The factors *)

Lemma factor_bounds : forall w, In w [1; 5; 15]%nat -> 1 / 200 <= window_factor w <= 1 / 12.
Proof.
  intros w Hw. unfold window_factor.
  assert (H : 1 / 180 <= 5 / 60 / INR w <= 1 / 12).
  { destruct Hw as [<- | [<- | [<- | []]]]; cbn [INR]; lra. }
  replace (- (5 / 60) / INR w) with (- (5 / 60 / INR w)) by (unfold Rdiv; ring).
  set (x := 5 / 60 / INR w) in *. pose proof (exp_ineq1_le (- x)) as H1. pose proof (exp_upper x ltac:(lra)) as H2. split; [|lra].
  assert (H3 : / (1 + x) <= 199 / 200); [|lra]. apply Rmult_le_reg_r with (1 + x); [lra|]. rewrite Rinv_l by lra. lra.
Qed.

Definition minutes_f64 (w : nat) : f64 := f64_of_Z (Z.of_nat w).

Lemma exponent_close : forall w, In w [1; 5; 15]%nat ->
  good (ewma_exponent (minutes_f64 w)) /\ Rabs (real (ewma_exponent (minutes_f64 w)) - - (5 / 60) / INR w) <= / 2 ^ 55
  /\ -1 <= real (ewma_exponent (minutes_f64 w)) <= 0.
Proof.
  assert (P : forall m e, real (S754_finite true m (Zneg e)) = - (IZR (Zpos m) / IZR (Z.pow_pos 2 e))).
  { intros m e. unfold real, SF2R, F2R. cbn [Fnum Fexp cond_Zopp bpow radix_val radix2]. rewrite opp_IZR. unfold Rdiv. ring. }
  intros w [<- | [<- | [<- | []]]].
  all: match goal with |- context [ewma_exponent ?n] => let v := eval vm_compute in (ewma_exponent n) in replace (ewma_exponent n) with v by (vm_compute; reflexivity) end.
  all: split; [split; reflexivity|]; rewrite P; cbn [INR].
  all: match goal with |- context [Z.pow_pos 2 ?e] => let v := eval vm_compute in (Z.pow_pos 2 e) in change (Z.pow_pos 2 e) with v end.
  all: replace (/ 2 ^ 55) with (/ IZR 36028797018963968) by (f_equal; lra); split; [apply Rabs_le|]; lra.
Qed.

Lemma alpha_close : forall exp64 w, accurate_exp exp64 -> In w [1; 5; 15]%nat ->
  good (ewma_alpha exp64 (minutes_f64 w)) /\ Rabs (real (ewma_alpha exp64 (minutes_f64 w)) - window_factor w) <= / 2 ^ 51.
Proof.
  intros exp64 w He Hw. destruct (exponent_close w Hw) as (Gx & Hx & Hr). destruct (He _ Gx Hr) as [Ge Hd].
  pose proof (factor_bounds w Hw) as Hf. unfold ewma_alpha.
  set (x := ewma_exponent (minutes_f64 w)) in *. set (e := exp64 x) in *.
  assert (Hl : Rabs (exp (real x) - exp (- (5 / 60) / INR w)) <= / 2 ^ 55).
  { refine (Rle_trans _ _ _ (exp_lipschitz _ _ _ _) Hx); [lra|].
    assert (0 < INR w) by (destruct Hw as [<- | [<- | [<- | []]]]; cbn; lra).
    unfold Rdiv. rewrite Ropp_mult_distr_l_reverse. pose proof (Rinv_0_lt_compat _ H). nra. }
  assert (E : exp (- (5 / 60) / INR w) = 1 - window_factor w) by (unfold window_factor; lra). rewrite E in Hl.
  assert (P52 : / 2 ^ 52 = / IZR 4503599627370496) by (f_equal; lra).
  assert (P55 : / 2 ^ 55 = / IZR 36028797018963968) by (f_equal; lra).
  assert (P51 : / 2 ^ 51 = / IZR 2251799813685248) by (f_equal; lra).
  assert (P53 : u = / IZR 9007199254740992) by reflexivity.
  rewrite P52 in Hd. rewrite P55 in Hl. apply Rabs_le_inv in Hd. apply Rabs_le_inv in Hl.
  destruct (of_int_real 1 ltac:(lia)) as [G1 E1].
  pose proof (RN_abs (1 - real e)) as Hrn.
  assert (Heta : 0 <= eta <= / IZR 9007199254740992).
  { split; [apply bpow_ge_0|]. rewrite <- P53. apply bpow_le. lia. }
  assert (Ha : 0 <= 1 - real e <= 1 / 10) by lra.
  rewrite (Rabs_pos_eq (1 - real e)) in Hrn by lra. rewrite P53 in Hrn. apply Rabs_le_inv in Hrn.
  destruct (sub_real (f64_of_Z 1) e G1 Ge) as [Gs Es].
  { rewrite E1. apply Rle_lt_trans with 1; [|change 1 with (bpow radix2 0); apply bpow_lt; reflexivity].
    apply Rabs_le. lra. }
  rewrite E1 in Es. split; [exact Gs|]. rewrite Es, P51.
  assert (Heta2 : eta <= / IZR 9007199254740992 / 10).
  { apply Rle_trans with (bpow radix2 (-60)); [apply bpow_le; lia|]. cbn. lra. }
  apply Rabs_le. lra.
Qed.

Lemma std_factors : forall exp64 w a, accurate_exp exp64 -> In w [1; 5; 15]%nat -> a = ewma_alpha exp64 (minutes_f64 w) ->
  smoothing_factor a /\ SFltb f64_zero a = true.
Proof.
  intros exp64 w a He Hw ->. destruct (alpha_close exp64 w He Hw) as [G H]. pose proof (factor_bounds w Hw) as Hf.
  assert (P51 : / 2 ^ 51 = / IZR 2251799813685248) by (f_equal; lra). rewrite P51 in H. apply Rabs_le_inv in H.
  assert (Z : good f64_zero) by (split; reflexivity).
  assert (R0 : real f64_zero = 0) by reflexivity.
  assert (Hh : good (S754_finite false 4503599627370496 (-53)) /\ real (S754_finite false 4503599627370496 (-53)) = 1 / 2).
  { split; [split; reflexivity|]. unfold real, SF2R, F2R, cond_Zopp. cbn [Fnum Fexp].
    change 4503599627370496%Z with (2 ^ 52)%Z. change (IZR (2 ^ 52)) with (bpow radix2 52). rewrite <- bpow_plus. cbn. lra. }
  destruct Hh as [Gh Rh]. split.
  - split; [exact (proj1 G)|]. split.
    + apply (leb_real f64_zero _ Z G). lra.
    + apply (leb_real _ _ G Gh). lra.
  - apply (ltb_real f64_zero _ Z G). lra.
Qed.

Lemma std_alphas_good : forall exp64, accurate_exp exp64 -> smoothing_factors (std_alphas exp64) /\ positive_factors (std_alphas exp64).
Proof.
  intros exp64 He. unfold smoothing_factors, positive_factors, std_alphas. cbn [alpha1 alpha5 alpha15].
  destruct (std_factors exp64 1 _ He ltac:(cbn; auto) eq_refl) as [A1 B1].
  destruct (std_factors exp64 5 _ He ltac:(cbn; auto) eq_refl) as [A5 B5].
  destruct (std_factors exp64 15 _ He ltac:(cbn; auto) eq_refl) as [A15 B15]. auto.
Qed.

(** ** Averages *)

Lemma averaged_factor : forall a a' b l, 0 <= a <= 1 -> 0 < a' <= 1 -> 0 <= b -> Forall (fun x => 0 <= x <= b) l ->
  Rabs (averaged a l - averaged a' l) <= Rabs (a - a') * b / a'.
Proof.
  intros a a' b l Ha Ha' Hb Hl.
  assert (H0 : 0 <= Rabs (a - a') * b / a').
  { apply Rmult_le_pos; [apply Rmult_le_pos; [apply Rabs_pos | exact Hb] | left; apply Rinv_0_lt_compat; lra]. }
  induction Hl as [|x l Hx Hl IH]; [cbn; rewrite Rminus_0_r, Rabs_R0; exact H0|].
  destruct l as [|y l]; [cbn; unfold Rminus; rewrite Rplus_opp_r, Rabs_R0; exact H0|].
  rewrite !(averaged_cons _ x) by discriminate. set (A := averaged a (y :: l)) in *. set (A' := averaged a' (y :: l)) in *.
  pose proof (averaged_range a b (y :: l) Ha Hb Hl) as HA. fold A in HA.
  replace (a * x + (1 - a) * A - (a' * x + (1 - a') * A')) with ((a - a') * (x - A) + (1 - a') * (A - A')) by ring.
  refine (Rle_trans _ _ _ (Rabs_triang _ _) _). rewrite !Rabs_mult, (Rabs_pos_eq (1 - a')) by lra.
  assert (H1 : Rabs (x - A) <= b) by (apply Rabs_le; lra).
  pose proof (Rabs_pos (a - a')) as Hd. pose proof (Rabs_pos (x - A)) as Hd2. set (d := Rabs (a - a')) in *.
  assert (E : d * b / a' = d * b + (1 - a') * (d * b / a')) by (field; lra). rewrite E.
  apply Rplus_le_compat; [apply Rmult_le_compat_l; assumption | apply Rmult_le_compat_l; [lra | exact IH]].
Qed.

Lemma loads_range : forall start l t hi, (forall i, 0 <= marked_in start l i <= hi)%Z -> Forall (fun x => 0 <= x <= IZR hi / 5) (loads start l t).
Proof.
  intros start l t hi H. unfold loads. apply Forall_map, Forall_forall. intros i _. specialize (H (Z.of_nat i)).
  destruct H as [H1 H2]. apply IZR_le in H1. apply IZR_le in H2. lra.
Qed.

Lemma rate_ideal : forall exp64 w start l t hi, accurate_exp exp64 -> In w [1; 5; 15]%nat -> (0 <= hi < two64)%Z ->
  (forall i, 0 <= marked_in start l i <= hi)%Z ->
  Rabs (real (rate_at (ewma_alpha exp64 (minutes_f64 w)) start l t) - averaged (window_factor w) (loads start l t)) <= 2 * tolerance (window_factor w) hi.
Proof.
  intros exp64 w start l t hi He Hw Hhi H. destruct (std_factors exp64 w _ He Hw eq_refl) as [F1 F2].
  destruct (factor_pos _ F1 F2) as [Hal Hpos]. pose proof (rate_close _ start l t hi Hal Hpos Hhi H) as C.
  destruct (alpha_close exp64 w He Hw) as [_ Hd]. pose proof (factor_bounds w Hw) as Hf. destruct Hal as [_ Hal].
  set (a := real (ewma_alpha exp64 (minutes_f64 w))) in *. set (F := window_factor w) in *.
  assert (Hb : 0 <= IZR hi / 5) by (apply Rmult_le_pos; [apply IZR_le; lia | lra]).
  pose proof (averaged_factor a F (IZR hi / 5) (loads start l t) ltac:(lra) ltac:(lra) Hb (loads_range start l t hi H)) as D.
  replace (real (rate_at (ewma_alpha exp64 (minutes_f64 w)) start l t) - averaged F (loads start l t))
    with ((real (rate_at (ewma_alpha exp64 (minutes_f64 w)) start l t) - averaged a (loads start l t)) + (averaged a (loads start l t) - averaged F (loads start l t))) by ring.
  refine (Rle_trans _ _ _ (Rabs_triang _ _) _).
  assert (P51 : / 2 ^ 51 = / IZR 2251799813685248) by (f_equal; lra).
  assert (P50 : / 2 ^ 50 = / IZR 1125899906842624) by (f_equal; lra).
  unfold tolerance in *. set (M := IZR hi / 5) in *.
  assert (Hd2 : Rabs (a - F) <= / IZR 2251799813685248) by (rewrite <- P51; exact Hd). apply Rabs_le_inv in Hd2.
  assert (D2 : Rabs (a - F) * M / F <= / 2 * (M / 2 ^ 50 / F)).
  { replace (/ 2 * (M / 2 ^ 50 / F)) with (/ 2 ^ 51 * M / F) by (unfold Rdiv; rewrite P50, P51; field; lra).
    apply Rmult_le_compat_r; [left; apply Rinv_0_lt_compat; lra|]. apply Rmult_le_compat_r; assumption. }
  assert (C2 : M / 2 ^ 50 / a <= 3 / 2 * (M / 2 ^ 50 / F)).
  { assert (Hm : 0 <= M / 2 ^ 50) by (apply Rmult_le_pos; [exact Hb | left; apply Rinv_0_lt_compat, pow_lt; lra]).
    replace (3 / 2 * (M / 2 ^ 50 / F)) with (M / 2 ^ 50 * (3 / 2 / F)) by (unfold Rdiv; ring). unfold Rdiv at 1.
    apply Rmult_le_compat_l; [exact Hm|]. apply Rmult_le_reg_r with a; [lra|]. rewrite Rinv_l by lra.
    apply Rmult_le_reg_r with F; [lra|]. replace (3 / 2 / F * a * F) with (3 / 2 * a) by (field; lra). lra. }
  lra.
Qed.

Lemma steady_loads : forall start l t w c, (0 < w)%nat -> steady start l t w c ->
  loads start l t = repeat (IZR c / 5) (12 * w) ++ loads start l (t - Z.of_nat w * minute) /\ loads start l (t - Z.of_nat w * minute) <> [].
Proof.
  intros start l t w c Hw [Hn Hc].
  assert (Ei : interval5 start (t - Z.of_nat w * minute) = (interval5 start t - 12 * Z.of_nat w)%Z).
  { unfold interval5, minute. replace (t - Z.of_nat w * 60000000000 - start)%Z with ((t - start) + (- (12 * Z.of_nat w)) * 5000000000)%Z by lia.
    rewrite Z.div_add by lia. lia. }
  set (n := (12 * w)%nat). set (k := (Z.to_nat (interval5 start t) - n)%nat).
  assert (Eo : loads start l (t - Z.of_nat w * minute) = map (fun i => IZR (marked_in start l (Z.of_nat i)) / 5) (rev (seq 0 k))).
  { unfold loads. rewrite Ei. replace (Z.to_nat (interval5 start t - 12 * Z.of_nat w)) with k by lia. reflexivity. }
  rewrite Eo. split.
  - unfold loads. replace (Z.to_nat (interval5 start t)) with (k + n)%nat by lia.
    rewrite seq_app, rev_app_distr, map_app. f_equal. cbn [plus].
    assert (Hk : forall m j, (k <= j)%nat -> (j + m <= k + n)%nat ->
      map (fun i => IZR (marked_in start l (Z.of_nat i)) / 5) (seq j m) = repeat (IZR c / 5) m).
    { induction m as [|m IH]; intros j Hj Hm; [reflexivity|]. cbn [seq map repeat]. rewrite Hc by lia. f_equal. apply IH; lia. }
    rewrite map_rev, Hk by lia. generalize n. clear. induction n as [|n IH]; [reflexivity|].
    cbn [repeat rev]. rewrite IH, <- repeat_cons. reflexivity.
  - intros Q. apply (f_equal (@List.length R)) in Q. rewrite map_length, rev_length, seq_length in Q. cbn in Q. lia.
Qed.

Lemma factor_minutes : forall w, (0 < w)%nat -> (1 - window_factor w) ^ (12 * w) = exp (-1).
Proof.
  intros w Hw. unfold window_factor. replace (1 - (1 - exp (- (5 / 60) / INR w))) with (exp (- (5 / 60) / INR w)) by ring.
  rewrite exp_pow. f_equal. rewrite mult_INR. assert (INR w <> 0) by (apply not_0_INR; lia). cbn [INR]. field. exact H.
Qed.

Lemma window_rate : forall exp64 w start l t hi c, accurate_exp exp64 -> In w [1; 5; 15]%nat -> (0 <= hi < two64)%Z ->
  (forall i, 0 <= marked_in start l i <= hi)%Z -> steady start l t w c ->
  Rabs (real (rate_at (ewma_alpha exp64 (minutes_f64 w)) start l t)
        - (IZR c / 5 + (averaged (window_factor w) (loads start l (t - Z.of_nat w * minute)) - IZR c / 5) * exp (-1)))
  <= 2 * tolerance (window_factor w) hi.
Proof.
  intros exp64 w start l t hi c He Hw Hhi H Hs. pose proof (rate_ideal exp64 w start l t hi He Hw Hhi H) as C.
  assert (Hw0 : (0 < w)%nat) by (destruct Hw as [<- | [<- | [<- | []]]]; lia).
  destruct (steady_loads start l t w c Hw0 Hs) as [E Ne]. rewrite E in C.
  pose proof (averaged_steady (window_factor w) (IZR c / 5) (loads start l (t - Z.of_nat w * minute)) (12 * w) Ne) as S.
  rewrite (factor_minutes w Hw0) in S.
  replace (IZR c / 5 + (averaged (window_factor w) (loads start l (t - Z.of_nat w * minute)) - IZR c / 5) * exp (-1))
    with (averaged (window_factor w) (repeat (IZR c / 5) (12 * w) ++ loads start l (t - Z.of_nat w * minute))) by lra.
  exact C.
Qed.

Lemma meter_windows : forall exp64 name k t0 m0 c1 m h m' q d m'' s c3 hi,
  accurate_exp exp64 ->
  meter_new (std_alphas exp64) name k (frozen t0) = Ok m0 c1 ->
  m_inner m = m_inner m0 -> m_descr m = no_descr ->
  ops_ok (map snd h) -> times_ordered t0 h q ->
  instant_run meter_update meter_put k m h = Some m' ->
  meter_put m' d [] k (frozen q) = Ok (m'', s) c3 ->
  (0 <= hi < two64)%Z -> (forall i, marked_in t0 (instant_marks meter_amount h) i <= hi)%Z ->
  let l := instant_marks meter_amount h in
  let about w r :=
    Rabs (real r - averaged (window_factor w) (loads t0 l q)) <= 2 * tolerance (window_factor w) hi
    /\ forall c, steady t0 l q w c ->
       Rabs (real r - (IZR c / 5 + (averaged (window_factor w) (loads t0 l (q - Z.of_nat w * minute)) - IZR c / 5) * exp (-1)))
       <= 2 * tolerance (window_factor w) hi in
  exists n r1 r5 r15,
    s = meter_items (m_name m) n
          (window_item (m_one_minute m) "one_minute" (shown_rate (m_lower_cutoff m) r1))
          (window_item (m_five_minute m) "five_minutes" (shown_rate (m_lower_cutoff m) r5))
          (window_item (m_fifteen_minute m) "fifteen_minutes" (shown_rate (m_lower_cutoff m) r15))
    /\ about 1%nat r1 /\ about 5%nat r5 /\ about 15%nat r15.
Proof.
  intros exp64 name k t0 m0 c1 m h m' q d m'' s c3 hi He E1 Hi Hd Hok Hord R P Hhi H l about.
  rewrite (meter_rates_at_instants _ _ _ _ _ _ _ _ _ _ _ _ _ _ E1 Hi Hd Hok Hord R P).
  assert (Hb : forall i, (0 <= marked_in t0 (instant_marks meter_amount h) i <= hi)%Z).
  { intros i. split; [apply marked_in_nonneg, meter_marks_nonneg|apply H]. }
  eexists _, _, _, _. split; [reflexivity|].
  assert (W : forall w, In w [1; 5; 15]%nat -> about w (rate_at (ewma_alpha exp64 (minutes_f64 w)) t0 l q)).
  { intros w Hw. split; [apply (rate_ideal exp64); assumption | intros c Hs; apply (window_rate exp64); assumption]. }
  split; [exact (W 1%nat ltac:(left; reflexivity))|]. split; [exact (W 5%nat ltac:(right; left; reflexivity))|].
  exact (W 15%nat ltac:(right; right; left; reflexivity)).
Qed.

Lemma std_alphas_near : forall exp64, accurate_exp exp64 ->
  let near a minutes := Rabs (real a - window_factor minutes) <= / 2 ^ 51 in
  smoothing_factors (std_alphas exp64) /\ positive_factors (std_alphas exp64)
  /\ near (alpha1 (std_alphas exp64)) 1%nat /\ near (alpha5 (std_alphas exp64)) 5%nat
  /\ near (alpha15 (std_alphas exp64)) 15%nat.
Proof.
  intros exp64 He near. destruct (std_alphas_good exp64 He) as [A B]. split; [exact A|]. split; [exact B|].
  assert (N : forall w, In w [1; 5; 15]%nat -> near (ewma_alpha exp64 (minutes_f64 w)) w) by (intros w Hw; apply alpha_close; assumption).
  split; [|split].
  - exact (N 1%nat ltac:(left; reflexivity)).
  - exact (N 5%nat ltac:(right; left; reflexivity)).
  - exact (N 15%nat ltac:(right; right; left; reflexivity)).
Qed.

Lemma value_meter_windows : forall exp64 name k t0 v0 c1 v amount h v' q d v'' s c3 hi,
  accurate_exp exp64 ->
  value_meter_new (std_alphas exp64) name k (frozen t0) = Ok v0 c1 ->
  m_inner (vm_meter v) = m_inner (vm_meter v0) -> m_descr (vm_meter v) = no_descr ->
  Forall (vm_ops_counted (vm_display_time_unit v) amount) (map snd h) -> times_ordered t0 h q ->
  instant_run value_meter_update value_meter_put k v h = Some v' ->
  value_meter_put v' d [] k (frozen q) = Ok (v'', s) c3 ->
  (0 <= hi < two64)%Z -> (forall i, 0 <= marked_in t0 (instant_marks amount h) i <= hi)%Z ->
  let l := instant_marks amount h in
  let about w r :=
    Rabs (real r - averaged (window_factor w) (loads t0 l q)) <= 2 * tolerance (window_factor w) hi
    /\ forall c, steady t0 l q w c ->
       Rabs (real r - (IZR c / 5 + (averaged (window_factor w) (loads t0 l (q - Z.of_nat w * minute)) - IZR c / 5) * exp (-1)))
       <= 2 * tolerance (window_factor w) hi in
  let m := vm_meter v in
  exists n r1 r5 r15,
    s = meter_items (m_name m) n
          (window_item (m_one_minute m) "one_minute" (shown_rate (m_lower_cutoff m) r1))
          (window_item (m_five_minute m) "five_minutes" (shown_rate (m_lower_cutoff m) r5))
          (window_item (m_fifteen_minute m) "fifteen_minutes" (shown_rate (m_lower_cutoff m) r15))
    /\ about 1%nat r1 /\ about 5%nat r5 /\ about 15%nat r15.
Proof.
  intros exp64 name k t0 v0 c1 v amount h v' q d v'' s c3 hi He E1 Hi Hd Hok Hord R P Hhi Hb l about m.
  rewrite (value_meter_rates_at_instants _ _ _ _ _ _ _ _ _ _ _ _ _ _ _ E1 Hi Hd Hok Hord R P).
  eexists _, _, _, _. split; [reflexivity|].
  assert (W : forall w, In w [1; 5; 15]%nat -> about w (rate_at (ewma_alpha exp64 (minutes_f64 w)) t0 l q)).
  { intros w Hw. split; [apply (rate_ideal exp64); assumption | intros c Hs; apply (window_rate exp64); assumption]. }
  split; [exact (W 1%nat ltac:(left; reflexivity))|]. split; [exact (W 5%nat ltac:(right; left; reflexivity))|].
  exact (W 15%nat ltac:(right; right; left; reflexivity)).
Qed.
