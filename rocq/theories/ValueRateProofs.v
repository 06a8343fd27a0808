(** The rates of a value meter. *)
From Coq Require Import ZArith QArith Bool String List Lia ZifyBool Reals Lra Floats.SpecFloat.
From Flocq Require Import Core Relative BinarySingleNaN.
From Verif Require Import Base SpecRun SpecCounting SpecGauge SpecObservation SpecMeter MonadFacts
  ModelObservation ModelSnapshot ModelMeter FloatReal EwmaProofs
  MeterProofs MeterHistoryProofs MeterRateProofs.
Import ListNotations.
Open Scope R_scope.

Lemma value_meter_rates_range : forall al name k t0 v0 c1 v amount h v' q d v'' s c3 hi,
  value_meter_new al name k (frozen t0) = Ok v0 c1 ->
  m_inner (vm_meter v) = m_inner (vm_meter v0) -> m_descr (vm_meter v) = no_descr ->
  Forall (vm_ops_counted (vm_display_time_unit v) amount) (map snd h) ->
  times_ordered t0 h q ->
  instant_run value_meter_update value_meter_put k v h = Some v' ->
  value_meter_put v' d [] k (frozen q) = Ok (v'', s) c3 ->
  smoothing_factors al -> (0 <= hi < two64)%Z ->
  (forall i, 0 <= marked_in t0 (instant_marks amount h) i <= hi)%Z ->
  exists n r1 r5 r15,
    s = meter_items (m_name (vm_meter v)) n (window_item (m_one_minute (vm_meter v)) "one_minute" r1)
          (window_item (m_five_minute (vm_meter v)) "five_minutes" r5)
          (window_item (m_fifteen_minute (vm_meter v)) "fifteen_minutes" r15)
    /\ Forall (acceptable hi) [r1; r5; r15].
Proof.
  intros al name k t0 v0 c1 v amount h v' q d v'' s c3 hi E1 Hi Hd Hok Hord R P (A1 & A5 & A15) Hhi H.
  rewrite (value_meter_rates_at_instants _ _ _ _ _ _ _ _ _ _ _ _ _ _ _ E1 Hi Hd Hok Hord R P).
  pose proof (times_ordered_le _ _ _ Hord) as Hq.
  eexists _, _, _, _. split; [reflexivity|].
  repeat apply Forall_cons; try apply Forall_nil; apply shown_acceptable; assumption.
Qed.

(** ** The first interval *)

Lemma first_interval_rate : forall a t0 (l : marks) q,
  (forall e, In e l -> t0 <= fst e < t0 + 5000000000)%Z ->
  (t0 + 5000000000 <= q < t0 + 10000000000)%Z ->
  (0 <= sum (map snd l) < two64)%Z ->
  rate_at a t0 l q = interval_per_second (sum (map snd l)).
Proof.
  intros a t0 l q Hl Hq Hs. unfold rate_at, complete_intervals.
  assert (H1 : interval5 t0 q = 1%Z).
  { unfold interval5. symmetry. apply Z.div_unique with (q - t0 - 5000000000)%Z; lia. }
  rewrite H1.
  change (map _ (seq 0 (Z.to_nat 1))) with [marked_in t0 l 0 mod two64]%Z. cbn [smoothed fold_left].
  assert (E : marked_in t0 l 0 = sum (map snd l)).
  { unfold marked_in. f_equal. f_equal. clear Hs. induction l as [|e l IH]; [reflexivity|]. cbn [filter].
    replace (interval5 t0 (fst e) =? 0)%Z with true.
    - f_equal. apply IH. intros; apply Hl; right; assumption.
    - symmetry. apply Z.eqb_eq. apply Z.div_small. specialize (Hl e (or_introl eq_refl)). lia. }
  rewrite E, Z.mod_small by assumption. reflexivity.
Qed.

Lemma instant_marks_times : forall amount h t0 q e, times_ordered t0 h q ->
  In e (instant_marks amount h) -> (t0 <= fst e <= q)%Z /\ exists o, In (fst e, o) h.
Proof.
  intros amount h t0 q e H. induction H as [t q H|t t' o h q H Hord IH]; cbn [instant_marks flat_map].
  - intros [].
  - intros Hin. apply in_app_or in Hin. destruct Hin as [Hin|Hin].
    + cbn [snd fst] in Hin. pose proof (times_ordered_le _ _ _ Hord).
      destruct o as [u|d]; [|destruct Hin]. destruct (amount u); [|destruct Hin].
      destruct Hin as [<-|[]]. cbn [fst]. split; [lia|]. exists (MUpdate u). left. reflexivity.
    + destruct (IH Hin) as [A [o' B]]. split; [lia|]. exists o'. right. exact B.
Qed.

Lemma value_meter_first_rate : forall al name k t0 v0 c1 v amount h v' q d v'' s c3,
  value_meter_new al name k (frozen t0) = Ok v0 c1 ->
  m_inner (vm_meter v) = m_inner (vm_meter v0) -> m_descr (vm_meter v) = no_descr ->
  Forall (vm_ops_counted (vm_display_time_unit v) amount) (map snd h) ->
  times_ordered t0 h q ->
  (forall t o, In (t, o) h -> t < t0 + 5000000000)%Z -> (t0 + 5000000000 <= q < t0 + 10000000000)%Z ->
  (0 <= sum (amounts amount (map snd h)) < two64)%Z ->
  instant_run value_meter_update value_meter_put k v h = Some v' ->
  value_meter_put v' d [] k (frozen q) = Ok (v'', s) c3 ->
  let n := sum (amounts amount (map snd h)) in
  let r := shown_rate (m_lower_cutoff (vm_meter v)) (interval_per_second n) in
  s = meter_items (m_name (vm_meter v)) n (window_item (m_one_minute (vm_meter v)) "one_minute" r)
        (window_item (m_five_minute (vm_meter v)) "five_minutes" r)
        (window_item (m_fifteen_minute (vm_meter v)) "fifteen_minutes" r).
Proof.
  intros al name k t0 v0 c1 v amount h v' q d v'' s c3 E1 Hi Hd Hok Hord Hfirst Hq Hs R P n r.
  rewrite (value_meter_rates_at_instants _ _ _ _ _ _ _ _ _ _ _ _ _ _ _ E1 Hi Hd Hok Hord R P).
  assert (En : sum (map snd (instant_marks amount h)) = n).
  { subst n. clear. unfold instant_marks, amounts. induction h as [|[t [u|d]] h IH]; [reflexivity|..].
    - cbn [flat_map map snd fst]. rewrite map_app, !sum_app, IH. destruct (amount u); reflexivity.
    - cbn [flat_map map snd fst app]. exact IH. }
  assert (Hl : forall e, In e (instant_marks amount h) -> (t0 <= fst e < t0 + 5000000000)%Z).
  { intros e He. destruct (instant_marks_times _ _ _ _ _ Hord He) as [A [o Ho]]. apply Hfirst in Ho. lia. }
  unfold meter_shows. rewrite En. rewrite !first_interval_rate by (assumption || (rewrite En; exact Hs)).
  rewrite En. subst r. rewrite Z.mod_small by exact Hs. reflexivity.
Qed.

(** This is the exact quotient, up to two roundings. *)
Lemma RN_close : forall x, bpow radix2 (-1000) <= x -> Rabs (RN x - x) <= bpow radix2 (-53) * x.
Proof.
  intros x Hx. pose proof (bpow_gt_0 radix2 (-1000)) as Hp.
  pose proof (relative_error_N_FLT radix2 (-1074) 53 ltac:(reflexivity) (fun z => negb (Z.even z)) x) as H.
  rewrite (Rabs_pos_eq x) in H by lra.
  refine (Rle_trans _ _ _ (H _) _).
  - refine (Rle_trans _ _ _ _ Hx). apply bpow_le. lia.
  - apply Req_le. f_equal. change (- (53) + 1)%Z with (-52)%Z. change (-53)%Z with (-1 + -52)%Z.
    rewrite bpow_plus. reflexivity.
Qed.

Lemma interval_per_second_close : forall v, (0 <= v <= 2 ^ 53)%Z ->
  Rabs (real (interval_per_second v) - IZR v / 5) <= IZR v / 5 * bpow radix2 (-51).
Proof.
  intros v Hv.
  assert (Hu : (0 <= v < two64)%Z) by (split; [lia|]; refine (Z.le_lt_trans _ (2 ^ 53) _ _ _); [lia|reflexivity]).
  destruct (interval_rate_real v Hu) as (G & E & Hr & Hp).
  rewrite (RN_id (IZR v)) in E by (apply int_format; lia).
  destruct (per_second_real _ G Hr) as (_ & E2 & _).
  change (per_second (interval_rate v)) with (interval_per_second v) in E2.
  destruct (Z.eq_dec v 0) as [->|Hz].
  - rewrite E2, interval_rate_0, Rmult_0_l, RN_0. unfold Rdiv. rewrite !Rmult_0_l, Rminus_0_r, Rabs_R0. lra.
  - assert (H1 : 1 <= IZR v) by (apply IZR_le; lia).
    assert (B33 : bpow radix2 (-33) <= / IZR 5000000000).
    { apply Rmult_le_reg_l with (bpow radix2 33); [apply bpow_gt_0|].
      rewrite <- bpow_plus. change (bpow radix2 (33 + -33)) with 1.
      change (bpow radix2 33) with (IZR (2 ^ 33)). apply Rmult_le_reg_r with (IZR 5000000000); [lra|].
      rewrite Rmult_assoc, Rinv_l, Rmult_1_r by lra. lra. }
    assert (L1 : bpow radix2 (-1000) <= bpow radix2 (-33)) by (apply bpow_le; lia).
    assert (Hlow : bpow radix2 (-33) <= IZR v / 5000000000).
    { unfold Rdiv. pose proof (bpow_gt_0 radix2 (-33)). nra. }
    pose proof (RN_close (IZR v / 5000000000) ltac:(lra)) as C1. rewrite <- E in C1.
    assert (Hlow2 : bpow radix2 (-33) <= real (interval_rate v)).
    { rewrite E. apply RN_ge; [apply generic_format_bpow; cbn; lia|exact Hlow]. }
    pose proof (RN_close (real (interval_rate v) * 1000000000) ltac:(pose proof (bpow_gt_0 radix2 (-33)); nra)) as C2.
    rewrite <- E2 in C2.
    assert (B53 : bpow radix2 (-53) = / IZR (2 ^ 53)) by reflexivity.
    assert (B51 : bpow radix2 (-51) = / IZR (2 ^ 51)) by reflexivity.
    rewrite B53 in C1, C2. rewrite B51.
    apply Rabs_le_inv in C1. apply Rabs_le_inv in C2.
    set (x := real (interval_per_second v)) in *. set (y := real (interval_rate v)) in *. set (w := IZR v) in *.
    assert (Ew : w / 5000000000 * 1000000000 = w / 5) by (unfold Rdiv; lra).
    assert (Hy0 : 0 <= y) by (pose proof (bpow_gt_0 radix2 (-33)); lra).
    assert (S53 : 0 < / IZR (2 ^ 53)) by (apply Rinv_0_lt_compat, IZR_lt; reflexivity).
    assert (S51 : / IZR (2 ^ 51) = 4 * / IZR (2 ^ 53)).
    { change (IZR (2 ^ 53)) with (IZR (4 * 2 ^ 51)). rewrite mult_IZR. rewrite Rinv_mult. lra. }
    rewrite S51.
    assert (Se : / IZR (2 ^ 53) <= 1 / 2).
    { apply Rmult_le_reg_l with (IZR (2 ^ 53)); [apply IZR_lt; reflexivity|].
      rewrite Rinv_r by (apply Rgt_not_eq, IZR_lt; reflexivity).
      apply Rmult_le_reg_r with 2; [lra|]. rewrite Rmult_assoc. replace (1 / 2 * 2) with 1 by lra.
      rewrite Rmult_1_r. rewrite <- mult_IZR. apply IZR_le. discriminate. }
    set (e := / IZR (2 ^ 53)) in *. clearbody e x y w.
    set (z := w / 5) in *.
    assert (Hz0 : 0 <= z) by (subst z; lra).
    assert (A1 : Rabs (y * 1000000000 - z) <= e * z).
    { rewrite <- Ew. apply Rabs_le. lra. }
    assert (Y1 : y * 1000000000 <= 2 * z).
    { apply Rabs_le_inv in A1. nra. }
    apply Rabs_le_inv in A1. apply Rabs_le. nra.
Qed.
