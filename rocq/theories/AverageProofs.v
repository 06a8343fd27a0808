(** The smoothing in floating point against the exact moving average. *)
From Coq Require Import ZArith Bool List Lia Reals Lra Floats.SpecFloat.
From Flocq Require Import Core Relative BinarySingleNaN.
From Verif Require Import Base SpecRun SpecMeter SpecAverage FloatReal EwmaProofs ValueRateProofs RatioProofs.
Import ListNotations.
Open Scope R_scope.

Local Existing Instance fmt_valid.

Notation u := (bpow radix2 (-53)).
Notation eta := (bpow radix2 (-1075)).

Lemma RN_abs : forall x, Rabs (RN x - x) <= u * Rabs x + eta.
Proof.
  intros x.
  destruct (error_N_FLT radix2 (-1074) 53 ltac:(reflexivity) (fun z => negb (Z.even z)) x) as (e & n & He & Hn & _ & E).
  change (round radix2 (FLT_exp (-1074) 53) (Znearest (fun z => negb (Z.even z))) x) with (RN x) in E.
  rewrite E. replace (x * (1 + e) + n - x) with (x * e + n) by lra.
  refine (Rle_trans _ _ _ (Rabs_triang _ _) _). rewrite Rabs_mult.
  assert (H1 : Rabs e <= u).
  { refine (Rle_trans _ _ _ He _). apply Req_le. change (- (53) + 1)%Z with (-52)%Z. change (-53)%Z with (-1 + -52)%Z. rewrite (bpow_plus radix2 (-1)). reflexivity. }
  assert (H2 : Rabs n <= eta).
  { refine (Rle_trans _ _ _ Hn _). apply Req_le. change (-1075)%Z with (-1 + -1074)%Z. rewrite (bpow_plus radix2 (-1)). reflexivity. }
  pose proof (Rabs_pos x). nra.
Qed.

Lemma smooth_real : forall alpha rate x, good alpha -> good rate -> good x ->
  0 <= real alpha <= 1 / 2 -> 0 <= real rate -> 0 <= real x -> plain (real x) ->
  real (smooth alpha rate x) = RN (real rate + step (real alpha) (real rate) (real x)).
Proof.
  intros alpha rate x Ga Gr Gx Ha Hr Hx Hp. unfold smooth.
  pose proof (real_format _ Gr) as Fr. pose proof (real_format _ Gx) as Fx.
  destruct (Rle_lt_dec (real rate) (real x)) as [Hle|Hlt].
  - assert (Hs := step_up (real alpha) (real rate) (real x) Fr Fx Ha ltac:(lra) Hp). unfold step in *.
    assert (Hd0 : 0 <= RN (real x - real rate)) by (apply RN_pos; lra).
    assert (Hd : RN (real x - real rate) <= real x) by (apply RN_le; [exact Fx|lra]).
    destruct (sub_real x rate Gx Gr) as [G1 E1]; [apply (below_overflow x Gx); lra|].
    rewrite <- E1 in *.
    destruct (mul_real alpha (f64_sub x rate) Ga G1) as [G2 E2]; [apply (below_overflow x Gx); lra|].
    rewrite <- E2 in *.
    assert (Hlo : real rate <= RN (real rate + real (f64_mul alpha (f64_sub x rate)))) by (apply RN_ge; [exact Fr|lra]).
    assert (Hhi : RN (real rate + real (f64_mul alpha (f64_sub x rate))) <= real x) by (apply RN_le; [exact Fx|lra]).
    destruct (add_real rate (f64_mul alpha (f64_sub x rate)) Gr G2) as [G3 E3]; [apply (below_overflow x Gx); lra|].
    exact E3.
  - assert (Hs := step_down (real alpha) (real rate) (real x) Fr Fx Ha ltac:(lra) Hp). unfold step in *.
    assert (Hd0 : RN (real x - real rate) <= 0) by (rewrite <- RN_0; apply RN_mono; lra).
    assert (Hd : - real rate <= RN (real x - real rate)).
    { apply RN_ge; [apply generic_format_opp; exact Fr|lra]. }
    assert (Hb : forall r, - real rate <= r <= 0 -> Rabs r < bpow radix2 f64_emax).
    { intros r H. rewrite <- Rabs_Ropp. apply (below_overflow rate Gr). lra. }
    destruct (sub_real x rate Gx Gr) as [G1 E1]; [apply Hb; lra|].
    rewrite <- E1 in *.
    destruct (mul_real alpha (f64_sub x rate) Ga G1) as [G2 E2]; [apply Hb; lra|].
    rewrite <- E2 in *.
    assert (Hlo : real x <= RN (real rate + real (f64_mul alpha (f64_sub x rate)))) by (apply RN_ge; [exact Fx|lra]).
    assert (Hhi : RN (real rate + real (f64_mul alpha (f64_sub x rate))) <= real rate) by (apply RN_le; [exact Fr|lra]).
    destruct (add_real rate (f64_mul alpha (f64_sub x rate)) Gr G2) as [G3 E3]; [apply (below_overflow rate Gr); lra|].
    exact E3.
Qed.

Lemma tiny : forall b, bpow radix2 (-100) <= b -> 100 * eta <= u * b.
Proof.
  intros b H. pose proof (bpow_gt_0 radix2 (-53)) as Hu.
  apply Rle_trans with (u * bpow radix2 (-100)); [|apply Rmult_le_compat_l; lra].
  apply Rle_trans with (bpow radix2 7 * eta).
  - apply Rmult_le_compat_r; [apply bpow_ge_0|]. change (bpow radix2 7) with (IZR 128). lra.
  - rewrite <- !bpow_plus. apply bpow_le. lia.
Qed.

(** One step *)
Lemma step_error : forall alpha b r x, 0 <= alpha <= 1 / 2 -> bpow radix2 (-100) <= b ->
  0 <= r <= b -> 0 <= x <= b ->
  Rabs (RN (r + step alpha r x) - (alpha * x + (1 - alpha) * r)) <= 4 * u * b.
Proof.
  intros alpha b r x Ha Hb Hr Hx. unfold step.
  pose proof (tiny b Hb) as T. pose proof (bpow_gt_0 radix2 (-1075)) as E0.
  pose proof small_pos as U. pose proof (bpow_gt_0 radix2 (-53)) as U0.
  pose proof (RN_abs (x - r)) as D. set (d := RN (x - r)) in *.
  assert (Dx : Rabs (x - r) <= b) by (apply Rabs_le; lra).
  assert (D1 : Rabs (d - (x - r)) <= u * b + eta) by nra.
  pose proof (RN_abs (alpha * d)) as P. set (p := RN (alpha * d)) in *.
  assert (Dd : Rabs d <= 11 / 10 * b).
  { replace d with ((d - (x - r)) + (x - r)) by lra. refine (Rle_trans _ _ _ (Rabs_triang _ _) _). nra. }
  assert (Pd : Rabs (alpha * d) <= 6 / 10 * b).
  { rewrite Rabs_mult, (Rabs_pos_eq alpha) by lra. pose proof (Rabs_pos d). nra. }
  assert (P1 : Rabs (p - alpha * d) <= u * (6 / 10 * b) + eta) by nra.
  pose proof (RN_abs (r + p)) as Q. set (q := RN (r + p)) in *.
  assert (Qp : Rabs (r + p) <= 17 / 10 * b).
  { replace (r + p) with (r + (alpha * d) + (p - alpha * d)) by lra.
    refine (Rle_trans _ _ _ (Rabs_triang _ _) _).
    assert (Rabs (r + alpha * d) <= b + 6 / 10 * b).
    { refine (Rle_trans _ _ _ (Rabs_triang _ _) _). rewrite (Rabs_pos_eq r) by lra. lra. }
    nra. }
  assert (Q1 : Rabs (q - (r + p)) <= u * (17 / 10 * b) + eta) by nra.
  replace (q - (alpha * x + (1 - alpha) * r))
    with ((q - (r + p)) + (p - alpha * d) + alpha * (d - (x - r))) by ring.
  refine (Rle_trans _ _ _ (Rabs_triang _ _) _).
  assert (A : Rabs (alpha * (d - (x - r))) <= 1 / 2 * (u * b + eta)).
  { rewrite Rabs_mult, (Rabs_pos_eq alpha) by lra. pose proof (Rabs_pos (d - (x - r))). nra. }
  pose proof (Rabs_triang (q - (r + p)) (p - alpha * d)) as T2. lra.
Qed.

(** Rates of intervals *)

Notation events n := (IZR n / IZR ticks).

Lemma events_pos : forall n, (0 <= n)%Z -> 0 <= events n.
Proof. intros n H. apply Rmult_le_pos; [apply IZR_le; lia|]. left. apply Rinv_0_lt_compat. lra. Qed.

Lemma events_low : forall n, (1 <= n)%Z -> bpow radix2 (-33) <= events n.
Proof.
  intros n H. apply Rmult_le_reg_r with (IZR ticks); [lra|]. unfold Rdiv. rewrite Rmult_assoc, Rinv_l, Rmult_1_r by lra.
  apply IZR_le in H. change (bpow radix2 (-33)) with (/ IZR (2 ^ 33)).
  assert (/ IZR (2 ^ 33) * IZR ticks <= 1); [|lra].
  apply Rmult_le_reg_l with (IZR (2 ^ 33)); [apply IZR_lt; reflexivity|].
  rewrite <- Rmult_assoc, Rinv_r by (apply not_0_IZR; discriminate). rewrite Rmult_1_l, Rmult_1_r. apply IZR_le. discriminate.
Qed.

Lemma events_mono : forall a b, (a <= b)%Z -> events a <= events b.
Proof.
  intros a b H. unfold Rdiv. apply Rmult_le_compat_r; [left; apply Rinv_0_lt_compat; lra|]. apply IZR_le, H.
Qed.

Lemma interval_error : forall n, (0 <= n < two64)%Z ->
  Rabs (real (interval_rate n) - events n) <= 3 * u * events n.
Proof.
  intros n Hn. destruct (interval_rate_real n Hn) as (_ & -> & _).
  pose proof small_pos as U. pose proof (bpow_gt_0 radix2 (-53)) as U0.
  destruct (Z.eq_dec n 0) as [->|Hz].
  { rewrite RN_0. unfold Rdiv. rewrite !Rmult_0_l, RN_0, Rminus_0_r, Rabs_R0. lra. }
  assert (H1 : 1 <= IZR n) by (apply (IZR_le 1); lia).
  assert (F1 : fine (IZR n)).
  { apply fine_ge. apply Rle_trans with 1; [|exact H1]. change 1 with (bpow radix2 0). apply bpow_le. lia. }
  pose proof (RN_rel _ F1) as C1. apply Rabs_le_inv in C1.
  assert (C2 : Rabs (RN (IZR n) / IZR ticks - events n) <= u * events n).
  { replace (RN (IZR n) / IZR ticks - events n) with ((RN (IZR n) - IZR n) * / IZR ticks) by (unfold Rdiv; ring).
    assert (K : 0 < / IZR ticks) by (apply Rinv_0_lt_compat; lra).
    rewrite Rabs_mult, (Rabs_pos_eq (/ IZR ticks)) by lra. unfold Rdiv. rewrite <- Rmult_assoc.
    apply Rmult_le_compat_r; [lra|]. apply Rabs_le. lra. }
  pose proof (events_low n ltac:(lia)) as L. pose proof (events_pos n ltac:(lia)) as P.
  apply Rabs_le_inv in C2.
  assert (F2 : fine (RN (IZR n) / IZR ticks)).
  { apply fine_ge. apply Rle_trans with (bpow radix2 (-34)); [apply bpow_le; lia|].
    change (-34)%Z with (-1 + -33)%Z. rewrite bpow_plus. change (bpow radix2 (-1)) with (/ 2). nra. }
  pose proof (RN_rel _ F2) as C3. apply Rabs_le_inv in C3.
  set (a := RN (IZR n) / IZR ticks) in *. set (e := events n) in *. set (b := RN a) in *.
  apply Rabs_le. nra.
Qed.

(** ** Many steps *)

Lemma averaged_cons : forall alpha x l, l <> [] -> averaged alpha (x :: l) = alpha * x + (1 - alpha) * averaged alpha l.
Proof. intros alpha x [|y l] H; [congruence|]. reflexivity. Qed.

Lemma smoothed_close : forall alpha hi, is_alpha alpha -> 0 < real alpha -> (1 <= hi < two64)%Z ->
  forall l, l <> [] -> counts_in 0 hi l ->
  Rabs (real (smoothed alpha l) - averaged (real alpha) (rev (map (fun n => events n) l)))
    <= 7 * u * events hi / real alpha.
Proof.
  intros alpha hi Ha Hp Hhi. pose proof Ha as [Ga Hr].
  pose proof small_pos as U. pose proof (bpow_gt_0 radix2 (-53)) as U0.
  pose proof (events_pos hi ltac:(lia)) as M0. pose proof (events_low hi ltac:(lia)) as M1.
  set (M := events hi) in *.
  assert (UM : 0 <= u * M) by (apply Rmult_le_pos; lra).
  assert (K : 7 * u * M <= 7 * u * M / real alpha).
  { apply Rmult_le_reg_r with (real alpha); [exact Hp|].
    replace (7 * u * M / real alpha * real alpha) with (7 * u * M) by (field; lra).
    assert (0 <= 7 * u * M) by (apply Rmult_le_pos; lra). nra. }
  assert (each : forall n, (0 <= n <= hi)%Z -> Rabs (real (interval_rate n) - events n) <= 3 * u * M).
  { intros n Hn. refine (Rle_trans _ _ _ (interval_error n ltac:(lia)) _).
    apply Rmult_le_compat_l; [lra|]. apply events_mono. lia. }
  assert (B : real (interval_rate hi) <= 11 / 10 * M).
  { pose proof (each hi ltac:(lia)) as H. apply Rabs_le_inv in H. fold M in H. nra. }
  assert (B1 : bpow radix2 (-100) <= 11 / 10 * M).
  { apply Rle_trans with (bpow radix2 (-33)); [apply bpow_le; lia|]. lra. }
  intros l. induction l as [|n l IH] using rev_ind; [congruence|]. intros _ Hl.
  apply Forall_app in Hl. destruct Hl as [Hl Hn]. inversion Hn as [|? ? Hn1 _]; subst.
  pose proof (each n ltac:(lia)) as E.
  destruct l as [|m l'].
  - cbn [app map rev averaged smoothed fold_left]. lra.
  - set (l := m :: l') in *. assert (Hne : l <> []) by discriminate.
    specialize (IH Hne Hl). rewrite smoothed_snoc by exact Hne.
    rewrite map_app, rev_app_distr. cbn [map rev app].
    rewrite averaged_cons by (unfold l; cbn [map rev]; intros H; apply app_eq_nil in H; destruct H; discriminate).
    destruct (smoothed_between alpha 0 hi l Ha ltac:(lia) ltac:(lia) Hne Hl) as [Gs Hs].
    rewrite interval_rate_0 in Hs.
    destruct (interval_rate_real n ltac:(lia)) as (Gn & _ & Hn0 & Hpl).
    pose proof (interval_rate_mono n hi ltac:(lia) ltac:(lia)) as Hm.
    rewrite smooth_real by (auto; lra).
    pose proof (step_error (real alpha) (11 / 10 * M) (real (smoothed alpha l)) (real (interval_rate n)) Hr B1
      ltac:(lra) ltac:(lra)) as S.
    set (a := real alpha) in *. set (r := real (smoothed alpha l)) in *. set (x := real (interval_rate n)) in *.
    set (A := averaged a (rev (map (fun n => events n) l))) in *.
    set (s := RN (r + step a r x)) in *.
    replace (s - (a * events n + (1 - a) * A))
      with ((s - (a * x + (1 - a) * r)) + (a * (x - events n) + (1 - a) * (r - A))) by ring.
    refine (Rle_trans _ _ _ (Rabs_triang _ _) _).
    assert (S2 : Rabs (a * (x - events n) + (1 - a) * (r - A)) <= a * (3 * u * M) + (1 - a) * (7 * u * M / a)).
    { refine (Rle_trans _ _ _ (Rabs_triang _ _) _). rewrite !Rabs_mult, (Rabs_pos_eq a), (Rabs_pos_eq (1 - a)) by lra.
      apply Rplus_le_compat; apply Rmult_le_compat_l; lra. }
    assert (S3 : (1 - a) * (7 * u * M / a) = 7 * u * M / a - 7 * u * M) by (field; lra).
    rewrite S3 in S2. clear S3. nra.
Qed.
