(** An exponential function as accurate as required. *)
From Coq Require Import ZArith Bool List Lia Reals Lra Floats.SpecFloat.
From Flocq Require Import Core BinarySingleNaN.
From Verif Require Import Base SpecAlpha ModelMeter ModelAlpha FloatReal AverageProofs AlphaProofs.
Import ListNotations.
Open Scope R_scope.

(** The nearest multiple of [2^-53] *)
Definition exp_rounded (x : f64) : f64 := f64_div (f64_of_Z (ZnearestE (exp (real x) * 2 ^ 53))) (f64_of_Z (2 ^ 53)).

(** With the values that are computed in practice for the exponents of the meter *)
Definition exp_libm (x : f64) : f64 :=
  match x with
  | S754_finite true 6004799503160661 (-56) => S754_finite false 8287023365777853 (-53)
  | S754_finite true 4803839602528529 (-58) => S754_finite false 8858323345921113 (-53)
  | S754_finite true 6405119470038038 (-60) => S754_finite false 8957298001819546 (-53)
  | _ => exp_rounded x
  end.

Lemma exp_rounded_accurate : accurate_exp exp_rounded.
Proof.
  intros x Gx Hx. unfold exp_rounded. set (e := exp (real x)).
  assert (He : 0 <= e <= 1) by (split; [left; apply exp_pos | apply exp_below_1; lra]).
  set (z := ZnearestE (e * 2 ^ 53)).
  assert (P53 : 2 ^ 53 = IZR 9007199254740992) by lra.
  assert (Hz : Rabs (IZR z - e * 2 ^ 53) <= / 2) by (rewrite Rabs_minus_sym; apply Znearest_half). rewrite P53 in *. apply Rabs_le_inv in Hz.
  assert (Hz2 : (0 <= z <= 9007199254740992)%Z).
  { assert (A : (-1 < z)%Z) by (apply lt_IZR; lra). assert (B : (z < 9007199254740993)%Z) by (apply lt_IZR; lra). lia. }
  destruct (of_int_real z ltac:(lia)) as [G1 E1]. destruct (of_int_real (2 ^ 53) ltac:(lia)) as [G2 E2].
  assert (Hq : 0 <= IZR z / IZR 9007199254740992 <= 1).
  { destruct Hz2 as [A B]. apply IZR_le in A. apply IZR_le in B. lra. }
  pose proof (RN_abs (IZR z / IZR 9007199254740992)) as Hr. rewrite (Rabs_pos_eq (IZR z / _)) in Hr by lra.
  assert (U : u = / IZR 9007199254740992) by reflexivity. rewrite U in Hr. apply Rabs_le_inv in Hr.
  assert (Heta : 0 <= eta <= / IZR 9007199254740992 / 10).
  { split; [apply bpow_ge_0|]. apply Rle_trans with (bpow radix2 (-60)); [apply bpow_le; lia|]. cbn. lra. }
  destruct (div_real (f64_of_Z z) (f64_of_Z (2 ^ 53)) G1 G2) as [Gd Ed].
  { rewrite E2. lra. }
  { rewrite E1, E2. change (IZR (2 ^ 53)) with (IZR 9007199254740992). apply Rle_lt_trans with 2.
    - apply Rabs_le. lra.
    - change 2 with (bpow radix2 1). apply bpow_lt. reflexivity. }
  rewrite E1, E2 in Ed. change (IZR (2 ^ 53)) with (IZR 9007199254740992) in Ed. split; [exact Gd|]. rewrite Ed.
  assert (P52 : / 2 ^ 52 = / IZR 4503599627370496) by (f_equal; lra). rewrite P52. apply Rabs_le. lra.
Qed.

(** The power series *)
Definition exp_terms (y : R) (n : nat) : R := / INR (fact n) * y ^ n.

Lemma exp_series : forall y n, 0 <= y <= 1 ->
  sum_f_R0 (tg_alt (exp_terms y)) (S (2 * n)) <= exp (- y) <= sum_f_R0 (tg_alt (exp_terms y)) (2 * n).
Proof.
  intros y n Hy. apply alternated_series_ineq.
  - intros k. unfold exp_terms. cbn [pow]. change (fact (S k)) with (S k * fact k)%nat. rewrite mult_INR.
    assert (F : 0 < INR (fact k)) by apply INR_fact_lt_0. assert (S1 : 1 <= INR (S k)) by (rewrite S_INR; pose proof (pos_INR k); lra).
    assert (Y : 0 <= y ^ k) by (apply pow_le; lra). rewrite Rinv_mult.
    assert (I : 0 < / INR (fact k)) by (apply Rinv_0_lt_compat; exact F).
    assert (J : 0 < / INR (S k) <= 1). { split; [apply Rinv_0_lt_compat; lra|]. rewrite <- Rinv_1. apply Rinv_le_contravar; lra. }
    set (i := / INR (fact k)) in *. set (j := / INR (S k)) in *. set (p := y ^ k) in *.
    replace (j * i * (y * p)) with ((j * y) * (i * p)) by ring.
    assert (0 <= i * p) by (apply Rmult_le_pos; lra). assert (j * y <= 1) by nra. nra.
  - intros eps Heps. destruct (cv_speed_pow_fact y eps Heps) as [N HN]. exists N. intros m Hm. specialize (HN m Hm).
    unfold exp_terms. rewrite Rmult_comm. exact HN.
  - intros eps Heps. destruct (proj2_sig (exist_exp (- y)) eps Heps) as [N HN]. exists N. intros m Hm. specialize (HN m Hm).
    fold (exp (- y)) in HN. erewrite sum_eq; [exact HN|]. intros k _. unfold tg_alt, exp_terms. cbv beta.
    replace (- y) with (-1 * y) by ring. rewrite Rpow_mult_distr. ring.
Qed.

Fixpoint exp_term (y : R) (n : nat) : R :=
  match n with O => 1 | S k => exp_term y k * y / IZR (Z.of_nat (S k)) end.

Lemma exp_terms_rec : forall y n, exp_terms y n = exp_term y n.
Proof.
  intros y n. induction n as [|n IH]; [unfold exp_terms; cbn; lra|]. cbn [exp_term]. rewrite <- IH, <- INR_IZR_INZ.
  unfold exp_terms. cbn [pow]. change (fact (S n)) with (S n * fact n)%nat. rewrite mult_INR, Rinv_mult. unfold Rdiv. ring.
Qed.

Lemma libm_value : forall y m, 0 <= y <= 1 ->
  - / IZR 6004799503160661 <= IZR m / IZR 9007199254740992 - sum_f_R0 (tg_alt (exp_terms y)) 10 ->
  IZR m / IZR 9007199254740992 - sum_f_R0 (tg_alt (exp_terms y)) 11 <= / IZR 6004799503160661 ->
  Rabs (IZR m / IZR 9007199254740992 - exp (- y)) <= / IZR 6004799503160661.
Proof.
  intros y m Hy H1 H2. pose proof (exp_series y 5 Hy) as H. cbn [Nat.mul Nat.add] in H. apply Rabs_le. lra.
Qed.

Lemma libm_accurate : accurate_exp exp_libm.
Proof.
  assert (P : forall m e, real (S754_finite true m (Zneg e)) = - (IZR (Zpos m) / IZR (Z.pow_pos 2 e))).
  { intros m e. unfold real, SF2R, F2R. cbn [Fnum Fexp cond_Zopp bpow radix_val radix2]. rewrite opp_IZR. unfold Rdiv. ring. }
  assert (Q : forall m, real (S754_finite false m (-53)) = IZR (Zpos m) / IZR 9007199254740992) by reflexivity.
  assert (P52 : / 2 ^ 52 = / IZR 4503599627370496) by (f_equal; lra).
  assert (L : forall y m x, 0 <= y <= 1 -> x <= 0 -> Rabs (x - - y) <= / IZR 36028797018963968 ->
    Rabs (IZR m / IZR 9007199254740992 - exp (- y)) <= / IZR 6004799503160661 ->
    Rabs (IZR m / IZR 9007199254740992 - exp x) <= / 2 ^ 52).
  { intros y m x Hy Hx H1 H2. assert (Hl : Rabs (exp x - exp (- y)) <= Rabs (x - - y)) by (apply exp_lipschitz; lra).
    rewrite P52. apply Rabs_le_inv in H2. assert (H3 := Rle_trans _ _ _ Hl H1). apply Rabs_le_inv in H3. apply Rabs_le. lra. }
  intros x Gx Hx. pose proof (exp_rounded_accurate x Gx Hx) as D.
  assert (C : x = S754_finite true 6004799503160661 (-56) \/ x = S754_finite true 4803839602528529 (-58)
    \/ x = S754_finite true 6405119470038038 (-60) \/ exp_libm x = exp_rounded x).
  { destruct x as [ | | |[] m e]; auto. unfold exp_libm.
    repeat match goal with |- context [match ?a with _ => _ end] => destruct a end; auto. }
  destruct C as [-> | [-> | [-> | ->]]]; [| | |exact D]; clear D.
  - split; [split; reflexivity|]. change (exp_libm _) with (S754_finite false 8287023365777853 (-53)). rewrite Q, P in *.
    change (Z.pow_pos 2 56) with 72057594037927936%Z in *. apply (L (/ 12)); [lra | lra | apply Rabs_le; lra|].
    apply libm_value; [lra | |]; unfold tg_alt; cbn [sum_f_R0]; rewrite !exp_terms_rec; cbn [exp_term Z.of_nat Pos.of_succ_nat Pos.succ pow]; lra.
  - split; [split; reflexivity|]. change (exp_libm _) with (S754_finite false 8858323345921113 (-53)). rewrite Q, P in *.
    change (Z.pow_pos 2 58) with 288230376151711744%Z in *. apply (L (/ 60)); [lra | lra | apply Rabs_le; lra|].
    apply libm_value; [lra | |]; unfold tg_alt; cbn [sum_f_R0]; rewrite !exp_terms_rec; cbn [exp_term Z.of_nat Pos.of_succ_nat Pos.succ pow]; lra.
  - split; [split; reflexivity|]. change (exp_libm _) with (S754_finite false 8957298001819546 (-53)). rewrite Q, P in *.
    change (Z.pow_pos 2 60) with 1152921504606846976%Z in *. apply (L (/ 180)); [lra | lra | apply Rabs_le; lra|].
    apply libm_value; [lra | |]; unfold tg_alt; cbn [sum_f_R0]; rewrite !exp_terms_rec; cbn [exp_term Z.of_nat Pos.of_succ_nat Pos.succ pow]; lra.
Qed.
