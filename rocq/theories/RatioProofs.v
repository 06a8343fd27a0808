(** The share of a collection in its iteration. *)
From Coq Require Import ZArith Bool List Lia Reals Lra Floats.SpecFloat.
From Flocq Require Import Core Relative BinarySingleNaN.
From Verif Require Import Base ModelObservation ModelDriver FloatReal ValueRateProofs SpecMetrix.
Open Scope R_scope.

(** ** Rounding *)

Definition fine (x : R) : Prop := x = 0 \/ bpow radix2 (-1000) <= x.

Lemma RN_rel : forall x, fine x -> Rabs (RN x - x) <= bpow radix2 (-53) * x.
Proof.
  intros x [-> | H]; [rewrite RN_0, Rmult_0_r, Rminus_0_r, Rabs_R0; lra|]. exact (RN_close x H).
Qed.

Lemma RN_ge0 : forall x, 0 <= x -> 0 <= RN x.
Proof. intros x H. rewrite <- RN_0. apply RN_mono. exact H. Qed.

Lemma small_pos : bpow radix2 (-53) < / 1000000.
Proof. change (bpow radix2 (-53)) with (/ IZR (2 ^ 53)). apply Rinv_lt_contravar; [|apply IZR_lt; reflexivity]. apply Rmult_lt_0_compat; [lra | apply IZR_lt; reflexivity]. Qed.

Lemma fine_ge : forall x, bpow radix2 (-100) <= x -> fine x.
Proof. intros x H. right. refine (Rle_trans _ _ _ _ H). apply bpow_le. lia. Qed.

Lemma inv_bound : forall z, (0 < z <= 2 ^ 100)%Z -> bpow radix2 (-100) <= / IZR z.
Proof.
  intros z H. change (bpow radix2 (-100)) with (/ IZR (2 ^ 100)). apply Rinv_le_contravar; [apply IZR_lt; lia | apply IZR_le; lia].
Qed.

Lemma finite_small : forall x, 0 <= x <= IZR (2 ^ 65) -> Rabs (RN x) < bpow radix2 f64_emax.
Proof.
  intros x H. rewrite Rabs_pos_eq by (apply RN_ge0; lra).
  apply Rle_lt_trans with (IZR (2 ^ 65)).
  - rewrite <- (RN_id (IZR (2 ^ 65))).
    + apply RN_mono. lra.
    + change (IZR (2 ^ 65)) with (bpow radix2 65). apply generic_format_bpow. vm_compute. discriminate.
  - change (IZR (2 ^ 65)) with (bpow radix2 65). apply bpow_lt. reflexivity.
Qed.

(** ** Seconds *)

Notation giga := 1000000000%Z.

(** Up to 2^53 seconds *)
Definition in_duration (d : Z) : Prop := (0 <= d < 2 ^ 53 * giga)%Z.

Lemma parts_of : forall d, in_duration d -> (0 <= d / giga < 2 ^ 53)%Z /\ (0 <= d mod giga < giga)%Z.
Proof.
  intros d H. unfold in_duration in H. split; [|apply Z.mod_pos_bound; reflexivity].
  split; [apply Z.div_pos; lia|]. apply Z.div_lt_upper_bound; lia.
Qed.

Definition part (d : Z) : R := RN (IZR (d mod giga) / IZR giga).

Lemma part_range : forall d, in_duration d -> 0 <= part d <= 1.
Proof.
  intros d H. destruct (parts_of d H) as (_ & H2). unfold part. split.
  - apply RN_ge0. apply Rmult_le_pos; [apply IZR_le; lia|]. apply Rlt_le, Rinv_0_lt_compat, IZR_lt. reflexivity.
  - rewrite <- (RN_id 1) by (apply (int_format 1); vm_compute; discriminate). apply RN_mono.
    apply Rmult_le_reg_r with (IZR giga); [apply IZR_lt; reflexivity|]. unfold Rdiv. rewrite Rmult_assoc, Rinv_l, Rmult_1_r, Rmult_1_l by (apply not_0_IZR; discriminate).
    apply IZR_le. lia.
Qed.

Lemma secs_real : forall d, in_duration d ->
  good (as_secs_f64 d) /\ real (as_secs_f64 d) = RN (IZR (d / giga) + part d).
Proof.
  intros d H. destruct (parts_of d H) as (H1 & H2). destruct (part_range d H) as (P0 & P1).
  assert (I1 : 0 <= IZR (d / giga) <= IZR (2 ^ 53)) by (split; apply IZR_le; lia).
  assert (N65 : IZR (2 ^ 53) + 1 <= IZR (2 ^ 65)) by (rewrite <- plus_IZR; apply IZR_le; vm_compute; discriminate).
  destruct (of_Z_real (d / giga)) as (G1 & E1). { apply finite_small. split; [lra|]. apply IZR_le. lia. }
  destruct (of_Z_real (d mod giga)) as (G2 & E2). { apply finite_small. split; [apply IZR_le; lia|]. apply IZR_le. lia. }
  destruct (of_Z_real giga) as (G3 & E3). { apply finite_small. split; apply IZR_le; vm_compute; discriminate. }
  rewrite (RN_id (IZR (d / giga))) in E1 by (apply int_format; lia).
  rewrite (RN_id (IZR (d mod giga))) in E2 by (apply int_format; lia).
  rewrite (RN_id (IZR giga)) in E3 by (apply int_format; vm_compute; discriminate).
  destruct (div_real _ _ G2 G3) as (G4 & E4).
  { rewrite E3. apply not_0_IZR. discriminate. }
  { rewrite E2, E3. fold (part d). rewrite Rabs_pos_eq by lra. apply Rle_lt_trans with 1; [lra|]. change 1 with (bpow radix2 0). apply bpow_lt. reflexivity. }
  rewrite E2, E3 in E4. fold (part d) in E4.
  destruct (add_real _ _ G1 G4) as (G5 & E5).
  { rewrite E1, E4. apply finite_small. lra. }
  unfold as_secs_f64. change (as_secs d) with (d / giga)%Z. change (subsec_nanos d) with (d mod giga)%Z.
  split; [exact G5|]. rewrite E5, E1, E4. reflexivity.
Qed.

Lemma secs_mono : forall a b, (0 <= a <= b)%Z -> in_duration b -> real (as_secs_f64 a) <= real (as_secs_f64 b).
Proof.
  intros a b H Hb. assert (Ha : in_duration a) by (unfold in_duration in *; lia).
  destruct (secs_real a Ha) as (_ & ->). destruct (secs_real b Hb) as (_ & ->). apply RN_mono.
  destruct (part_range a Ha) as (Pa0 & Pa1). destruct (part_range b Hb) as (Pb0 & Pb1).
  assert (L : (a / giga <= b / giga)%Z) by (apply Z.div_le_mono; lia).
  destruct (Z.eq_dec (a / giga) (b / giga)) as [E|N].
  - rewrite E. apply Rplus_le_compat_l. unfold part. apply RN_mono. apply Rmult_le_compat_r.
    + apply Rlt_le, Rinv_0_lt_compat, IZR_lt. reflexivity.
    + apply IZR_le. pose proof (Z.div_mod a giga ltac:(discriminate)). pose proof (Z.div_mod b giga ltac:(discriminate)). lia.
  - assert (L1 : IZR (a / giga) + 1 <= IZR (b / giga)) by (rewrite <- plus_IZR; apply IZR_le; lia). lra.
Qed.

(** Relative errors *)
Definition near (e x y : R) : Prop := Rabs (x - y) <= e * y.


Lemma near_both : forall e x y, near e x y -> y * (1 - e) <= x <= y * (1 + e).
Proof. intros e x y H. unfold near in H. apply Rabs_le_inv in H. lra. Qed.
Lemma both_near : forall e x y, y * (1 - e) <= x <= y * (1 + e) -> near e x y.
Proof. intros e x y H. unfold near. apply Rabs_le. lra. Qed.

Lemma secs_near : forall d, in_duration d -> near (bpow radix2 (-51)) (real (as_secs_f64 d)) (IZR d / IZR giga).
Proof.
  intros d H. destruct (secs_real d H) as (_ & ->). destruct (parts_of d H) as (H1 & H2).
  set (u := bpow radix2 (-53)). assert (U : 0 < u) by apply bpow_gt_0. pose proof small_pos as U1. fold u in U1.
  assert (U4 : bpow radix2 (-51) = 4 * u). { unfold u. change (-51)%Z with (2 + -53)%Z. rewrite bpow_plus. reflexivity. }
  rewrite U4.
  assert (Gp : 0 < IZR giga) by (apply IZR_lt; reflexivity).
  assert (F : fine (IZR (d mod giga) / IZR giga)).
  { destruct (Z.eq_dec (d mod giga) 0) as [E|N]; [left; rewrite E; unfold Rdiv; apply Rmult_0_l|].
    apply fine_ge. apply Rle_trans with (/ IZR giga); [apply inv_bound; split; [reflexivity|vm_compute; discriminate]|].
    unfold Rdiv. rewrite <- (Rmult_1_l (/ IZR giga)) at 1. apply Rmult_le_compat_r; [apply Rlt_le, Rinv_0_lt_compat; lra|]. apply IZR_le. lia. }
  assert (E : IZR d / IZR giga = IZR (d / giga) + IZR (d mod giga) / IZR giga).
  { rewrite (Z.div_mod d giga) at 1 by discriminate. rewrite plus_IZR, mult_IZR. field. }
  assert (Q : near u (part d) (IZR (d mod giga) / IZR giga)) by exact (RN_rel _ F). apply near_both in Q.
  set (p := IZR (d mod giga) / IZR giga) in *. assert (P0 : 0 <= p).
  { unfold p. apply Rmult_le_pos; [apply IZR_le; lia|]. apply Rlt_le, Rinv_0_lt_compat. lra. }
  set (s := IZR (d / giga)) in *. assert (S0 : 0 <= s) by (apply IZR_le; lia).
  assert (F2 : fine (s + part d)).
  { destruct (Z.eq_dec d 0) as [E0|N0].
    - left. unfold s, part. rewrite E0. rewrite Z.div_0_l, Z.mod_0_l by discriminate. unfold Rdiv. rewrite Rmult_0_l, RN_0. lra.
    - destruct (Z.eq_dec (d / giga) 0) as [E1|N1].
      + assert (s = 0) as -> by (unfold s; rewrite E1; reflexivity). right. destruct F as [F|F].
        * exfalso. unfold p in *. apply Rmult_integral in F. destruct F as [F|F].
          -- apply eq_IZR in F. pose proof (Z.div_mod d giga ltac:(discriminate)). lia.
          -- pose proof (Rinv_0_lt_compat _ Gp). lra.
        * rewrite Rplus_0_l. unfold part. fold p. rewrite <- (RN_id (bpow radix2 (-1000))); [apply RN_mono; exact F|].
          apply generic_format_bpow. vm_compute. discriminate.
      + apply fine_ge. destruct (part_range d H). assert (1 <= s) by (apply IZR_le; lia).
        apply Rle_trans with 1; [|lra]. change 1 with (bpow radix2 0). apply bpow_le. lia. }
  assert (Q2 : near u (RN (s + part d)) (s + part d)) by exact (RN_rel _ F2). apply near_both in Q2.
  apply both_near. rewrite E. fold s p.
  assert (Pd : 0 <= p * u) by (apply Rmult_le_pos; lra).
  split; nra.
Qed.

(** ** The ratio *)

Lemma as_u64_floor : forall f, good f -> 0 <= real f < IZR two64 -> f64_as_u64 f = Zfloor (real f).
Proof.
  intros f (_ & Fin) Hr. destruct f as [s|s| |s m e]; try discriminate Fin.
  - cbn. symmetry. exact (Zfloor_IZR 0).
  - destruct s.
    + exfalso. unfold real, SF2R in Hr. pose proof (F2R_lt_0 radix2 (Float radix2 (cond_Zopp true (Zpos m)) e)). cbn [Fnum] in H. specialize (H ltac:(reflexivity)). lra.
    + unfold f64_as_u64.
      assert (E : (if (0 <=? e)%Z then Zpos m * 2 ^ e else Zpos m / 2 ^ (- e))%Z = Zfloor (real (S754_finite false m e))).
      { unfold real, SF2R, F2R. cbn [cond_Zopp Fnum Fexp]. destruct (Z.leb_spec 0 e) as [L|L].
        - rewrite <- IZR_Zpower by exact L. rewrite <- mult_IZR, Zfloor_IZR. reflexivity.
        - rewrite <- Zfloor_div by (apply Z.pow_nonzero; lia). f_equal. unfold Rdiv. f_equal.
          change 2%Z with (radix_val radix2). rewrite (IZR_Zpower radix2 (- e)) by lia. rewrite <- bpow_opp. f_equal. lia. }
      rewrite E. unfold clamp. assert (L : (0 <= Zfloor (real (S754_finite false m e)) < two64)%Z).
      { split; [apply Zfloor_lub; apply Hr|]. apply lt_IZR. refine (Rle_lt_trans _ _ _ (Zfloor_lb _) _). apply Hr. }
      lia.
Qed.

Definition share (t w : Z) : R := RN (RN (real (as_secs_f64 t) / real (as_secs_f64 w)) * IZR 1000).

Lemma thousand : generic_format radix2 fmt (IZR 1000).
Proof. apply int_format. vm_compute. discriminate. Qed.

Lemma secs_pos : forall w, in_duration w -> (0 < w)%Z -> 0 < real (as_secs_f64 w).
Proof.
  intros w H Hw. pose proof (secs_near w H) as N. apply near_both in N. destruct N as (N & _). refine (Rlt_le_trans _ _ _ _ N).
  apply Rmult_lt_0_compat; [apply Rdiv_lt_0_compat; apply IZR_lt; [exact Hw | reflexivity]|].
  enough (bpow radix2 (-51) < 1) by lra. change 1 with (bpow radix2 0). apply bpow_lt. reflexivity.
Qed.

Lemma share_real : forall t w, (0 <= t <= w)%Z -> (0 < w)%Z -> in_duration w ->
  0 <= share t w <= 1000 /\ per_mille t w = Zfloor (share t w).
Proof.
  intros t w H Hw Dw. assert (Dt : in_duration t) by (unfold in_duration in *; lia).
  destruct (secs_real t Dt) as (Gt & Et). destruct (secs_real w Dw) as (Gw & Ew).
  assert (Pw := secs_pos w Dw Hw). assert (M := secs_mono t w H Dw).
  assert (P0 : 0 <= real (as_secs_f64 t)).
  { pose proof (secs_near t Dt) as N. apply near_both in N. destruct N as (N & _). refine (Rle_trans _ _ _ _ N).
    apply Rmult_le_pos; [apply Rmult_le_pos; [apply IZR_le; lia | apply Rlt_le, Rinv_0_lt_compat, IZR_lt; reflexivity]|].
    enough (bpow radix2 (-51) < 1) by lra. change 1 with (bpow radix2 0). apply bpow_lt. reflexivity. }
  set (a := real (as_secs_f64 t)) in *. set (b := real (as_secs_f64 w)) in *.
  assert (Q : 0 <= a / b <= 1).
  { split; [apply Rmult_le_pos; [exact P0 | apply Rlt_le, Rinv_0_lt_compat; exact Pw]|].
    apply Rmult_le_reg_r with b; [exact Pw|]. unfold Rdiv. rewrite Rmult_assoc, Rinv_l, Rmult_1_r, Rmult_1_l by lra. exact M. }
  assert (R1 : 0 <= RN (a / b) <= 1).
  { split; [apply RN_ge0; lra|]. rewrite <- (RN_id 1) by (apply (int_format 1); vm_compute; discriminate). apply RN_mono. lra. }
  assert (R2 : 0 <= share t w <= 1000).
  { unfold share. fold a b. split; [apply RN_ge0; lra|]. rewrite <- (RN_id 1000) at 2 by exact thousand. apply RN_mono. lra. }
  split; [exact R2|].
  destruct (div_real _ _ Gt Gw) as (G1 & E1). { fold b. lra. } { fold a b. rewrite Rabs_pos_eq by lra. apply Rle_lt_trans with 1; [lra|]. change 1 with (bpow radix2 0). apply bpow_lt. reflexivity. }
  destruct (of_Z_real 1000) as (G3 & E3). { apply finite_small. split; [lra|]. apply IZR_le. vm_compute. discriminate. }
  rewrite (RN_id _ thousand) in E3. fold a b in E1.
  destruct (mul_real _ _ G1 G3) as (G2 & E2).
  { rewrite E1, E3. fold (share t w). rewrite Rabs_pos_eq by (apply RN_ge0; lra). unfold share in R2. fold a b in R2. apply Rle_lt_trans with 1000; [lra|].
    apply Rlt_trans with (bpow radix2 10); [change (bpow radix2 10) with (IZR 1024); lra | apply bpow_lt; reflexivity]. }
  rewrite E1, E3 in E2. change (RN (RN (a / b) * 1000)) with (share t w) in E2.
  unfold per_mille. rewrite !Z.max_r by lia. rewrite <- E2. apply as_u64_floor; [exact G2|]. rewrite E2. split; [lra|]. apply Rle_lt_trans with 1000; [lra|].
  apply IZR_lt. reflexivity.
Qed.

Lemma per_mille_range : forall t w, (0 <= t <= w)%Z -> (0 < w)%Z -> in_duration w -> (0 <= per_mille t w <= 1000)%Z.
Proof.
  intros t w H Hw Dw. destruct (share_real t w H Hw Dw) as (B & ->). split; [apply Zfloor_lub; lra|].
  apply le_IZR. refine (Rle_trans _ _ _ (Zfloor_lb _) _). lra.
Qed.

Lemma share_near : forall t w, (0 <= t <= w)%Z -> (0 < w)%Z -> in_duration w -> Rabs (share t w - 1000 * (IZR t / IZR w)) <= bpow radix2 (-38).
Proof.
  intros t w H Hw Dw. assert (Dt : in_duration t) by (unfold in_duration in *; lia).
  set (u := bpow radix2 (-53)). assert (U : 0 < u) by apply bpow_gt_0. pose proof small_pos as U1. fold u in U1.
  assert (U4 : bpow radix2 (-51) = 4 * u). { unfold u. change (-51)%Z with (2 + -53)%Z. rewrite bpow_plus. reflexivity. }
  assert (U38 : bpow radix2 (-38) = 32768 * u). { unfold u. change (-38)%Z with (15 + -53)%Z. rewrite bpow_plus. reflexivity. }
  pose proof (secs_near t Dt) as Nt. pose proof (secs_near w Dw) as Nw. rewrite U4 in Nt, Nw. apply near_both in Nt, Nw.
  assert (Pw := secs_pos w Dw Hw). unfold share.
  set (a := real (as_secs_f64 t)) in *. set (b := real (as_secs_f64 w)) in *.
  assert (W0 : 0 < IZR w) by (apply IZR_lt; exact Hw). assert (T0 : 0 <= IZR t <= IZR w) by (split; apply IZR_le; lia).
  assert (Gp : 0 < IZR giga) by (apply IZR_lt; reflexivity).
  set (q := IZR t / IZR w). assert (Q0 : 0 <= q <= 1).
  { unfold q. split; [apply Rmult_le_pos; [lra | apply Rlt_le, Rinv_0_lt_compat; lra]|].
    apply Rmult_le_reg_r with (IZR w); [lra|]. unfold Rdiv. rewrite Rmult_assoc, Rinv_l, Rmult_1_r, Rmult_1_l by lra. lra. }
  assert (At : IZR t / IZR giga = q * (IZR w / IZR giga)) by (unfold q; field; lra).
  set (y := IZR w / IZR giga) in *. assert (Y0 : 0 < y) by (apply Rdiv_lt_0_compat; lra). rewrite At in Nt.
  (* the quotient of the rounded times *)
  assert (Nq : near (9 * u) (a / b) q).
  { apply both_near. split.
    - apply Rmult_le_reg_r with b; [exact Pw|]. replace (a / b * b) with a by (field; lra).
      apply Rle_trans with (q * y * (1 - 4 * u)); [|lra]. apply Rle_trans with (q * (1 - 9 * u) * (y * (1 + 4 * u))).
      + apply Rmult_le_compat_l; [|lra]. apply Rmult_le_pos; lra.
      + assert (0 <= q * y) by (apply Rmult_le_pos; lra). nra.
    - apply Rmult_le_reg_r with b; [exact Pw|]. replace (a / b * b) with a by (field; lra).
      apply Rle_trans with (q * y * (1 + 4 * u)); [lra|]. apply Rle_trans with (q * (1 + 9 * u) * (y * (1 - 4 * u))).
      + assert (0 <= q * y) by (apply Rmult_le_pos; lra). assert (0 <= q * y * u) by (apply Rmult_le_pos; lra). nra.
      + apply Rmult_le_compat_l; [|lra]. apply Rmult_le_pos; lra. }
  apply near_both in Nq.
  assert (Tiny : t = 0%Z \/ bpow radix2 (-100) <= q).
  { destruct (Z.eq_dec t 0) as [E|N]; [left; exact E|right]. apply Rle_trans with (/ IZR w).
    - apply inv_bound. split; [exact Hw|]. unfold in_duration in Dw. lia.
    - unfold q, Rdiv. rewrite <- (Rmult_1_l (/ IZR w)) at 1. apply Rmult_le_compat_r; [apply Rlt_le, Rinv_0_lt_compat; lra|]. apply IZR_le. lia. }
  destruct Tiny as [E|Tiny].
  { assert (Z0 : a / b = 0). { assert (q = 0) as Eq by (unfold q; rewrite E; unfold Rdiv; apply Rmult_0_l). rewrite Eq in Nq. lra. }
    rewrite Z0, RN_0, Rmult_0_l, RN_0. unfold q. rewrite E. unfold Rdiv. rewrite !Rmult_0_l, Rmult_0_r, Rminus_0_r, Rabs_R0. apply bpow_ge_0. }
  assert (B101 : bpow radix2 (-100) = 2 * bpow radix2 (-101)). { change (-100)%Z with (1 + -101)%Z. rewrite bpow_plus. reflexivity. }
  pose proof (bpow_gt_0 radix2 (-101)) as P101.
  assert (F1 : fine (a / b)). { right. apply Rle_trans with (bpow radix2 (-101)); [apply bpow_le; lia|]. nra. }
  assert (N1 : near u (RN (a / b)) (a / b)) by exact (RN_rel _ F1). apply near_both in N1.
  set (r := RN (a / b)) in *. set (x := a / b) in *.
  assert (X0 : bpow radix2 (-101) <= x) by nra.
  assert (F2 : fine (r * IZR 1000)). { right. apply Rle_trans with (bpow radix2 (-101)); [apply bpow_le; lia|]. nra. }
  assert (N2 : near u (RN (r * IZR 1000)) (r * IZR 1000)) by exact (RN_rel _ F2). apply near_both in N2.
  set (m := RN (r * IZR 1000)) in *. rewrite U38.
  assert (Xq : Rabs (x - q) <= 9 * u). { apply Rabs_le. assert (0 <= q * u <= u) by (split; nra). lra. } apply Rabs_le_inv in Xq.
  assert (X1 : 0 <= x <= 2) by lra.
  assert (Xr : Rabs (r - x) <= 2 * u). { apply Rabs_le. assert (0 <= x * u <= 2 * u) by (split; nra). lra. } apply Rabs_le_inv in Xr.
  assert (R1 : 0 <= r <= 3) by nra.
  assert (Xm : Rabs (m - r * 1000) <= 3000 * u). { apply Rabs_le. assert (0 <= r * 1000 * u <= 3000 * u) by (split; nra). lra. } apply Rabs_le_inv in Xm.
  apply Rabs_le. lra.
Qed.

(** At most one more or less than the exact share; exactly that or one less if the
    iteration took less than 2^38 nanoseconds *)
Lemma per_mille_close : forall t w, (0 <= t <= w)%Z -> (0 < w)%Z -> in_duration w ->
  (1000 * t / w - 1 <= per_mille t w <= 1000 * t / w + 1)%Z.
Proof.
  intros t w H Hw Dw. destruct (share_real t w H Hw Dw) as (B & ->). pose proof (share_near t w H Hw Dw) as N. apply Rabs_le_inv in N.
  assert (S1 : bpow radix2 (-38) < 1) by (change 1 with (bpow radix2 0); apply bpow_lt; reflexivity).
  assert (W0 : 0 < IZR w) by (apply IZR_lt; exact Hw).
  assert (Eq : 1000 * (IZR t / IZR w) = IZR (1000 * t) / IZR w) by (rewrite mult_IZR; field; lra). rewrite Eq in N.
  rewrite <- (Zfloor_div (1000 * t) w) by lia. set (x := IZR (1000 * t) / IZR w) in *.
  pose proof (Zfloor_lb x) as L1. pose proof (Zfloor_ub x) as L2. split.
  - apply Zfloor_lub. rewrite minus_IZR. lra.
  - apply Z.lt_succ_r. apply lt_IZR. rewrite succ_IZR, plus_IZR. pose proof (Zfloor_lb (share t w)). lra.
Qed.

Lemma per_mille_exact : forall t w, (0 <= t <= w)%Z -> (0 < w < 2 ^ 38)%Z ->
  let q := (1000 * t / w)%Z in
  per_mille t w = q \/ ((1000 * t) mod w = 0 /\ per_mille t w = q - 1)%Z.
Proof.
  intros t w H (Hw & Hs) q. assert (Dw : in_duration w) by (unfold in_duration; lia).
  destruct (share_real t w H Hw Dw) as (B & ->). pose proof (share_near t w H Hw Dw) as N. apply Rabs_le_inv in N.
  assert (W0 : 0 < IZR w) by (apply IZR_lt; exact Hw).
  assert (Eq : 1000 * (IZR t / IZR w) = IZR (1000 * t) / IZR w) by (rewrite mult_IZR; field; lra). rewrite Eq in N.
  assert (S1 : bpow radix2 (-38) < / IZR w).
  { change (bpow radix2 (-38)) with (/ IZR (2 ^ 38)). apply Rinv_lt_contravar; [apply Rmult_lt_0_compat; [lra | apply IZR_lt; reflexivity]|]. apply IZR_lt. exact Hs. }
  pose proof (Z.div_mod (1000 * t) w ltac:(lia)) as E. fold q in E. pose proof (Z.mod_pos_bound (1000 * t) w Hw) as Mb.
  set (r := ((1000 * t) mod w)%Z) in *.
  assert (Ex : IZR (1000 * t) / IZR w = IZR q + IZR r * / IZR w). { rewrite E, plus_IZR, mult_IZR. field. lra. }
  rewrite Ex in N. assert (I0 : 0 < / IZR w) by (apply Rinv_0_lt_compat; lra).
  assert (Iw : IZR w * / IZR w = 1) by (apply Rinv_r; lra).
  destruct (Z.eq_dec r 0) as [Z0|N0].
  - rewrite Z0, Rmult_0_l, Rplus_0_r in N.
    assert (H38 : bpow radix2 (-38) < 1) by (change 1 with (bpow radix2 0); apply bpow_lt; reflexivity).
    destruct (Rle_lt_dec (IZR q) (share t w)) as [L|L].
    + left. apply Zfloor_imp. rewrite plus_IZR. lra.
    + right. split; [exact Z0|]. apply Zfloor_imp. rewrite minus_IZR, plus_IZR, minus_IZR. lra.
  - left. apply Zfloor_imp. rewrite plus_IZR.
    assert (R1 : IZR 1 * / IZR w <= IZR r * / IZR w) by (apply Rmult_le_compat_r; [lra | apply IZR_le; lia]).
    assert (R2 : IZR r * / IZR w <= IZR (w - 1) * / IZR w) by (apply Rmult_le_compat_r; [lra | apply IZR_le; lia]).
    rewrite minus_IZR in R2. lra.
Qed.
