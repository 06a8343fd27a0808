(** The float operations of the model as rounded operations on real numbers
    (Flocq). *)
From Coq Require Import ZArith Bool List Lia Reals Lra Floats.SpecFloat.
From Flocq Require Import Core IEEE754.BinarySingleNaN.
From Verif Require Import Base.
Open Scope R_scope.

Local Instance prec_pos : Prec_gt_0 f64_prec := eq_refl.
Local Instance prec_emax : Prec_lt_emax f64_prec f64_emax := eq_refl.

Notation fmt := (SpecFloat.fexp f64_prec f64_emax).
Notation B64 := (binary_float f64_prec f64_emax).
Notation toSF := (B2SF (prec := f64_prec) (emax := f64_emax)).
Notation toB := (SF2B (prec := f64_prec) (emax := f64_emax)).

Local Instance fmt_valid : Valid_exp fmt := FLT_exp_valid (SpecFloat.emin f64_prec f64_emax) f64_prec.

(** Round to nearest, ties to even. *)
Definition RN (x : R) : R := round radix2 fmt ZnearestE x.

Definition real (f : f64) : R := SF2R radix2 f.

Definition good (f : f64) : Prop := f64_valid f = true /\ is_finite_SF f = true.

Lemma round_nearest_even_equiv : forall s m l,
  round_nearest_even m l = choice_mode mode_NE s m l.
Proof.
  intros s m l. case l; [reflexivity|intro c]. case c; [|reflexivity..].
  simpl. unfold Round.cond_incr. case Z.even; reflexivity.
Qed.

Lemma binary_round_aux_equiv : forall sx mx ex lx,
  SpecFloat.binary_round_aux f64_prec f64_emax sx mx ex lx
  = binary_round_aux f64_prec f64_emax mode_NE sx mx ex lx.
Proof.
  intros. unfold SpecFloat.binary_round_aux, binary_round_aux.
  set (mrse' := shr_fexp _ _ _). case mrse'; intros mrs' e'; simpl.
  rewrite (round_nearest_even_equiv sx). reflexivity.
Qed.

Lemma binary_round_equiv : forall s m e,
  SpecFloat.binary_round f64_prec f64_emax s m e = binary_round f64_prec f64_emax mode_NE s m e.
Proof.
  intros. unfold SpecFloat.binary_round, binary_round, shl_align_fexp.
  set (mez := shl_align _ _ _). case mez as [mz ez]. apply binary_round_aux_equiv.
Qed.

Lemma binary_normalize_equiv : forall m e szero,
  SpecFloat.binary_normalize f64_prec f64_emax m e szero
  = toSF (binary_normalize f64_prec f64_emax _ _ mode_NE m e szero).
Proof.
  intros. case m as [|p|p].
  - reflexivity.
  - simpl. rewrite B2SF_SF2B. apply binary_round_equiv.
  - simpl. rewrite B2SF_SF2B. apply binary_round_equiv.
Qed.

Lemma add_equiv : forall x y : B64, f64_add (toSF x) (toSF y) = toSF (Bplus mode_NE x y).
Proof.
  intros [sx|sx| |sx mx ex Bx] [sy|sy| |sy my ey By];
    [now (trivial || simpl; case Bool.eqb).. | ].
  apply binary_normalize_equiv.
Qed.

Lemma sub_equiv : forall x y : B64, f64_sub (toSF x) (toSF y) = toSF (Bminus mode_NE x y).
Proof.
  intros [sx|sx| |sx mx ex Bx] [sy|sy| |sy my ey By];
    [now (trivial || simpl; case Bool.eqb).. | ].
  simpl. unfold f64_sub, SFsub. unfold Zminus. rewrite <- cond_Zopp_negb.
  apply binary_normalize_equiv.
Qed.

Lemma mul_equiv : forall x y : B64, f64_mul (toSF x) (toSF y) = toSF (Bmult mode_NE x y).
Proof.
  intros [sx|sx| |sx mx ex Bx] [sy|sy| |sy my ey By]; [now trivial.. | ].
  simpl. rewrite B2SF_SF2B. apply binary_round_aux_equiv.
Qed.

Lemma div_equiv : forall x y : B64, f64_div (toSF x) (toSF y) = toSF (Bdiv mode_NE x y).
Proof.
  intros [sx|sx| |sx mx ex Bx] [sy|sy| |sy my ey By];
    [now (trivial || simpl; case Bool.eqb).. | ].
  simpl. rewrite B2SF_SF2B. unfold f64_div, SFdiv.
  set (melz := SFdiv_core_binary _ _ _ _ _ _). case melz as [[mz ez] lz].
  apply binary_round_aux_equiv.
Qed.

Lemma good_B : forall f, good f -> exists b : B64, f = toSF b /\ is_finite b = true /\ B2R b = real f.
Proof.
  intros f [Hv Hf]. exists (toB f Hv). split; [symmetry; apply B2SF_SF2B|].
  split; [rewrite is_finite_SF2B; exact Hf|apply B2R_SF2B].
Qed.

Lemma B_good : forall b : B64, is_finite b = true -> good (toSF b).
Proof.
  intros b H. split; [apply valid_binary_B2SF|]. rewrite is_finite_SF_B2SF. exact H.
Qed.

Lemma B_real : forall b : B64, real (toSF b) = B2R b.
Proof. intros. apply SF2R_B2SF. Qed.

Lemma real_format : forall f, good f -> generic_format radix2 fmt (real f).
Proof.
  intros f H. destruct (good_B f H) as (b & _ & _ & <-). apply generic_format_B2R.
Qed.

Lemma real_bound : forall f, good f -> Rabs (real f) < bpow radix2 f64_emax.
Proof.
  intros f H. destruct (good_B f H) as (b & _ & _ & <-). apply abs_B2R_lt_emax.
Qed.

Lemma add_real : forall x y, good x -> good y -> Rabs (RN (real x + real y)) < bpow radix2 f64_emax ->
  good (f64_add x y) /\ real (f64_add x y) = RN (real x + real y).
Proof.
  intros x y Hx Hy Hb. destruct (good_B x Hx) as (a & -> & Fa & Ra).
  destruct (good_B y Hy) as (b & -> & Fb & Rb). rewrite add_equiv.
  pose proof (Bplus_correct _ _ _ _ mode_NE a b Fa Fb) as H.
  rewrite Ra, Rb in H. rewrite Rlt_bool_true in H by exact Hb. destruct H as (H1 & H2 & _).
  split; [apply B_good; exact H2|]. rewrite B_real. exact H1.
Qed.

Lemma sub_real : forall x y, good x -> good y -> Rabs (RN (real x - real y)) < bpow radix2 f64_emax ->
  good (f64_sub x y) /\ real (f64_sub x y) = RN (real x - real y).
Proof.
  intros x y Hx Hy Hb. destruct (good_B x Hx) as (a & -> & Fa & Ra).
  destruct (good_B y Hy) as (b & -> & Fb & Rb). rewrite sub_equiv.
  pose proof (Bminus_correct _ _ _ _ mode_NE a b Fa Fb) as H.
  rewrite Ra, Rb in H. rewrite Rlt_bool_true in H by exact Hb. destruct H as (H1 & H2 & _).
  split; [apply B_good; exact H2|]. rewrite B_real. exact H1.
Qed.

Lemma mul_real : forall x y, good x -> good y -> Rabs (RN (real x * real y)) < bpow radix2 f64_emax ->
  good (f64_mul x y) /\ real (f64_mul x y) = RN (real x * real y).
Proof.
  intros x y Hx Hy Hb. destruct (good_B x Hx) as (a & -> & Fa & Ra).
  destruct (good_B y Hy) as (b & -> & Fb & Rb). rewrite mul_equiv.
  pose proof (Bmult_correct _ _ _ _ mode_NE a b) as H.
  rewrite Ra, Rb in H. rewrite Rlt_bool_true in H by exact Hb. destruct H as (H1 & H2 & _).
  rewrite Fa, Fb in H2.
  split; [apply B_good; exact H2|]. rewrite B_real. exact H1.
Qed.

Lemma div_real : forall x y, good x -> good y -> real y <> 0 ->
  Rabs (RN (real x / real y)) < bpow radix2 f64_emax ->
  good (f64_div x y) /\ real (f64_div x y) = RN (real x / real y).
Proof.
  intros x y Hx Hy Hy0 Hb. destruct (good_B x Hx) as (a & -> & Fa & Ra).
  destruct (good_B y Hy) as (b & -> & Fb & Rb). rewrite div_equiv.
  pose proof (Bdiv_correct _ _ _ _ mode_NE a b ltac:(rewrite Rb; exact Hy0)) as H.
  rewrite Ra, Rb in H. rewrite Rlt_bool_true in H by exact Hb. destruct H as (H1 & H2 & _).
  rewrite Fa in H2.
  split; [apply B_good; exact H2|]. rewrite B_real. exact H1.
Qed.

Lemma of_Z_real : forall z, Rabs (RN (IZR z)) < bpow radix2 f64_emax ->
  good (f64_of_Z z) /\ real (f64_of_Z z) = RN (IZR z).
Proof.
  intros z Hb. unfold f64_of_Z. rewrite binary_normalize_equiv.
  pose proof (binary_normalize_correct f64_prec f64_emax _ _ mode_NE z 0 false) as H.
  assert (HF : F2R (Float radix2 z 0) = IZR z) by (unfold F2R; cbn [Fnum Fexp]; rewrite Rmult_1_r; reflexivity).
  rewrite HF in H. cbv zeta in H. rewrite Rlt_bool_true in H by exact Hb. destruct H as (H1 & H2 & _).
  split; [apply B_good; exact H2|]. rewrite B_real. exact H1.
Qed.

Lemma leb_real : forall x y, good x -> good y -> f64_leb x y = true <-> real x <= real y.
Proof.
  intros x y Hx Hy. destruct (good_B x Hx) as (a & -> & Fa & Ra).
  destruct (good_B y Hy) as (b & -> & Fb & Rb).
  pose proof (Bleb_correct _ _ a b Fa Fb) as H. unfold Bleb in H. unfold f64_leb. rewrite H, Ra, Rb.
  destruct (Rle_bool_spec (real (toSF a)) (real (toSF b))); split; intros; try lra; try discriminate; reflexivity.
Qed.

Lemma ltb_real : forall x y, good x -> good y -> f64_ltb x y = true <-> real x < real y.
Proof.
  intros x y Hx Hy. destruct (good_B x Hx) as (a & -> & Fa & Ra).
  destruct (good_B y Hy) as (b & -> & Fb & Rb).
  pose proof (Bltb_correct _ _ a b Fa Fb) as H. unfold Bltb in H. unfold f64_ltb. rewrite H, Ra, Rb.
  destruct (Rlt_bool_spec (real (toSF a)) (real (toSF b))); split; intros; try lra; try discriminate; reflexivity.
Qed.

(** ** Rounding *)

Lemma RN_mono : forall x y, x <= y -> RN x <= RN y.
Proof. intros. apply round_le; auto with typeclass_instances. Qed.

Lemma RN_id : forall x, generic_format radix2 fmt x -> RN x = x.
Proof. intros. apply round_generic; auto with typeclass_instances. Qed.

Lemma RN_0 : RN 0 = 0.
Proof. apply round_0. auto with typeclass_instances. Qed.

Lemma RN_opp : forall x, RN (- x) = - RN x.
Proof. intros. apply round_NE_opp. Qed.

(** A float times a power of two (not too small) is a float. *)
Lemma int_format : forall z, (Z.abs z <= 2 ^ 53)%Z -> generic_format radix2 fmt (IZR z).
Proof.
  intros z Hz. change fmt with (FLT_exp (SpecFloat.emin f64_prec f64_emax) f64_prec).
  destruct (Z.eq_dec (Z.abs z) (2 ^ 53)) as [E|E].
  - assert (H : generic_format radix2 (FLT_exp (SpecFloat.emin f64_prec f64_emax) f64_prec) (bpow radix2 53)).
    { apply generic_format_bpow. unfold FLT_exp, SpecFloat.emin. lia. }
    destruct (Z.abs_spec z) as [[_ Ha]|[_ Ha]]; rewrite Ha in E.
    + rewrite E. exact H.
    + replace z with (- (2 ^ 53))%Z by lia. rewrite opp_IZR. apply generic_format_opp. exact H.
  - apply generic_format_FLT. exists (Float radix2 z 0).
    + unfold F2R. cbn [Fnum Fexp]. rewrite Rmult_1_r. reflexivity.
    + cbn [Fnum]. change (Zpower radix2 f64_prec) with (2 ^ 53)%Z. lia.
    + cbn [Fexp]. unfold SpecFloat.emin. lia.
Qed.

Lemma of_int_real : forall z, (Z.abs z <= 2 ^ 53)%Z -> good (f64_of_Z z) /\ real (f64_of_Z z) = IZR z.
Proof.
  intros z Hz. pose proof (int_format z Hz) as Hf.
  destruct (of_Z_real z) as [H1 H2].
  - rewrite RN_id by exact Hf. rewrite <- abs_IZR.
    apply Rle_lt_trans with (IZR (2 ^ 53)); [apply IZR_le; exact Hz|].
    change (IZR (2 ^ 53)) with (bpow radix2 53). apply bpow_lt. lia.
  - split; [exact H1|]. rewrite H2. apply RN_id. exact Hf.
Qed.

(** Halving is exact unless the number is very small. *)
Lemma half_exact : forall x, generic_format radix2 fmt x -> (bpow radix2 (-1021) <= Rabs x) ->
  generic_format radix2 fmt (x / 2).
Proof.
  intros x Hx Hlarge. change fmt with (FLT_exp (SpecFloat.emin f64_prec f64_emax) f64_prec) in *.
  apply FLT_format_generic in Hx; [|auto with typeclass_instances].
  destruct Hx as [[m e] H1 H2 H3]. cbn [Fnum Fexp] in *.
  change (Zpower radix2 f64_prec) with (2 ^ 53)%Z in H2.
  apply generic_format_FLT.
  destruct (Z.eq_dec e (SpecFloat.emin f64_prec f64_emax)) as [E|E].
  - (* then the mantissa has 53 bits, and x is below 2^-1021 *)
    exfalso. subst e. rewrite H1 in Hlarge. unfold F2R in Hlarge. cbn [Fnum Fexp] in Hlarge.
    rewrite Rabs_mult, (Rabs_pos_eq (bpow _ _)) in Hlarge by apply bpow_ge_0.
    change (SpecFloat.emin f64_prec f64_emax) with (-1074)%Z in Hlarge.
    change (-1021)%Z with (53 + -1074)%Z in Hlarge. rewrite bpow_plus in Hlarge.
    apply Rmult_le_reg_r in Hlarge; [|apply bpow_gt_0].
    rewrite <- abs_IZR in Hlarge. change (bpow radix2 53) with (IZR (2 ^ 53)) in Hlarge.
    apply le_IZR in Hlarge. lia.
  - exists (Float radix2 m (e - 1)).
    + rewrite H1. unfold F2R. cbn [Fnum Fexp]. unfold Zminus. rewrite bpow_plus. cbn [bpow Z.opp]. cbn. lra.
    + exact H2.
    + cbn [Fexp]. lia.
Qed.
