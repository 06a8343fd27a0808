(** Exponential smoothing in floating point stays between the old value and the
    new one. *)
From Coq Require Import ZArith Bool List Lia Reals Lra Floats.SpecFloat.
From Flocq Require Import Core Sterbenz BinarySingleNaN.
From Verif Require Import Base SpecRun SpecMeter FloatReal.
Import ListNotations.
Open Scope R_scope.

Local Existing Instance fmt_valid.
Local Instance fmt_mono : Monotone_exp fmt := FLT_exp_monotone (SpecFloat.emin f64_prec f64_emax) f64_prec.

(** Zero, or far from the smallest floats. *)
Definition plain (x : R) : Prop := x = 0 \/ bpow radix2 (-1000) <= x.

Lemma RN_le : forall x y, generic_format radix2 fmt y -> x <= y -> RN x <= y.
Proof. intros x y Hy H. rewrite <- (RN_id y Hy). apply RN_mono, H. Qed.

Lemma RN_ge : forall x y, generic_format radix2 fmt x -> x <= y -> x <= RN y.
Proof. intros x y Hx H. rewrite <- (RN_id x Hx). apply RN_mono, H. Qed.

Lemma RN_pos : forall x, 0 <= x -> 0 <= RN x.
Proof. intros. apply RN_ge; [apply generic_format_0|assumption]. Qed.

(** What is added, or subtracted, when smoothing goes from [a] towards [b]. *)
Definition step (alpha a b : R) : R := RN (alpha * RN (b - a)).

(** The step does not go further than the target. *)
Lemma step_up : forall alpha a b,
  generic_format radix2 fmt a -> generic_format radix2 fmt b ->
  0 <= alpha <= 1 / 2 -> 0 <= a <= b -> plain b -> 0 <= step alpha a b <= b - a.
Proof.
  intros alpha a b Fa Fb Ha Hab Hp. unfold step.
  assert (Hd0 : 0 <= RN (b - a)) by (apply RN_pos; lra).
  split; [apply RN_pos; nra|].
  assert (Hhalf : RN (alpha * RN (b - a)) <= RN (RN (b - a) / 2)) by (apply RN_mono; nra).
  assert (Fd : generic_format radix2 fmt (RN (b - a))) by (apply generic_format_round; auto with typeclass_instances).
  destruct (Rle_lt_dec b (2 * a)) as [Hle|Hlt].
  - assert (Hex : RN (b - a) = b - a).
    { apply RN_id. apply sterbenz; auto with typeclass_instances; lra. }
    rewrite Hex in *. refine (Rle_trans _ _ _ Hhalf _). apply RN_le; [exact Fd|lra].
  - assert (Hb : bpow radix2 (-1000) <= b) by (destruct Hp; lra).
    assert (Fh : generic_format radix2 fmt (b / 2)).
    { apply half_exact; [exact Fb|]. rewrite Rabs_pos_eq by lra.
      refine (Rle_trans _ _ _ _ Hb). apply bpow_le. lia. }
    assert (Hd : RN (b - a) <= b) by (apply RN_le; [exact Fb|lra]).
    refine (Rle_trans _ _ _ Hhalf _). refine (Rle_trans _ (b / 2) _ _ _); [apply RN_le; [exact Fh|lra]|lra].
Qed.

(** The same towards a smaller target. *)
Lemma step_down : forall alpha a b,
  generic_format radix2 fmt a -> generic_format radix2 fmt b ->
  0 <= alpha <= 1 / 2 -> 0 <= b <= a -> plain b -> b - a <= step alpha a b <= 0.
Proof.
  intros alpha a b Fa Fb Ha Hab Hp.
  assert (E : step alpha a b = - RN (alpha * RN (a - b))).
  { unfold step. rewrite <- RN_opp. f_equal. replace (b - a) with (- (a - b)) by lra. rewrite RN_opp. lra. }
  destruct Hp as [->|Hp].
  - rewrite E. replace (a - 0) with a by lra. rewrite (RN_id a Fa).
    assert (0 <= RN (alpha * a)) by (apply RN_pos; nra).
    assert (RN (alpha * a) <= a) by (apply RN_le; [exact Fa|nra]). lra.
  - assert (H := step_up alpha b a Fb Fa Ha ltac:(lra) ltac:(right; lra)). unfold step in H. lra.
Qed.

Lemma below_overflow : forall x, good x -> forall r, 0 <= r <= real x -> Rabs r < bpow radix2 f64_emax.
Proof.
  intros x Hx r Hr. rewrite Rabs_pos_eq by lra. pose proof (real_bound x Hx) as H.
  rewrite Rabs_pos_eq in H by lra. lra.
Qed.

Definition between (a b r : R) : Prop := Rmin a b <= r <= Rmax a b.

Lemma smooth_between : forall alpha rate x, good alpha -> good rate -> good x ->
  0 <= real alpha <= 1 / 2 -> 0 <= real rate -> 0 <= real x -> plain (real x) ->
  good (smooth alpha rate x) /\ between (real rate) (real x) (real (smooth alpha rate x)).
Proof.
  intros alpha rate x Ga Gr Gx Ha Hr Hx Hp. unfold smooth, between.
  pose proof (real_format _ Gr) as Fr. pose proof (real_format _ Gx) as Fx.
  destruct (Rle_lt_dec (real rate) (real x)) as [Hle|Hlt].
  - assert (Hs := step_up (real alpha) (real rate) (real x) Fr Fx Ha ltac:(lra) Hp). unfold step in Hs.
    assert (Hd0 : 0 <= RN (real x - real rate)) by (apply RN_pos; lra).
    assert (Hd : RN (real x - real rate) <= real x) by (apply RN_le; [exact Fx|lra]).
    destruct (sub_real x rate Gx Gr) as [G1 E1]; [apply (below_overflow x Gx); lra|].
    rewrite <- E1 in Hs.
    destruct (mul_real alpha (f64_sub x rate) Ga G1) as [G2 E2]; [apply (below_overflow x Gx); lra|].
    rewrite <- E2 in Hs.
    assert (Hlo : real rate <= RN (real rate + real (f64_mul alpha (f64_sub x rate)))) by (apply RN_ge; [exact Fr|lra]).
    assert (Hhi : RN (real rate + real (f64_mul alpha (f64_sub x rate))) <= real x) by (apply RN_le; [exact Fx|lra]).
    destruct (add_real rate (f64_mul alpha (f64_sub x rate)) Gr G2) as [G3 E3]; [apply (below_overflow x Gx); lra|].
    split; [exact G3|]. rewrite E3, Rmin_left, Rmax_right by lra. lra.
  - assert (Hs := step_down (real alpha) (real rate) (real x) Fr Fx Ha ltac:(lra) Hp). unfold step in Hs.
    assert (Hd0 : RN (real x - real rate) <= 0) by (rewrite <- RN_0; apply RN_mono; lra).
    assert (Hd : - real rate <= RN (real x - real rate)).
    { apply RN_ge; [apply generic_format_opp; exact Fr|lra]. }
    assert (Hb : forall r, - real rate <= r <= 0 -> Rabs r < bpow radix2 f64_emax).
    { intros r H. rewrite <- Rabs_Ropp. apply (below_overflow rate Gr). lra. }
    destruct (sub_real x rate Gx Gr) as [G1 E1]; [apply Hb; lra|].
    rewrite <- E1 in Hs.
    destruct (mul_real alpha (f64_sub x rate) Ga G1) as [G2 E2]; [apply Hb; lra|].
    rewrite <- E2 in Hs.
    assert (Hlo : real x <= RN (real rate + real (f64_mul alpha (f64_sub x rate)))) by (apply RN_ge; [exact Fx|lra]).
    assert (Hhi : RN (real rate + real (f64_mul alpha (f64_sub x rate))) <= real rate) by (apply RN_le; [exact Fr|lra]).
    destruct (add_real rate (f64_mul alpha (f64_sub x rate)) Gr G2) as [G3 E3]; [apply (below_overflow rate Gr); lra|].
    split; [exact G3|]. rewrite E3, Rmin_right, Rmax_left by lra. lra.
Qed.

(** ** Rates of intervals *)

Lemma u64_real : forall n, (0 <= n < two64)%Z ->
  good (f64_of_Z n) /\ real (f64_of_Z n) = RN (IZR n) /\ 0 <= real (f64_of_Z n) <= bpow radix2 64
  /\ ((0 < n)%Z -> 1 <= real (f64_of_Z n)).
Proof.
  intros n Hn.
  assert (F64 : generic_format radix2 fmt (bpow radix2 64)) by (apply generic_format_bpow; reflexivity || (cbn; lia)).
  assert (H64 : IZR n <= bpow radix2 64).
  { change (bpow radix2 64) with (IZR (2 ^ 64)). apply IZR_le. lia. }
  assert (H0 : 0 <= IZR n) by (apply IZR_le; lia).
  assert (Hlo : 0 <= RN (IZR n)) by (apply RN_pos, H0).
  assert (Hhi : RN (IZR n) <= bpow radix2 64) by (apply RN_le; assumption).
  destruct (of_Z_real n) as [G E].
  - rewrite Rabs_pos_eq by exact Hlo. apply Rle_lt_trans with (1 := Hhi). apply bpow_lt. reflexivity.
  - split; [exact G|]. split; [exact E|]. rewrite E. split; [lra|]. intros H.
    apply RN_ge; [change 1 with (IZR 1); apply int_format; cbn; lia|]. apply IZR_le. lia.
Qed.

Notation ticks := (5000000000)%Z.

Lemma ticks_real : good (f64_of_Z ticks) /\ real (f64_of_Z ticks) = IZR ticks.
Proof. apply of_int_real. discriminate. Qed.

Lemma interval_rate_real : forall n, (0 <= n < two64)%Z ->
  good (interval_rate n) /\ real (interval_rate n) = RN (RN (IZR n) / IZR ticks)
  /\ 0 <= real (interval_rate n) <= bpow radix2 32 /\ plain (real (interval_rate n)).
Proof.
  intros n Hn. destruct (u64_real n Hn) as (G1 & E1 & [H0 H64] & H1).
  destruct ticks_real as [G2 E2]. unfold interval_rate.
  assert (F32 : generic_format radix2 fmt (bpow radix2 32)) by (apply generic_format_bpow; reflexivity || (cbn; lia)).
  assert (Hq0 : 0 <= real (f64_of_Z n) / IZR ticks).
  { apply Rmult_le_pos; [exact H0|]. left. apply Rinv_0_lt_compat. lra. }
  assert (Hq32 : real (f64_of_Z n) / IZR ticks <= bpow radix2 32).
  { apply Rmult_le_reg_r with (IZR ticks); [lra|]. unfold Rdiv. rewrite Rmult_assoc, Rinv_l, Rmult_1_r by lra.
    refine (Rle_trans _ _ _ H64 _). change (bpow radix2 64) with (IZR (2 ^ 64)).
    change (bpow radix2 32) with (IZR (2 ^ 32)). rewrite <- mult_IZR. apply IZR_le. discriminate. }
  assert (Hr0 : 0 <= RN (real (f64_of_Z n) / IZR ticks)) by (apply RN_pos, Hq0).
  assert (Hr32 : RN (real (f64_of_Z n) / IZR ticks) <= bpow radix2 32) by (apply RN_le; assumption).
  destruct (div_real (f64_of_Z n) (f64_of_Z ticks) G1 G2) as [G E].
  - rewrite E2. lra.
  - rewrite E2, Rabs_pos_eq by exact Hr0. apply Rle_lt_trans with (1 := Hr32). apply bpow_lt. reflexivity.
  - rewrite E2 in E. split; [exact G|]. rewrite E. split; [rewrite E1; reflexivity|]. split; [lra|].
    destruct (Z.eq_dec n 0) as [->|Hnz].
    + left. rewrite E1, RN_0. unfold Rdiv. rewrite Rmult_0_l. apply RN_0.
    + right. apply RN_ge; [apply generic_format_bpow; cbn; lia|].
      refine (Rle_trans _ (bpow radix2 (-33)) _ _ _); [apply bpow_le; lia|].
      apply Rmult_le_reg_r with (IZR ticks); [lra|]. unfold Rdiv. rewrite Rmult_assoc, Rinv_l, Rmult_1_r by lra.
      refine (Rle_trans _ 1 _ _ (H1 _)); [|lia].
      apply Rmult_le_reg_l with (bpow radix2 33); [apply bpow_gt_0|].
      rewrite <- Rmult_assoc, <- bpow_plus. cbn [Z.add]. change (bpow radix2 (33 + -33)) with 1.
      rewrite Rmult_1_l, Rmult_1_r. change (bpow radix2 33) with (IZR (2 ^ 33)). apply IZR_le. discriminate.
Qed.

Lemma interval_rate_mono : forall a b, (0 <= a <= b)%Z -> (b < two64)%Z ->
  real (interval_rate a) <= real (interval_rate b).
Proof.
  intros a b Hab Hb. destruct (interval_rate_real a ltac:(lia)) as (_ & -> & _).
  destruct (interval_rate_real b ltac:(lia)) as (_ & -> & _).
  apply RN_mono. unfold Rdiv. apply Rmult_le_compat_r; [left; apply Rinv_0_lt_compat; lra|].
  apply RN_mono, IZR_le. lia.
Qed.

Lemma interval_rate_0 : real (interval_rate 0) = 0.
Proof.
  destruct (interval_rate_real 0 ltac:(split; [lia|reflexivity])) as (_ & -> & _).
  rewrite RN_0. unfold Rdiv. rewrite Rmult_0_l. apply RN_0.
Qed.

(** ** Many steps *)

Definition is_alpha (alpha : f64) : Prop := good alpha /\ 0 <= real alpha <= 1 / 2.

Definition counts_in (lo hi : Z) (l : list Z) : Prop := Forall (fun n => lo <= n <= hi)%Z l.

Lemma fold_between : forall alpha lo hi, is_alpha alpha -> (0 <= lo)%Z -> (hi < two64)%Z ->
  forall l r, counts_in lo hi l -> good r ->
  real (interval_rate lo) <= real r <= real (interval_rate hi) ->
  let r' := fold_left (fun r n => smooth alpha r (interval_rate n)) l r in
  good r' /\ real (interval_rate lo) <= real r' <= real (interval_rate hi).
Proof.
  intros alpha lo hi [Ga Ha] Hlo Hhi. induction l as [|n l IH]; intros r Hl Gr Hr.
  - cbn. auto.
  - inversion Hl as [|? ? Hn Hl']; subst. cbn [fold_left].
    destruct (interval_rate_real n ltac:(lia)) as (Gn & _ & Hn0 & Hp).
    destruct (interval_rate_real lo ltac:(lia)) as (_ & _ & Hlo0 & _).
    pose proof (interval_rate_mono lo n ltac:(lia) ltac:(lia)).
    pose proof (interval_rate_mono n hi ltac:(lia) ltac:(lia)).
    destruct (smooth_between alpha r (interval_rate n) Ga Gr Gn Ha ltac:(lra) ltac:(lra) Hp) as [G Hb].
    unfold between, Rmin, Rmax in Hb. apply IH; [exact Hl'|exact G|].
    destruct (Rle_dec (real r) (real (interval_rate n))); lra.
Qed.

Lemma smoothed_between : forall alpha lo hi l, is_alpha alpha -> (0 <= lo)%Z -> (hi < two64)%Z ->
  l <> [] -> counts_in lo hi l ->
  good (smoothed alpha l) /\ real (interval_rate lo) <= real (smoothed alpha l) <= real (interval_rate hi).
Proof.
  intros alpha lo hi l Ha Hlo Hhi Hne Hl. destruct l as [|n l]; [congruence|].
  inversion Hl as [|? ? Hn Hl']; subst. cbn [smoothed].
  destruct (interval_rate_real n ltac:(lia)) as (Gn & _).
  apply fold_between; auto.
  pose proof (interval_rate_mono lo n ltac:(lia) ltac:(lia)).
  pose proof (interval_rate_mono n hi ltac:(lia) ltac:(lia)). lra.
Qed.

Lemma smoothed_good : forall alpha l, is_alpha alpha -> Forall (fun n => 0 <= n < two64)%Z l ->
  good (smoothed alpha l) /\ 0 <= real (smoothed alpha l) <= bpow radix2 32.
Proof.
  intros alpha l Ha Hl. destruct l as [|n l].
  - cbn. split; [split; reflexivity|]. unfold real, SF2R. split; lra.
  - destruct (smoothed_between alpha 0 (two64 - 1) (n :: l) Ha) as [G Hr]; try discriminate; try lia.
    + eapply Forall_impl; [|exact Hl]. intros; cbn in *; lia.
    + split; [exact G|]. rewrite interval_rate_0 in Hr.
      destruct (interval_rate_real (two64 - 1) ltac:(split; [discriminate|reflexivity])) as (_ & _ & H & _). lra.
Qed.

Lemma smoothed_snoc : forall alpha l n, l <> [] ->
  smoothed alpha (l ++ [n]) = smooth alpha (smoothed alpha l) (interval_rate n).
Proof.
  intros alpha l n Hl. destruct l as [|m l]; [congruence|]. cbn [app smoothed]. rewrite fold_left_app. reflexivity.
Qed.

(** Quiet intervals. *)
Lemma smoothed_quiet : forall alpha l n, is_alpha alpha -> Forall (fun n => 0 <= n < two64)%Z l ->
  real (smoothed alpha (l ++ repeat 0%Z n)) <= real (smoothed alpha l).
Proof.
  intros alpha l n Ha Hl. induction n as [|n IH].
  - rewrite app_nil_r. lra.
  - replace (repeat 0%Z (S n)) with (repeat 0%Z n ++ [0%Z]) by (rewrite <- repeat_cons; reflexivity).
    rewrite app_assoc. refine (Rle_trans _ _ _ _ IH).
    assert (Hall : Forall (fun n => 0 <= n < two64)%Z (l ++ repeat 0%Z n)).
    { apply Forall_app. split; [exact Hl|]. apply Forall_forall. intros x Hx. apply repeat_spec in Hx. subst x.
      split; [lia|reflexivity]. }
    destruct (smoothed_good alpha _ Ha Hall) as [G H0].
    destruct (l ++ repeat 0%Z n) as [|m rest] eqn:E.
    + cbn [app smoothed fold_left]. rewrite interval_rate_0. unfold real, f64_zero; cbn. lra.
    + rewrite smoothed_snoc by discriminate.
      destruct (interval_rate_real 0 ltac:(split; [lia|reflexivity])) as (G0 & _ & _ & Hp).
      destruct Ha as [Ga Ha].
      destruct (smooth_between alpha _ _ Ga G G0 Ha ltac:(lra) ltac:(rewrite interval_rate_0; lra) Hp) as [_ Hb].
      unfold between in Hb. rewrite interval_rate_0 in Hb. rewrite Rmax_left in Hb by lra. lra.
Qed.

(** ** Per second *)

Notation second := (1000000000)%Z.

Definition per_second (r : f64) : f64 := f64_mul r (f64_of_Z second).

Lemma per_second_real : forall r, good r -> 0 <= real r <= bpow radix2 32 ->
  good (per_second r) /\ real (per_second r) = RN (real r * IZR second) /\ 0 <= real (per_second r).
Proof.
  intros r G Hr. destruct (of_int_real second) as [G1 E1]; [discriminate|]. unfold per_second.
  assert (H0 : 0 <= RN (real r * IZR second)) by (apply RN_pos; nra).
  assert (F62 : generic_format radix2 fmt (bpow radix2 62)) by (apply generic_format_bpow; cbn; lia).
  assert (H62 : RN (real r * IZR second) <= bpow radix2 62).
  { apply RN_le; [exact F62|]. change 62%Z with (32 + 30)%Z. rewrite bpow_plus.
    apply Rmult_le_compat; try lra. change (bpow radix2 30) with (IZR (2 ^ 30)). apply IZR_le. discriminate. }
  destruct (mul_real r (f64_of_Z second) G G1) as [G2 E2].
  - rewrite E1, Rabs_pos_eq by exact H0. apply Rle_lt_trans with (1 := H62). apply bpow_lt. reflexivity.
  - rewrite E1 in E2. rewrite E2. auto.
Qed.

Lemma per_second_mono : forall a b, good a -> good b -> 0 <= real a -> real a <= real b <= bpow radix2 32 ->
  real (per_second a) <= real (per_second b).
Proof.
  intros a b Ga Gb Ha Hb. destruct (per_second_real a Ga ltac:(lra)) as (_ & -> & _).
  destruct (per_second_real b Gb ltac:(lra)) as (_ & -> & _). apply RN_mono. nra.
Qed.
