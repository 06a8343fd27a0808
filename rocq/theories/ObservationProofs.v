From Coq Require Import ZArith Bool String List Lia.
From Verif Require Import Base SpecRun SpecObservation MonadFacts ModelObservation.
Import ListNotations.
Open Scope Z_scope.

Lemma nanos_in_pos : forall u, 0 < nanos_in u.
Proof. destruct u; cbn; lia. Qed.

Lemma div_scale : forall t a b, 0 < a -> 0 < b -> (t * a) / (a * b) = t / b.
Proof. intros. rewrite Z.mul_comm, Z.div_mul_cancel_l by lia. reflexivity. Qed.

Lemma mul_div_exact : forall t a b, 0 < b -> (t * (a * b)) / b = t * a.
Proof. intros. rewrite Z.mul_assoc, Z.div_mul by lia. reflexivity. Qed.

Ltac left_case q :=
  left; exists q; split; [lia|split; [lia|split; [|intros; reflexivity]]];
  match goal with |- ?t * ?a / ?b = _ => exact (div_scale t a q eq_refl eq_refl) end.
Ltac right_case q :=
  right; exists q; split; [lia|split; [lia|split; [|intros; reflexivity]]];
  match goal with |- ?t * ?a / ?b = _ => exact (mul_div_exact t q b eq_refl) end.
Ltac same_case :=
  left; exists 1; split; [lia|split; [lia|split; [|intros; cbn; rewrite Z.div_1_r; reflexivity]]];
  rewrite Z.div_mul by lia; rewrite Z.div_1_r; reflexivity.

(** The shape of the conversion: a division, or a multiplication. *)
Lemma display_cases : forall t a b,
  (exists q, 0 < q /\ nanos_in b = nanos_in a * q
             /\ t * nanos_in a / nanos_in b = t / q
             /\ forall W, @duration_to_display_value W t a b = ret (t / q))
  \/ (exists q, 1 < q /\ nanos_in a = q * nanos_in b
                /\ t * nanos_in a / nanos_in b = t * q
                /\ forall W, @duration_to_display_value W t a b = mul_u64 t q).
Proof.
  intros t a b. destruct a, b; cbn [nanos_in].
  all: first [ same_case | left_case 1000 | left_case 1000000 | left_case 1000000000
             | right_case 1000 | right_case 1000000 | right_case 1000000000 ].
Qed.

Lemma display_fits : forall W t a b k (w : W),
  in_u64 t -> t * nanos_in a / nanos_in b <= u64_max ->
  duration_to_display_value t a b k w = Ok (t * nanos_in a / nanos_in b) w.
Proof.
  intros W t a b k w Ht Hfit.
  destruct (display_cases t a b) as [(q & Hq & _ & Hr & Hf)|(q & Hq & _ & Hr & Hf)].
  - rewrite Hf, Hr. reflexivity.
  - rewrite Hf, Hr in *. unfold mul_u64. unfold in_u64 in Ht. rewrite u64_arith_fits; [reflexivity|nia].
Qed.

Lemma display_coarser : forall W t a b k (w : W),
  in_u64 t -> nanos_in a <= nanos_in b ->
  duration_to_display_value t a b k w = Ok (t * nanos_in a / nanos_in b) w.
Proof.
  intros W t a b k w Ht Hle. apply display_fits; [assumption|].
  pose proof (nanos_in_pos a). pose proof (nanos_in_pos b). unfold in_u64 in Ht.
  apply Z.div_le_upper_bound; [lia|nia].
Qed.

Lemma display_too_large : forall W t a b k (w : W),
  in_u64 t -> t * nanos_in a / nanos_in b > u64_max ->
  duration_to_display_value t a b k w
  = if overflow_checks k then Panic else Ok ((t * nanos_in a / nanos_in b) mod two64) w.
Proof.
  intros W t a b k w Ht Hbig. unfold in_u64 in Ht.
  destruct (display_cases t a b) as [(q & Hq & _ & Hr & Hf)|(q & Hq & _ & Hr & Hf)].
  - rewrite Hr in Hbig. pose proof (Z.div_le_upper_bound t q t Hq). nia.
  - rewrite Hf, Hr in *. unfold mul_u64. destruct (overflow_checks k) eqn:E.
    + apply u64_arith_checked; [assumption|lia].
    + apply u64_arith_release; assumption.
Qed.

Lemma display_finer_and_back : forall W t a b k (w : W),
  in_u64 t -> nanos_in b <= nanos_in a -> t * nanos_in a / nanos_in b <= u64_max ->
  exists d, duration_to_display_value t a b k w = Ok d w
            /\ duration_to_display_value d b a k w = Ok t w.
Proof.
  intros W t a b k w Ht Hle Hfit.
  exists (t * nanos_in a / nanos_in b). split; [apply display_fits; assumption|].
  unfold in_u64 in Ht.
  pose proof (nanos_in_pos a) as Pa. pose proof (nanos_in_pos b) as Pb.
  assert (0 <= t * nanos_in a / nanos_in b) by (apply Z.div_pos; nia).
  rewrite display_coarser; [|unfold in_u64; lia|assumption].
  f_equal.
  assert (Hex : exists q, nanos_in a = q * nanos_in b).
  { destruct a, b; cbn in Hle |- *; try lia;
      first [exists 1; reflexivity | exists 1000; reflexivity | exists 1000000; reflexivity
            | exists 1000000000; reflexivity]. }
  destruct Hex as (q & Hq). rewrite Hq, Z.mul_assoc, Z.div_mul by lia.
  replace (t * q * nanos_in b) with (t * (q * nanos_in b)) by ring.
  apply Z.div_mul. lia.
Qed.

Lemma display_coarser_and_back : forall W t a b k (w : W),
  in_u64 t -> nanos_in a <= nanos_in b ->
  exists d r, duration_to_display_value t a b k w = Ok d w
              /\ duration_to_display_value d b a k w = Ok r w
              /\ r <= t /\ (t - r) * nanos_in a < nanos_in b.
Proof.
  intros W t a b k w Ht Hle.
  exists (t * nanos_in a / nanos_in b).
  exists ((t * nanos_in a / nanos_in b) * nanos_in b / nanos_in a).
  unfold in_u64 in Ht.
  pose proof (nanos_in_pos a) as Pa. pose proof (nanos_in_pos b) as Pb.
  assert (Hex : exists q, nanos_in b = nanos_in a * q).
  { destruct a, b; cbn in Hle |- *; try lia;
      first [exists 1; reflexivity | exists 1000; reflexivity | exists 1000000; reflexivity
            | exists 1000000000; reflexivity]. }
  destruct Hex as (q & Hq). assert (0 < q) by nia.
  assert (E1 : t * nanos_in a / nanos_in b = t / q).
  { rewrite Hq, Z.mul_comm, Z.div_mul_cancel_l by lia. reflexivity. }
  assert (E2 : t / q * nanos_in b / nanos_in a = t / q * q).
  { rewrite Hq. replace (t / q * (nanos_in a * q)) with (t / q * q * nanos_in a) by ring.
    apply Z.div_mul. lia. }
  rewrite E1, E2.
  pose proof (Z.mul_div_le t q). pose proof (Z.mod_pos_bound t q).
  pose proof (Z.div_mod t q).
  assert (0 <= t / q) by (apply Z.div_pos; lia).
  repeat split.
  - rewrite display_coarser, E1; [reflexivity|assumption|assumption].
  - rewrite display_fits; rewrite ?E2; [reflexivity|unfold in_u64; nia|nia].
  - nia.
  - rewrite Hq. nia.
Qed.

(** ** Durations as observed values *)

Lemma split_duration : forall d, as_secs d * 1000000000 + subsec_nanos d = d.
Proof.
  intros. unfold as_secs, subsec_nanos. pose proof (Z.div_mod d nanos_per_sec). lia.
Qed.

Lemma split_duration_unit : forall d q, 0 <= d -> 0 < q ->
  forall p, nanos_per_sec = q * p ->
  as_secs d * p + subsec_nanos d / q = d / q.
Proof.
  intros d q Hd Hq p Hp. unfold as_secs, subsec_nanos.
  rewrite (Z.div_mod d nanos_per_sec) at 3 by lia.
  rewrite Hp at 3.
  replace (q * p * (d / nanos_per_sec) + d mod nanos_per_sec)
    with (d mod nanos_per_sec + (d / nanos_per_sec * p) * q) by ring.
  rewrite Z.div_add by lia. ring.
Qed.

Lemma as_secs_nonneg : forall d, 0 <= d -> 0 <= as_secs d.
Proof. intros. apply Z.div_pos; lia. Qed.
Lemma subsec_range : forall d, 0 <= subsec_nanos d < nanos_per_sec.
Proof. intros. apply Z.mod_pos_bound. lia. Qed.

Lemma duration_value_fits : forall W d k (w : W),
  0 <= d <= u64_max -> value_of_duration d k w = Ok (DurationValue d Nanoseconds) w.
Proof.
  intros W d k w Hd. unfold value_of_duration, bind, mul_u64, add_u64.
  pose proof (split_duration d) as S. pose proof (as_secs_nonneg d). pose proof (subsec_range d).
  rewrite u64_arith_fits by lia. rewrite u64_arith_fits by lia. rewrite S. reflexivity.
Qed.

Lemma duration_value_too_large : forall W d k (w : W),
  u64_max < d ->
  value_of_duration d k w
  = if overflow_checks k then Panic else Ok (DurationValue (d mod two64) Nanoseconds) w.
Proof.
  intros W d k w Hd. unfold value_of_duration, bind, mul_u64, add_u64.
  pose proof (split_duration d) as S. pose proof (as_secs_nonneg d). pose proof (subsec_range d).
  destruct (overflow_checks k) eqn:E.
  - destruct (Z_le_gt_dec (as_secs d * 1000000000) u64_max).
    + rewrite u64_arith_fits by lia. rewrite u64_arith_checked by (assumption || lia). reflexivity.
    + rewrite u64_arith_checked by (assumption || lia). reflexivity.
  - rewrite u64_arith_release by assumption. rewrite u64_arith_release by assumption.
    rewrite wrap_u64_add_l, S. reflexivity.
Qed.

Lemma duration_unit_value_fits : forall W d u k (w : W),
  0 <= d -> d / nanos_in u <= u64_max ->
  value_of_duration_unit d u k w = Ok (DurationValue (d / nanos_in u) u) w.
Proof.
  intros W d u k w Hd Hfit. pose proof (as_secs_nonneg d Hd). pose proof (subsec_range d).
  destruct u; cbn [value_of_duration_unit nanos_in] in *; unfold bind, mul_u64, add_u64.
  - rewrite Z.div_1_r in *. pose proof (split_duration d) as S.
    rewrite u64_arith_fits by lia. rewrite u64_arith_fits by lia. rewrite S. reflexivity.
  - pose proof (split_duration_unit d 1000 Hd eq_refl 1000000 eq_refl) as S.
    assert (0 <= subsec_nanos d / 1000) by (apply Z.div_pos; lia).
    rewrite u64_arith_fits by lia. rewrite u64_arith_fits by lia. rewrite S. reflexivity.
  - pose proof (split_duration_unit d 1000000 Hd eq_refl 1000 eq_refl) as S.
    assert (0 <= subsec_nanos d / 1000000) by (apply Z.div_pos; lia).
    rewrite u64_arith_fits by lia. rewrite u64_arith_fits by lia. rewrite S. reflexivity.
  - reflexivity.
Qed.
