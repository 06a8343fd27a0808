(** Conversion of floats to integers. *)
From Coq Require Import ZArith QArith Qabs Bool List Lia ZifyBool Floats.SpecFloat.
From Verif Require Import Base SpecObservation ModelObservation.
Import ListNotations.
Open Scope Z_scope.

Lemma nearest_scaled : forall n d z,
  nearest_half_away (n # d) z
  <-> 2 * Z.abs (z * Zpos d - n) < Zpos d
      \/ (2 * Z.abs (z * Zpos d - n) = Zpos d /\ Z.abs n < Z.abs z * Zpos d).
Proof.
  intros n d z. unfold nearest_half_away, Qlt, Qeq, Qabs, inject_Z, Qminus, Qopp, Qplus.
  cbn [Qnum Qden].
  rewrite ?Pos.mul_1_l, ?Z.mul_1_r, ?Z.mul_1_l.
  replace (z * Z.pos d + - n) with (z * Z.pos d - n) by ring.
  split; intros [H|[H1 H2]]; [left|right|left|right]; try split; lia.
Qed.

Lemma nearest_unique : forall q z1 z2,
  nearest_half_away q z1 -> nearest_half_away q z2 -> z1 = z2.
Proof.
  intros [n d] z1 z2. rewrite !nearest_scaled. intros H1 H2.
  assert (z1 < z2 -> z1 * Zpos d + Zpos d <= z2 * Zpos d) by nia.
  assert (z2 < z1 -> z2 * Zpos d + Zpos d <= z1 * Zpos d) by nia.
  destruct (Z.lt_trichotomy z1 z2) as [Hl|[He|Hg]]; [|assumption|].
  - specialize (H Hl). exfalso.
    assert (z2 * Zpos d - z1 * Zpos d = Zpos d) by lia.
    assert (z2 = z1 + 1) by nia. subst z2.
    destruct H1 as [H1|[H1 H1']]; [lia|]. destruct H2 as [H2|[H2 H2']]; [lia|].
    destruct (Z_le_gt_dec 0 z1); nia.
  - specialize (H0 Hg). exfalso.
    assert (z1 * Zpos d - z2 * Zpos d = Zpos d) by lia.
    assert (z1 = z2 + 1) by nia. subst z1.
    destruct H1 as [H1|[H1 H1']]; [lia|]. destruct H2 as [H2|[H2 H2']]; [lia|].
    destruct (Z_le_gt_dec 0 z2); nia.
Qed.

Lemma nearest_opp : forall q z, nearest_half_away q z -> nearest_half_away (- q) (- z).
Proof.
  intros [n d] z. unfold Qopp; cbn [Qnum Qden]. rewrite !nearest_scaled. intros H.
  replace (- z * Zpos d - - n) with (- (z * Zpos d - n)) by ring.
  rewrite !Z.abs_opp. exact H.
Qed.

Lemma pow2_pos : forall e, 0 <= e -> 0 < 2 ^ e.
Proof. intros. apply Z.pow_pos_nonneg; lia. Qed.

Lemma to_pos_pow : forall e, 0 <= e -> Zpos (Z.to_pos (2 ^ e)) = 2 ^ e.
Proof. intros. apply Z2Pos.id, pow2_pos, H. Qed.

Lemma round_nearest : forall m e,
  nearest_half_away
    (if 0 <=? e then inject_Z (Zpos m * 2 ^ e) else (Zpos m # Z.to_pos (2 ^ (- e))))
    (round_half_away (Zpos m) e).
Proof.
  intros m e. unfold round_half_away. destruct (0 <=? e) eqn:He.
  - unfold inject_Z. apply nearest_scaled. left. rewrite Z.mul_1_r, Z.sub_diag. cbn. lia.
  - apply nearest_scaled. rewrite to_pos_pow by lia.
    set (D := 2 ^ (- e)). assert (HD : D = 2 * 2 ^ (- e - 1)).
    { unfold D. rewrite <- Z.pow_succ_r by lia. f_equal. lia. }
    set (h := 2 ^ (- e - 1)) in *. assert (0 < h) by (apply pow2_pos; lia).
    pose proof (Z.div_mod (Zpos m + h) D ltac:(lia)) as E.
    pose proof (Z.mod_pos_bound (Zpos m + h) D ltac:(lia)).
    set (r := (Zpos m + h) / D) in *. set (x := (Zpos m + h) mod D) in *.
    assert (0 <= r) by (apply Z.div_pos; lia).
    assert (Er : r * D = Zpos m + h - x) by nia.
    rewrite Er.
    destruct (Z.eq_dec x 0); [right|left]; try split; try lia.
Qed.

(** ** Comparison with powers of two *)

Lemma valid_mantissa : forall s m e, f64_valid (S754_finite s m e) = true ->
  Zpos m < 2 ^ 53 /\ (-1074 < e -> 2 ^ 52 <= Zpos m).
Proof.
  intros s m e H. unfold f64_valid, valid_binary, bounded, canonical_mantissa, fexp, emin in H.
  apply andb_true_iff in H. destruct H as [H _].
  apply Zeq_bool_eq in H.
  assert (Hd : forall p, 2 ^ (Zpos (digits2_pos p) - 1) <= Zpos p < 2 ^ Zpos (digits2_pos p)).
  { induction p as [p IH|p IH|].
    - cbn [digits2_pos]. rewrite Pos2Z.inj_succ, Z.pow_succ_r by lia.
      replace (Z.succ (Z.pos (digits2_pos p)) - 1) with (Z.succ (Z.pos (digits2_pos p) - 1)) by lia.
      rewrite Z.pow_succ_r by lia. lia.
    - cbn [digits2_pos]. rewrite Pos2Z.inj_succ, Z.pow_succ_r by lia.
      replace (Z.succ (Z.pos (digits2_pos p)) - 1) with (Z.succ (Z.pos (digits2_pos p) - 1)) by lia.
      rewrite Z.pow_succ_r by lia. lia.
    - cbn. lia. }
  specialize (Hd m). set (n := Zpos (digits2_pos m)) in *.
  assert (0 < n) by (unfold n; lia).
  split.
  - eapply Z.lt_le_trans; [apply Hd|]. apply Z.pow_le_mono_r; lia.
  - intros He. assert (n = 53) by lia. rewrite H1 in Hd. apply Hd.
Qed.

(** Compare a positive float with a power of two. *)
Lemma leb_pow2_gen : forall B m e E, 0 <= E ->
  Zpos m < 2 * Zpos B -> (E <= e -> Zpos B <= Zpos m) ->
  f64_leb (S754_finite false m e) (S754_finite false B E) = true
  <-> (if 0 <=? e then Zpos m * 2 ^ e <= Zpos B * 2 ^ E
       else Zpos m <= Zpos B * 2 ^ E * 2 ^ (- e)).
Proof.
  intros B m e E HE Hm1 Hm2.
  unfold f64_leb, SFleb, SFcompare.
  assert (0 < 2 ^ E) by (apply pow2_pos; lia).
  destruct (e ?= E) eqn:C.
  - apply Z.compare_eq in C. subst e. replace (0 <=? E) with true by lia.
    pose proof (Pos.compare_spec m B) as P. unfold Pos.compare in P.
    destruct P as [Heq|Hlt|Hgt].
    + subst. split; [lia|reflexivity].
    + split; [nia|reflexivity].
    + split; [intros Hx; discriminate Hx|intros Hc; exfalso; nia].
  - rewrite Z.compare_lt_iff in C. split; [|reflexivity]. intros _.
    destruct (0 <=? e) eqn:He.
    + assert (2 * 2 ^ e <= 2 ^ E).
      { rewrite <- Z.pow_succ_r by lia. apply Z.pow_le_mono_r; lia. }
      nia.
    + assert (2 <= 2 ^ (- e)).
      { change 2 with (2 ^ 1) at 1. apply Z.pow_le_mono_r; lia. }
      assert (Zpos B <= Zpos B * 2 ^ E) by nia. nia.
  - rewrite Z.compare_gt_iff in C. split; [intros Hx; discriminate Hx|]. intros Hle. exfalso.
    replace (0 <=? e) with true in Hle by lia.
    assert (2 * 2 ^ E <= 2 ^ e).
    { rewrite <- Z.pow_succ_r by lia. apply Z.pow_le_mono_r; lia. }
    specialize (Hm2 ltac:(lia)). nia.
Qed.

Lemma leb_pow2 : forall m e E, f64_valid (S754_finite false m e) = true -> 0 <= E ->
  f64_leb (S754_finite false m e) (S754_finite false 4503599627370496 E) = true
  <-> (if 0 <=? e then Zpos m * 2 ^ e <= 2 ^ (52 + E)
       else Zpos m <= 2 ^ (52 + E) * 2 ^ (- e)).
Proof.
  intros m e E Hv HE. destruct (valid_mantissa _ _ _ Hv) as [Hm1 Hm2].
  rewrite leb_pow2_gen; [|assumption| |].
  - rewrite Z.pow_add_r by lia. reflexivity.
  - exact Hm1.
  - intros He. apply Hm2. lia.
Qed.

Lemma Some_inj : forall A (a b : A), Some a = Some b -> a = b.
Proof. congruence. Qed.

Lemma leb_pow2_Q : forall f q E, f64_valid f = true -> 0 <= E -> float_number f = Some q ->
  f64_leb f (S754_finite false 4503599627370496 E) = true <-> (q <= inject_Z (2 ^ (52 + E)))%Q.
Proof.
  intros f q E Hv HE Hq.
  assert (0 < 2 ^ (52 + E)) by (apply pow2_pos; lia).
  destruct f as [s| | |s m e]; unfold float_number in Hq; cbv zeta in Hq; try discriminate;
    apply Some_inj in Hq; subst q.
  - split; [|reflexivity]. intros _. unfold Qle. cbn. lia.
  - destruct s.
    + split; [|reflexivity]. intros _.
      destruct (0 <=? e) eqn:He; unfold Qle, Qopp, inject_Z; cbn [Qnum Qden].
      * assert (0 < 2 ^ e) by (apply pow2_pos; lia).
        assert (0 <= Zpos m * 2 ^ e) by (apply Z.mul_nonneg_nonneg; lia). lia.
      * rewrite to_pos_pow by lia. assert (0 < 2 ^ (- e)) by (apply pow2_pos; lia).
        assert (0 <= 2 ^ (52 + E) * 2 ^ (- e)) by (apply Z.mul_nonneg_nonneg; lia). lia.
    + rewrite leb_pow2 by assumption.
      destruct (0 <=? e) eqn:He; unfold Qle, inject_Z; cbn [Qnum Qden].
      * lia.
      * rewrite to_pos_pow by lia. lia.
Qed.

Lemma f64_i64_max_eq : f64_i64_max = S754_finite false 4503599627370496 11.
Proof. vm_compute. reflexivity. Qed.
Lemma f64_u64_max_eq : f64_u64_max = S754_finite false 4503599627370496 12.
Proof. vm_compute. reflexivity. Qed.

(** ** [round() as ..] *)

Lemma nearest_zero : nearest_half_away 0 0.
Proof. unfold nearest_half_away. left. reflexivity. Qed.

Lemma round_as_nearest : forall lo hi f q, lo <= 0 <= hi -> float_number f = Some q ->
  exists z, nearest_half_away q z /\ round_as lo hi f = clamp lo hi z.
Proof.
  intros lo hi f q Hr Hq.
  destruct f as [s| | |s m e]; unfold float_number in Hq; cbv zeta in Hq; try discriminate;
    apply Some_inj in Hq; subst q.
  - exists 0. split; [apply nearest_zero|]. cbn. unfold clamp. lia.
  - pose proof (round_nearest m e) as Hn. destruct s.
    + exists (- round_half_away (Zpos m) e). split; [apply nearest_opp, Hn|reflexivity].
    + exists (round_half_away (Zpos m) e). split; [exact Hn|reflexivity].
Qed.

Lemma nearest_bounds : forall q z, nearest_half_away q z ->
  (inject_Z z - (1 # 2) <= q)%Q /\ (q <= inject_Z z + (1 # 2))%Q.
Proof.
  intros [n d] z H. apply nearest_scaled in H.
  unfold Qle, inject_Z, Qminus, Qopp, Qplus. cbn [Qnum Qden]. rewrite ?Pos.mul_1_l. lia.
Qed.

Lemma nearest_mono_hi : forall q z b, nearest_half_away q z -> 0 < b ->
  (inject_Z b <= q)%Q -> b <= z.
Proof.
  intros [n d] z b H Hb Hq. apply nearest_scaled in H. unfold Qle, inject_Z in Hq.
  cbn [Qnum Qden] in Hq. nia.
Qed.

Lemma nearest_mono_lo : forall q z b, nearest_half_away q z ->
  (q <= inject_Z b)%Q -> z <= b.
Proof.
  intros [n d] z b H Hq. apply nearest_scaled in H. unfold Qle, inject_Z in Hq.
  cbn [Qnum Qden] in Hq.
  destruct (Z_le_gt_dec z b); [assumption|]. exfalso.
  assert (b * Zpos d + Zpos d <= z * Zpos d) by nia.
  assert (Zpos d <= z * Zpos d - n) by lia. lia.
Qed.

Lemma float_to_int_exact : forall lo hi E f q z,
  0 <= E -> hi < 2 ^ (52 + E) -> lo <= 0 <= hi ->
  f64_valid f = true -> float_number f = Some q ->
  nearest_half_away q z -> lo <= z <= hi ->
  (if f64_leb f (S754_finite false 4503599627370496 E) then Some (round_as lo hi f) else None)
  = Some z.
Proof.
  intros lo hi E f q z HE Hhi H0 Hv Hq Hn Hz.
  assert (Hle : f64_leb f (S754_finite false 4503599627370496 E) = true).
  { apply (leb_pow2_Q f q E Hv HE Hq).
    pose proof (nearest_bounds q z Hn) as [_ Hb].
    eapply Qle_trans; [exact Hb|].
    unfold Qle, Qplus, inject_Z. cbn [Qnum Qden]. lia. }
  rewrite Hle. destruct (round_as_nearest lo hi f q H0 Hq) as (z' & Hn' & Hr).
  rewrite (nearest_unique q z' z Hn' Hn) in Hr. rewrite Hr. unfold clamp. f_equal. lia.
Qed.

Lemma float_to_int_too_large : forall lo hi E f q,
  0 <= E -> f64_valid f = true -> float_number f = Some q ->
  (inject_Z (2 ^ (52 + E)) < q)%Q ->
  (if f64_leb f (S754_finite false 4503599627370496 E) then Some (round_as lo hi f) else None)
  = None.
Proof.
  intros lo hi E f q HE Hv Hq Hbig.
  destruct (f64_leb f _) eqn:Hle; [|reflexivity].
  apply (leb_pow2_Q f q E Hv HE Hq) in Hle. exfalso. apply (Qlt_not_le _ _ Hbig Hle).
Qed.

Lemma float_to_i64_exact : forall f q z,
  f64_valid f = true -> float_number f = Some q ->
  nearest_half_away q z -> in_i64 z ->
  convert_to_i64 (FloatValue f) = Some z.
Proof.
  intros. cbn [convert_to_i64]. rewrite f64_i64_max_eq.
  apply float_to_int_exact with (q := q); auto; try lia; reflexivity.
Qed.

Lemma float_to_u64_exact : forall f q z,
  f64_valid f = true -> float_number f = Some q ->
  nearest_half_away q z -> in_u64 z ->
  convert_to_u64 (FloatValue f) = Some z.
Proof.
  intros. cbn [convert_to_u64]. rewrite f64_u64_max_eq.
  apply float_to_int_exact with (q := q); auto; try lia; reflexivity.
Qed.

Lemma float_too_large : forall f q,
  f64_valid f = true -> float_number f = Some q ->
  ((inject_Z two63 < q)%Q -> convert_to_i64 (FloatValue f) = None)
  /\ ((inject_Z two64 < q)%Q -> convert_to_u64 (FloatValue f) = None).
Proof.
  intros f q Hv Hq. split; intros Hbig.
  - cbn [convert_to_i64]. rewrite f64_i64_max_eq.
    apply float_to_int_too_large with (q := q); auto. lia.
  - cbn [convert_to_u64]. rewrite f64_u64_max_eq.
    apply float_to_int_too_large with (q := q); auto. lia.
Qed.

Lemma special_floats :
  convert_to_i64 (FloatValue S754_nan) = None
  /\ convert_to_u64 (FloatValue S754_nan) = None
  /\ convert_to_i64 (FloatValue (S754_infinity false)) = None
  /\ convert_to_u64 (FloatValue (S754_infinity false)) = None.
Proof. repeat split. Qed.

(** Below the range of the type: the conversion saturates. *)
Lemma float_below_i64 : forall f q,
  f64_valid f = true -> float_number f = Some q ->
  (q <= inject_Z i64_min)%Q ->
  convert_to_i64 (FloatValue f) = Some i64_min.
Proof.
  intros f q Hv Hq Hlo. cbn [convert_to_i64]. rewrite f64_i64_max_eq.
  assert (Hle : f64_leb f (S754_finite false 4503599627370496 11) = true).
  { apply (leb_pow2_Q f q 11 Hv ltac:(lia) Hq). eapply Qle_trans; [exact Hlo|].
    unfold Qle, inject_Z. cbn. lia. }
  rewrite Hle. destruct (round_as_nearest i64_min i64_max f q ltac:(lia) Hq) as (z & Hn & Hr).
  rewrite Hr. unfold clamp. pose proof (nearest_mono_lo q z _ Hn Hlo). f_equal. lia.
Qed.

Lemma float_below_u64 : forall f q,
  f64_valid f = true -> float_number f = Some q ->
  (q < 0)%Q -> convert_to_u64 (FloatValue f) = Some 0.
Proof.
  intros f q Hv Hq Hlo. cbn [convert_to_u64]. rewrite f64_u64_max_eq.
  assert (Hle : f64_leb f (S754_finite false 4503599627370496 12) = true).
  { apply (leb_pow2_Q f q 12 Hv ltac:(lia) Hq). apply Qlt_le_weak. eapply Qlt_le_trans; [exact Hlo|].
    unfold Qle, inject_Z. cbn. lia. }
  rewrite Hle. destruct (round_as_nearest 0 u64_max f q ltac:(lia) Hq) as (z & Hn & Hr).
  rewrite Hr. unfold clamp. pose proof (nearest_mono_lo q z 0 Hn ltac:(apply Qlt_le_weak; exact Hlo)).
  f_equal. lia.
Qed.

Lemma nearest_of_Z : forall a z, nearest_half_away (inject_Z a) z -> z = a.
Proof.
  intros a z H. apply nearest_scaled in H. lia.
Qed.

Lemma to_i64_number : forall v q z,
  observed_value_ok v -> number v = Some q -> nearest_half_away q z -> in_i64 z ->
  convert_to_i64 v = Some z.
Proof.
  intros v q z Hok Hq Hn Hz. destruct v; cbn in Hq; try discriminate.
  - injection Hq as <-. apply nearest_of_Z in Hn. subst. reflexivity.
  - injection Hq as <-. apply nearest_of_Z in Hn. subst. cbn. unfold in_i64 in Hz.
    replace (v <=? i64_max) with true by lia. reflexivity.
  - eapply float_to_i64_exact; eauto.
Qed.

Lemma to_u64_number : forall v q z,
  observed_value_ok v -> number v = Some q -> nearest_half_away q z -> in_u64 z ->
  convert_to_u64 v = Some z.
Proof.
  intros v q z Hok Hq Hn Hz. destruct v; cbn in Hq; try discriminate.
  - injection Hq as <-. apply nearest_of_Z in Hn. subst. cbn. unfold in_u64 in Hz.
    replace (0 <=? v) with true by lia. reflexivity.
  - injection Hq as <-. apply nearest_of_Z in Hn. subst. reflexivity.
  - eapply float_to_u64_exact; eauto.
Qed.

Lemma to_int_too_large : forall v q,
  observed_value_ok v -> number v = Some q ->
  ((inject_Z two63 < q)%Q -> convert_to_i64 v = None)
  /\ ((inject_Z two64 < q)%Q -> convert_to_u64 v = None).
Proof.
  intros v q Hok Hq. destruct v; cbn in Hq; try discriminate; cbn in Hok; unfold in_i64, in_u64 in *.
  - injection Hq as <-. unfold Qlt, inject_Z. cbn. split; intros; lia.
  - injection Hq as <-. unfold Qlt, inject_Z. cbn. split; intros; [|lia].
    replace (v <=? i64_max) with false by lia. reflexivity.
  - apply float_too_large; auto.
Qed.

Lemma to_int_not_a_number : forall v,
  number v = None -> v <> FloatValue (S754_infinity true) ->
  convert_to_i64 v = None /\ convert_to_u64 v = None.
Proof.
  intros v Hn Hi. destruct v as [ | |f| | | ]; cbn in Hn; try discriminate; try (split; reflexivity).
  destruct f as [s|s| |s m e]; try discriminate; try (split; reflexivity).
  destruct s; [congruence|]. split; reflexivity.
Qed.

Lemma to_bool_number : forall v q, number v = Some q ->
  (forall f, v <> FloatValue f) ->
  exists b, convert_to_bool v = Some b /\ (b = false <-> (q == 0)%Q).
Proof.
  intros v q Hq Hf. destruct v as [z|z|f| | | ]; cbn in Hq; try discriminate.
  - injection Hq as <-. eexists. split; [reflexivity|]. unfold Qeq; cbn. lia.
  - injection Hq as <-. eexists. split; [reflexivity|]. unfold Qeq; cbn. lia.
  - exfalso. apply (Hf f). reflexivity.
Qed.

Lemma to_i64_saturates : exists v q z,
  observed_value_ok v /\ number v = Some q /\ convert_to_i64 v = Some z
  /\ ~ nearest_half_away q z.
Proof.
  exists (FloatValue (S754_finite true 4503599627370496 12)).
  eexists. exists i64_min. repeat split.
  intros H. pose proof (nearest_mono_lo _ _ (-18446744073709551616) H ltac:(discriminate)).
  lia.
Qed.

Lemma negative_float_to_u64 : exists v q,
  observed_value_ok v /\ number v = Some q /\ (q < 0)%Q /\ convert_to_u64 v <> None.
Proof.
  exists (FloatValue (S754_finite true 7881299347898368 3)). eexists.
  repeat split. discriminate.
Qed.

Lemma negative_integer_to_u64 : forall z, z < 0 -> convert_to_u64 (SignedInteger z) = None.
Proof. intros. cbn. replace (0 <=? z) with false by lia. reflexivity. Qed.
