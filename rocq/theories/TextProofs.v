From Coq Require Import ZArith Bool Ascii String List Lia.
From Verif Require Import Base ModelSnapshot ModelText SpecText.
Import ListNotations.
Open Scope string_scope.
Open Scope Z_scope.

Lemma str_app_assoc : forall a b c : string, (a ++ b) ++ c = a ++ (b ++ c).
Proof. induction a as [|x a IH]; intros; cbn; [reflexivity | rewrite IH; reflexivity]. Qed.
Lemma str_app_nil : forall a : string, a ++ "" = a.
Proof. induction a as [|x a IH]; cbn; [reflexivity | rewrite IH; reflexivity]. Qed.
Lemma str_app_length : forall a b, String.length (a ++ b) = (String.length a + String.length b)%nat.
Proof. induction a as [|x a IH]; intros; cbn; [reflexivity | rewrite IH; reflexivity]. Qed.

(** ** Digits *)

Definition digit_char (d : Z) : ascii := ascii_of_N (Z.to_N (48 + d)).

Lemma digit_of_char : forall d, 0 <= d < 10 -> digit_of (digit_char d) = Some d.
Proof.
  intros d H. unfold digit_of, digit_char. rewrite N_ascii_embedding by lia. rewrite Z2N.id by lia.
  rewrite (proj2 (Z.leb_le _ _)), (proj2 (Z.leb_le _ _)) by lia. cbn [andb]. f_equal. lia.
Qed.

Lemma reads_from_app : forall a b acc,
  reads_from acc (a ++ b) = match reads_from acc a with Some v => reads_from v b | None => None end.
Proof.
  induction a as [|x a IH]; intros b acc; cbn; [reflexivity|]. destruct (digit_of x); [apply IH | reflexivity].
Qed.

Lemma reads_digit : forall d acc, 0 <= d < 10 -> reads_from acc (digit d) = Some (10 * acc + d).
Proof. intros d acc H. change (digit d) with (String (digit_char d) ""). cbn [reads_from]. rewrite digit_of_char by exact H. reflexivity. Qed.

Lemma decimal_reads : forall n z, 0 <= z < 10 ^ Z.of_nat n -> (n <> O) ->
  reads (decimal n z) z /\ tidy (decimal n z) /\ (exists c s, decimal n z = String c s /\ (c = "0"%char -> z = 0)).
Proof.
  induction n as [|n IH]; intros z H Hn; [contradiction|]. cbn [decimal]. destruct (Z.ltb_spec z 10) as [L|L].
  - split; [split; [discriminate | rewrite reads_digit by lia; f_equal; lia]|].
    split; [intros s' E; injection E; intros; subst; reflexivity|].
    exists (digit_char z), "". split; [reflexivity|]. intros E.
    assert (D : digit_of (digit_char z) = digit_of "0") by (rewrite E; reflexivity).
    rewrite digit_of_char in D by lia. cbn in D. injection D as D. exact D.
  - assert (Hq : 0 <= z / 10 < 10 ^ Z.of_nat n).
    { rewrite Nat2Z.inj_succ, Z.pow_succ_r in H by lia. split; [apply Z.div_pos; lia | apply Z.div_lt_upper_bound; lia]. }
    assert (Nn : n <> O) by (intros ->; change (10 ^ Z.of_nat 0) with 1 in Hq; pose proof (Z.div_le_lower_bound z 10 1); lia).
    destruct (IH (z / 10) Hq Nn) as ([R1 R2] & T & c & s & E & Hc).
    pose proof (Z.mod_pos_bound z 10 ltac:(lia)) as M. pose proof (Z.div_mod z 10 ltac:(lia)) as DM.
    assert (P : 0 < z / 10) by (apply Z.div_str_pos; lia).
    rewrite E in *. cbn [append]. split; [split; [discriminate|]|].
    + change (String c (s ++ digit (z mod 10))) with (String c s ++ digit (z mod 10)).
      rewrite reads_from_app, R2, reads_digit by exact M. f_equal. lia.
    + split; [intros s' E'; injection E' as E1 _; specialize (Hc E1); lia|].
      exists c, (s ++ digit (z mod 10)). split; [reflexivity|]. intros E1. specialize (Hc E1). lia.
Qed.

Lemma u64_reads : forall z, 0 <= z <= u64_max -> reads (show_u64 z) z /\ tidy (show_u64 z).
Proof.
  intros z H. destruct (decimal_reads 20 z) as (R & T & _); [|discriminate|split; [exact R | exact T]].
  change (10 ^ Z.of_nat 20) with 100000000000000000000. lia.
Qed.

Lemma i64_reads : forall z, i64_min <= z <= i64_max ->
  exists s, reads s (Z.abs z) /\ tidy s /\ show_i64 z = (if z <? 0 then "-" ++ s else s).
Proof.
  intros z H. exists (show_u64 (Z.abs z)). destruct (u64_reads (Z.abs z)) as [R T]; [lia|].
  split; [exact R|]. split; [exact T|]. unfold show_i64, show_u64. destruct (Z.ltb_spec z 0); [rewrite Z.abs_neq by lia | rewrite Z.abs_eq by lia]; reflexivity.
Qed.

Lemma reads_from_shift : forall s acc v, reads_from 0 s = Some v -> reads_from acc s = Some (acc * 10 ^ Z.of_nat (String.length s) + v).
Proof.
  intros s. assert (G : forall a b v, reads_from a s = Some v -> reads_from b s = Some ((b - a) * 10 ^ Z.of_nat (String.length s) + v)).
  { induction s as [|c s IH]; intros a b v E; cbn [reads_from String.length] in *.
    - injection E as <-. f_equal. change (Z.of_nat 0) with 0. rewrite Z.pow_0_r. lia.
    - destruct (digit_of c) as [d|]; [|discriminate]. rewrite (IH _ (10 * b + d) _ E). f_equal.
      rewrite Nat2Z.inj_succ, Z.pow_succ_r by lia. ring. }
  intros acc v E. rewrite (G _ acc _ E), Z.sub_0_r. reflexivity.
Qed.

Lemma fraction_zero : forall n d, fraction n 0 d = "".
Proof. destruct n; reflexivity. Qed.

Lemma str_cons_snoc : forall x (r s' : string), r <> "" -> String x r = s' ++ "0" -> exists s'', r = s'' ++ "0".
Proof.
  intros x r s' N E. destruct s' as [|y s']; cbn in E; injection E as _ E; [subst r; contradiction|]. exists s'. exact E.
Qed.

Lemma fraction_reads : forall n m f, (m < n)%nat -> 0 <= f < 10 ^ Z.of_nat (S m) ->
  let s := fraction n f (10 ^ Z.of_nat m) in
  (String.length s <= S m)%nat /\ tidy_fraction s /\ (s = "" -> f = 0)
  /\ exists p, reads_from 0 s = Some p /\ p * 10 ^ Z.of_nat (S m - String.length s) = f.
Proof.
  induction n as [|n IH]; intros m f Hm Hf; [lia|]. cbn [fraction]. destruct (Z.eqb_spec f 0) as [->|F].
  { cbn zeta. cbn [String.length]. split; [lia|]. split; [intros [|] E; discriminate E|]. split; [reflexivity|]. exists 0. split; reflexivity. }
  set (M := 10 ^ Z.of_nat m) in *.
  assert (MP : 0 < M) by (apply Z.pow_pos_nonneg; lia).
  rewrite Nat2Z.inj_succ, Z.pow_succ_r in Hf by lia. fold M in Hf.
  assert (Hd : 0 <= f / M < 10) by (split; [apply Z.div_pos; lia | apply Z.div_lt_upper_bound; lia]).
  pose proof (Z.mod_pos_bound f M MP) as Hr. pose proof (Z.div_mod f M ltac:(lia)) as DM.
  assert (Zd : digit_char (f / M) = "0"%char -> f / M = 0).
  { intros E. assert (D : digit_of (digit_char (f / M)) = digit_of "0") by (rewrite E; reflexivity).
    rewrite digit_of_char in D by exact Hd. cbn in D. injection D as D. exact D. }
  destruct (Z.eq_dec (f mod M) 0) as [R0|R0].
  - rewrite R0, fraction_zero, str_app_nil. cbn zeta. change (digit (f / M)) with (String (digit_char (f / M)) ""). cbn [String.length].
    split; [lia|]. split.
    + intros [|c s'] E; cbn in E; [injection E as E; specialize (Zd E); lia|]. injection E as _ E. destruct s'; discriminate E.
    + split; [discriminate|]. exists (f / M). split; [cbn [reads_from]; rewrite digit_of_char by exact Hd; f_equal; lia|].
      replace (S m - 1)%nat with m by lia. fold M. lia.
  - destruct m as [|m]; [exfalso; unfold M in R0; change (10 ^ Z.of_nat 0) with 1 in R0; rewrite Z.mod_1_r in R0; lia|].
    assert (MM : M / 10 = 10 ^ Z.of_nat m).
    { unfold M. rewrite Nat2Z.inj_succ, Z.pow_succ_r, Z.mul_comm, Z.div_mul by lia. reflexivity. }
    rewrite MM. destruct (IH m (f mod M) ltac:(lia) ltac:(exact Hr)) as (L & T & E0 & p & P1 & P2).
    set (r := fraction n (f mod M) (10 ^ Z.of_nat m)) in *. cbn zeta.
    change (digit (f / M) ++ r) with (String (digit_char (f / M)) r). cbn [String.length].
    split; [lia|]. split.
    + intros s' E. assert (N : r <> "") by (intros N; exact (R0 (E0 N))).
      destruct (str_cons_snoc _ _ _ N E) as (s'' & E'). exact (T s'' E').
    + split; [discriminate|]. exists (f / M * 10 ^ Z.of_nat (String.length r) + p). split.
      * cbn [reads_from]. rewrite digit_of_char by exact Hd. replace (10 * 0 + f / M) with (f / M) by lia. apply reads_from_shift. exact P1.
      * replace (S (S m) - S (String.length r))%nat with (S m - String.length r)%nat by lia.
        rewrite Z.mul_add_distr_r, P2. rewrite <- Z.mul_assoc, <- Z.pow_add_r by lia.
        replace (Z.of_nat (String.length r) + Z.of_nat (S m - String.length r)) with (Z.of_nat (S m)) by lia. fold M. lia.
Qed.

Lemma fmt_tells : forall m w f u, (m < 9)%nat -> 0 <= w <= u64_max -> 0 <= f < 10 ^ Z.of_nat (S m) ->
  unit_of u = Some (10 ^ Z.of_nat (S m)) -> 0 < w -> (u = "s" \/ w < 1000) ->
  tells (fmt_decimal w f (10 ^ Z.of_nat m) ++ u) (w * 10 ^ Z.of_nat (S m) + f).
Proof.
  intros m w f u Hm Hw Hf Hu W1 W2. destruct (u64_reads w Hw) as [R T]. destruct (fraction_reads 9 m f Hm Hf) as (L & Tf & E0 & p & P1 & P2).
  set (part := fraction 9 f (10 ^ Z.of_nat m)) in *.
  exists (show_u64 w), part, u, (10 ^ Z.of_nat (S m)), w, p.
  split; [exact Hu|]. split; [exact R|]. split; [exact P1|]. split.
  - unfold fmt_decimal. fold part. rewrite str_app_assoc. f_equal. destruct (Z.eqb_spec f 0) as [->|F].
    + unfold part. rewrite fraction_zero. reflexivity.
    + destruct (string_dec part "") as [E|E]; [specialize (E0 E); contradiction|]. reflexivity.
  - split; [exact T|]. split; [exact Tf|]. split; [exact W2|]. split; [right; exact W1|]. rewrite Z.mul_add_distr_r. f_equal.
    rewrite <- P2 at 1. rewrite <- Z.mul_assoc, <- Z.pow_add_r by lia. f_equal. f_equal. lia.
Qed.

Lemma duration_tells : forall d, 0 <= d < 1000000000 * two64 -> tells (show_duration d) d.
Proof.
  intros d H. unfold show_duration. pose proof (Z.div_mod d 1000000000 ltac:(lia)) as DM.
  pose proof (Z.mod_pos_bound d 1000000000 ltac:(lia)) as Hr.
  assert (Hq : 0 <= d / 1000000000 <= u64_max) by (split; [apply Z.div_pos; lia | apply Z.lt_succ_r, Z.div_lt_upper_bound; lia]).
  set (q := d / 1000000000) in *. set (r := d mod 1000000000) in *.
  destruct (Z.ltb_spec 0 q) as [Q|Q].
  - replace d with (q * 1000000000 + r) by lia. apply (fmt_tells 8 q r "s"); [lia | exact Hq | exact Hr | reflexivity | exact Q | left; reflexivity].
  - assert (Dr : d = r) by lia.
    destruct (Z.leb_spec 1000000 r) as [A|A].
    { pose proof (Z.div_mod r 1000000 ltac:(lia)) as DM2. pose proof (Z.mod_pos_bound r 1000000 ltac:(lia)) as Hr2.
      assert (0 <= r / 1000000 <= u64_max) by (split; [apply Z.div_pos; lia | apply Z.lt_succ_r, Z.div_lt_upper_bound; lia]).
      rewrite Dr. replace r with (r / 1000000 * 1000000 + r mod 1000000) at 3 by lia.
      apply (fmt_tells 5 (r / 1000000) (r mod 1000000) "ms"); [lia | assumption | exact Hr2 | reflexivity | apply Z.div_str_pos; lia | right; apply Z.div_lt_upper_bound; lia]. }
    destruct (Z.leb_spec 1000 r) as [B|B].
    { pose proof (Z.div_mod r 1000 ltac:(lia)) as DM2. pose proof (Z.mod_pos_bound r 1000 ltac:(lia)) as Hr2.
      assert (0 <= r / 1000 <= u64_max) by (split; [apply Z.div_pos; lia | apply Z.lt_succ_r, Z.div_lt_upper_bound; lia]).
      rewrite Dr. replace r with (r / 1000 * 1000 + r mod 1000) at 3 by lia.
      apply (fmt_tells 2 (r / 1000) (r mod 1000) "µs"); [lia | assumption | exact Hr2 | reflexivity | apply Z.div_str_pos; lia | right; apply Z.div_lt_upper_bound; lia]. }
    destruct (u64_reads r) as [R T]; [lia|]. exists (show_u64 r), "", "ns", 1, r, 0.
    split; [reflexivity|]. split; [exact R|]. split; [reflexivity|].
    split; [unfold fmt_decimal; cbn; rewrite str_app_nil; reflexivity|].
    split; [exact T|]. split; [intros [|] E; discriminate E|]. split; [right; lia|]. split; [left; reflexivity|]. change (Z.of_nat (String.length "")) with 0. rewrite Z.pow_0_r. lia.
Qed.

(** ** Reading is unambiguous *)

Definition starts_plain (s : string) : Prop := match s with "" => True | String c _ => digit_of c = None end.

Lemma span_digits : forall a b r q x y, reads_from x a <> None -> reads_from y b <> None ->
  starts_plain r -> starts_plain q -> a ++ r = b ++ q -> a = b /\ r = q.
Proof.
  induction a as [|c a IH]; intros b r q x y Ha Hb Hr Hq E.
  - destruct b as [|c b]; [split; [reflexivity | exact E]|]. exfalso. cbn in E. subst r. cbn [starts_plain] in Hr.
    cbn [reads_from] in Hb. rewrite Hr in Hb. exact (Hb eq_refl).
  - destruct b as [|c' b].
    + exfalso. cbn in E. subst q. cbn [starts_plain] in Hq. cbn [reads_from] in Ha. rewrite Hq in Ha. exact (Ha eq_refl).
    + cbn [append] in E. injection E as <- E. cbn [reads_from] in Ha, Hb. destruct (digit_of c) as [d|]; [|contradiction].
      destruct (IH b r q _ _ Ha Hb Hr Hq E) as [-> ->]. split; reflexivity.
Qed.

Lemma unit_plain : forall u z, unit_of u = Some z -> starts_plain u /\ (forall s, u <> String "." s).
Proof.
  intros u z. unfold unit_of. repeat (destruct (string_dec u _) as [->|]; [intros _; split; [reflexivity | discriminate]|]). discriminate.
Qed.

Lemma tells_unique : forall s d1 d2, tells s d1 -> tells s d2 -> d1 = d2.
Proof.
  intros s d1 d2 (a1 & p1 & u1 & c1 & w1 & v1 & U1 & [_ R1] & F1 & E1 & _ & _ & _ & _ & D1)
    (a2 & p2 & u2 & c2 & w2 & v2 & U2 & [_ R2] & F2 & E2 & _ & _ & _ & _ & D2).
  rewrite E1 in E2. destruct (unit_plain _ _ U1) as [P1 N1]. destruct (unit_plain _ _ U2) as [P2 N2].
  assert (X : forall p u, starts_plain u -> starts_plain ((if string_dec p "" then "" else "." ++ p) ++ u)).
  { intros p u H. destruct (string_dec p ""); [exact H | reflexivity]. }
  destruct (span_digits _ _ _ _ 0 0 ltac:(rewrite R1; discriminate) ltac:(rewrite R2; discriminate) (X p1 u1 P1) (X p2 u2 P2) E2) as [<- E].
  rewrite R1 in R2. injection R2 as <-.
  assert (PU : p1 = p2 /\ u1 = u2).
  { destruct (string_dec p1 "") as [->|Q1], (string_dec p2 "") as [->|Q2].
    - split; [reflexivity | exact E].
    - exfalso. exact (N1 _ E).
    - exfalso. exact (N2 _ (eq_sym E)).
    - cbn in E. injection E as E.
      exact (span_digits _ _ _ _ 0 0 ltac:(rewrite F1; discriminate) ltac:(rewrite F2; discriminate) P1 P2 E). }
  destruct PU as [<- <-]. rewrite F1 in F2. injection F2 as <-. rewrite U1 in U2. injection U2 as <-.
  apply (Z.mul_reg_r _ _ (10 ^ Z.of_nat (String.length p1))); [|congruence]. apply Z.pow_nonzero; lia.
Qed.

Lemma reads_unique : forall s a b, reads s a -> reads s b -> a = b.
Proof. intros s a b [_ A] [_ B]. rewrite A in B. injection B as B. exact B. Qed.

Lemma minus_unread : forall s z, ~ reads ("-" ++ s) z.
Proof. intros s z [_ E]. discriminate E. Qed.

(** ** The items *)

Lemma items_read : forall show,
  (forall z, 0 <= z <= u64_max -> reads (item_display show (UInt z)) z /\ tidy (item_display show (UInt z)))
  /\ (forall z, 0 <= z <= i64_max -> reads (item_display show (Int z)) z /\ tidy (item_display show (Int z)))
  /\ (forall z, i64_min <= z < 0 -> exists s, item_display show (Int z) = "-" ++ s /\ reads s (- z) /\ tidy s)
  /\ (forall items, Z.of_nat (List.length items) <= u64_max ->
      exists s, item_display show (ItemSnapshot items) = "Snapshot(" ++ s ++ " items)" /\ reads s (Z.of_nat (List.length items)) /\ tidy s)
  /\ (forall s, item_display show (Text s) = s)
  /\ item_display show (Boolean true) = "true" /\ item_display show (Boolean false) = "false".
Proof.
  intros show. split; [exact u64_reads|]. split; [|split; [|split]].
  - intros z H. destruct (i64_reads z) as (s & R & T & E); [lia|]. cbn [item_display]. rewrite E.
    destruct (Z.ltb_spec z 0); [lia|]. rewrite Z.abs_eq in R by lia. split; assumption.
  - intros z H. destruct (i64_reads z) as (s & R & T & E); [lia|]. exists s. cbn [item_display]. rewrite E.
    destruct (Z.ltb_spec z 0); [|lia]. rewrite Z.abs_neq in R by lia. split; [reflexivity|]. split; assumption.
  - intros items H. exists (show_u64 (Z.of_nat (List.length items))). destruct (u64_reads (Z.of_nat (List.length items))) as [R T]; [lia|].
    split; [reflexivity|]. split; assumption.
  - split; [reflexivity|]. split; reflexivity.
Qed.

Lemma integers_differ : forall show a b,
  (0 <= a <= u64_max -> 0 <= b <= u64_max -> item_display show (UInt a) = item_display show (UInt b) -> a = b)
  /\ (i64_min <= a <= i64_max -> i64_min <= b <= i64_max -> item_display show (Int a) = item_display show (Int b) -> a = b).
Proof.
  intros show a b. split.
  - intros Ha Hb E. destruct (u64_reads a Ha) as [R _]. destruct (u64_reads b Hb) as [R' _]. cbn [item_display] in E. rewrite E in R. exact (reads_unique _ _ _ R R').
  - intros Ha Hb E. destruct (i64_reads a Ha) as (s & R & _ & E1). destruct (i64_reads b Hb) as (s' & R' & _ & E2). cbn [item_display] in E.
    rewrite E1, E2 in E. destruct (Z.ltb_spec a 0), (Z.ltb_spec b 0).
    + cbn in E. injection E as <-. pose proof (reads_unique _ _ _ R R'). lia.
    + exfalso. subst s'. exact (minus_unread _ _ R').
    + exfalso. subst s. exact (minus_unread _ _ R).
    + subst s'. pose proof (reads_unique _ _ _ R R'). lia.
Qed.

Lemma durations_differ : forall a b, 0 <= a < 1000000000 * two64 -> 0 <= b < 1000000000 * two64 ->
  show_duration a = show_duration b -> a = b.
Proof.
  intros a b Ha Hb E. pose proof (duration_tells a Ha) as A. rewrite E in A. exact (tells_unique _ _ _ A (duration_tells b Hb)).
Qed.

Lemma found_durations : forall v, 0 <= v <= u64_max ->
  tells (find_duration_display (to_duration_nanoseconds (Found (UInt v)))) v
  /\ tells (find_duration_display (to_duration_microseconds (Found (UInt v)))) (v * 1000)
  /\ tells (find_duration_display (to_duration_milliseconds (Found (UInt v)))) (v * 1000000)
  /\ tells (find_duration_display (to_duration_seconds (Found (UInt v)))) (v * 1000000000).
Proof.
  intros v H. unfold to_duration_nanoseconds, to_duration_microseconds, to_duration_milliseconds, to_duration_seconds.
  cbn [to_duration find_duration_display]. rewrite Z.mul_1_r. repeat split; apply duration_tells; lia.
Qed.

Lemma untold_starts : forall s d, (forall c s', s = String c s' -> digit_of c = None) -> ~ tells s d.
Proof.
  intros s d H (a & p & u & c & w & v & _ & [N R] & _ & E & _). destruct a as [|x a]; [contradiction|].
  cbn [append] in E. specialize (H _ _ E). cbn [reads_from] in R. rewrite H in R. discriminate R.
Qed.

Lemma others_not_durations : forall r d,
  (r = DNotFound \/ r = NotADuration) -> ~ tells (find_duration_display r) d.
Proof.
  intros r d [-> | ->]; apply untold_starts; intros c s' E; injection E as <- _; reflexivity.
Qed.

Lemma opts : forall r i q d,
  (find_opt r = Some i <-> r = Found i) /\ (find_opt r = None <-> r = NotFound)
  /\ (find_duration_opt q = Some d <-> q = DDuration d) /\ (find_duration_opt q = None <-> q = DNotFound \/ q = NotADuration).
Proof.
  intros r i q d. split; [|split; [|split]].
  - destruct r; cbn; split; intros E; try discriminate E; injection E as ->; reflexivity.
  - destruct r; cbn; split; intros E; try discriminate E; reflexivity.
  - destruct q; cbn; split; intros E; try discriminate E; injection E as ->; reflexivity.
  - destruct q; cbn; split; intros E; try discriminate E; auto; destruct E as [E|E]; discriminate E.
Qed.

Lemma find_shows : forall show r, (forall i, r = Found i -> find_display show r = item_display show i)
  /\ (r = NotFound -> find_display show r = "<item not found>").
Proof. intros show r. split; [intros i ->; reflexivity | intros ->; reflexivity]. Qed.

Lemma find_duration_shows : forall r, (forall d, r = DDuration d -> 0 <= d < 1000000000 * two64 -> tells (find_duration_display r) d)
  /\ (r = DNotFound -> find_duration_display r = "<item not found>")
  /\ (r = NotADuration -> find_duration_display r = "<item not a duration>").
Proof. intros r. split; [intros d -> H; exact (duration_tells d H) | split; intros ->; reflexivity]. Qed.
