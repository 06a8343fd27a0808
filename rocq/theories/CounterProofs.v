From Coq Require Import ZArith Bool String List Lia.
From Verif Require Import Base SpecRun SpecCounting MonadFacts ModelObservation ModelSnapshot ModelCounter.
Import ListNotations.
Open Scope Z_scope.

Lemma counter_update_eq : forall W (c : counter) u k (w : W),
  counter_update c u k w
  = (let* v := add_u64 (c_count c) (occurrences u) in
     ret (Counter (c_name c) (c_descr c) v, 1)) k w.
Proof.
  intros. destruct u; cbn [counter_update occurrences]; unfold counter_inc, counter_inc_by, bind, ret;
    destruct (add_u64 _ _ k w); reflexivity.
Qed.

Lemma occurrences_nonneg : forall u, update_ok u -> 0 <= occurrences u.
Proof. destruct u; cbn; unfold in_u64; lia. Qed.

Lemma total_nonneg : forall us, Forall update_ok us -> 0 <= total us.
Proof.
  intros us H. apply sum_nonneg. induction H; cbn; constructor; auto using occurrences_nonneg.
Qed.

Lemma total_cons : forall u us, total (u :: us) = occurrences u + total us.
Proof. reflexivity. Qed.

Lemma counter_release_gen : forall W k, overflow_checks k = false ->
  forall us (c : counter) (w : W),
  in_u64 (c_count c) ->
  run_all counter_update c us k w
  = Ok (Counter (c_name c) (c_descr c) (wrap_u64 (c_count c + total us)),
        repeat 1 (length us)) w.
Proof.
  intros W k Hk. induction us as [|u us IH]; intros c w Hc.
  - cbn. rewrite Z.add_0_r, wrap_u64_id by (unfold in_u64 in Hc; lia).
    destruct c; reflexivity.
  - cbn [run_all]. unfold bind at 1. rewrite counter_update_eq.
    unfold add_u64. unfold bind at 1. rewrite u64_arith_release by assumption.
    cbn [ret]. unfold bind. unfold ret at 1. rewrite IH.
    + cbn [c_name c_descr c_count length repeat].
      rewrite wrap_u64_add_l, total_cons, Z.add_assoc. reflexivity.
    + cbn. apply wrap_u64_range.
Qed.

Lemma counter_release : forall W k, overflow_checks k = false ->
  forall name us (w : W),
  exists c,
    run_all counter_update (counter_new name) us k w = Ok (c, repeat 1 (length us)) w
    /\ counter_put c false [] = [(name, UInt (total us mod two64))].
Proof.
  intros W k Hk name us w. eexists. split.
  - apply counter_release_gen; [assumption|]. cbn. unfold in_u64. lia.
  - reflexivity.
Qed.

Lemma counter_fits_gen : forall W k us (c : counter) (w : W),
  Forall update_ok us -> 0 <= c_count c ->
  c_count c + total us <= u64_max ->
  run_all counter_update c us k w
  = Ok (Counter (c_name c) (c_descr c) (c_count c + total us), repeat 1 (length us)) w.
Proof.
  intros W k. induction us as [|u us IH]; intros c w Hok Hc Hfit.
  - cbn. rewrite Z.add_0_r. destruct c; reflexivity.
  - inversion Hok; subst. rewrite total_cons in Hfit.
    pose proof (occurrences_nonneg u H1). pose proof (total_nonneg us H2).
    cbn [run_all]. unfold bind at 1. rewrite counter_update_eq.
    unfold add_u64. unfold bind at 1. rewrite u64_arith_fits by lia.
    cbn [ret]. unfold bind. unfold ret at 1. rewrite IH; cbn [c_name c_descr c_count]; try lia; auto.
    cbn [length repeat]. rewrite total_cons, Z.add_assoc. reflexivity.
Qed.

Lemma counter_fits : forall W k name us (w : W),
  Forall update_ok us -> total us <= u64_max ->
  exists c,
    run_all counter_update (counter_new name) us k w = Ok (c, repeat 1 (length us)) w
    /\ counter_put c false [] = [(name, UInt (total us))].
Proof.
  intros. eexists. split.
  - apply counter_fits_gen; cbn; auto; lia.
  - reflexivity.
Qed.

Lemma counter_checked_gen : forall W k, overflow_checks k = true ->
  forall us (c : counter) (w : W),
  Forall update_ok us -> 0 <= c_count c <= u64_max ->
  c_count c + total us > u64_max ->
  run_all counter_update c us k w = Panic.
Proof.
  intros W k Hk. induction us as [|u us IH]; intros c w Hok Hc Hbig.
  - cbn in Hbig. lia.
  - inversion Hok; subst. rewrite total_cons in Hbig.
    pose proof (occurrences_nonneg u H1).
    cbn [run_all]. unfold bind at 1. rewrite counter_update_eq.
    unfold add_u64. unfold bind at 1.
    destruct (Z_le_gt_dec (c_count c + occurrences u) u64_max) as [Hle|Hgt].
    + rewrite u64_arith_fits by lia. cbn [ret]. unfold bind. unfold ret at 1.
      rewrite IH; cbn [c_count]; auto; lia.
    + rewrite u64_arith_checked by (assumption || lia). reflexivity.
Qed.

Lemma counter_checked : forall W k, overflow_checks k = true ->
  forall name us (w : W),
  Forall update_ok us ->
  (run_all counter_update (counter_new name) us k w = Panic <-> total us > u64_max).
Proof.
  intros W k Hk name us w Hok. split.
  - intros HP. destruct (Z_le_gt_dec (total us) u64_max) as [Hle|]; [|lia].
    destruct (counter_fits W k name us w Hok Hle) as (c & Hc & _). congruence.
  - intros. apply counter_checked_gen; cbn; auto; lia.
Qed.

Lemma counter_monotone : forall W k name us1 us2 (w : W),
  Forall update_ok (us1 ++ us2) -> total (us1 ++ us2) <= u64_max ->
  exists c1 c2 n1 n2,
    run_all counter_update (counter_new name) us1 k w = Ok (c1, n1) w
    /\ run_all counter_update (counter_new name) (us1 ++ us2) k w = Ok (c2, n2) w
    /\ counter_get c1 <= counter_get c2.
Proof.
  intros W k name us1 us2 w Hok Hfit.
  assert (E : total (us1 ++ us2) = total us1 + total us2).
  { unfold total. rewrite map_app, sum_app. reflexivity. }
  apply Forall_app in Hok as Hok2. destruct Hok2 as [H1 H2].
  pose proof (total_nonneg us1 H1). pose proof (total_nonneg us2 H2).
  do 4 eexists. repeat split.
  - apply counter_fits_gen; cbn; auto; lia.
  - apply counter_fits_gen; cbn; auto; lia.
  - cbn. lia.
Qed.
