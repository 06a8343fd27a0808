(** Lemmas and tactics about the monad and the machine integers. *)
From Coq Require Import ZArith Bool List Lia ZifyBool.
From Verif Require Import Base SpecRun.
Import ListNotations.
Open Scope Z_scope.

Lemma bind_ok : forall W A B (m : St W A) (f : A -> St W B) k w b w2,
  bind m f k w = Ok b w2 <-> exists a w1, m k w = Ok a w1 /\ f a k w1 = Ok b w2.
Proof.
  intros. unfold bind. split.
  - destruct (m k w) as [a w1| |] eqn:E; intros; try discriminate. eauto.
  - intros (a & w1 & H1 & H2). rewrite H1. exact H2.
Qed.

Lemma bind_eq : forall W A B (m : St W A) (f : A -> St W B) k w a w1,
  m k w = Ok a w1 -> bind m f k w = f a k w1.
Proof. intros. unfold bind. rewrite H. reflexivity. Qed.

Lemma ret_eq : forall W A (a : A) k (w : W), ret a k w = Ok a w.
Proof. reflexivity. Qed.

Lemma now_eq : forall k c, now k c = Ok (c O) (clock_tail c).
Proof. reflexivity. Qed.

Lemma elapsed_eq : forall s k c, elapsed s k c = Ok (Z.max 0 (c O - s)) (clock_tail c).
Proof. reflexivity. Qed.

Lemma instant_add_ok : forall W t d k (w : W),
  t + d <= max_instant k -> instant_add t d k w = Ok (t + d) w.
Proof. intros. unfold instant_add. destruct (Z.leb_spec (t + d) (max_instant k)); lia || reflexivity. Qed.

Lemma instant_sub_ok : forall W t d k (w : W),
  min_instant k <= t - d -> instant_sub t d k w = Ok (t - d) w.
Proof. intros. unfold instant_sub. destruct (Z.leb_spec (min_instant k) (t - d)); lia || reflexivity. Qed.

Lemma instant_add_inv : forall W t d k (w w' : W) r,
  instant_add t d k w = Ok r w' -> r = t + d /\ w' = w /\ t + d <= max_instant k.
Proof.
  intros. unfold instant_add in H.
  destruct (Z.leb_spec (t + d) (max_instant k)); inversion H; auto.
Qed.

Lemma instant_sub_inv : forall W t d k (w w' : W) r,
  instant_sub t d k w = Ok r w' -> r = t - d /\ w' = w /\ min_instant k <= t - d.
Proof.
  intros. unfold instant_sub in H.
  destruct (Z.leb_spec (min_instant k) (t - d)); inversion H; auto.
Qed.

(** Destructs hypotheses of the form [m k w = Ok a w'] where [m] is a [bind],
    a [ret] or a clock operation. *)
Ltac step_in H :=
  lazymatch type of H with
  | bind _ _ _ _ = Ok _ _ =>
      let a := fresh "a" in let w := fresh "w" in
      let H1 := fresh "E" in let H2 := fresh "E" in
      apply bind_ok in H; destruct H as (a & w & H1 & H2)
  | ret _ _ _ = Ok _ _ => injection H; clear H; intros; subst
  | now _ _ = Ok _ _ => rewrite now_eq in H; injection H; clear H; intros; subst
  | elapsed _ _ _ = Ok _ _ => rewrite elapsed_eq in H; injection H; clear H; intros; subst
  | panic _ _ = Ok _ _ => discriminate H
  | Ok _ _ = Ok _ _ => injection H; clear H; intros; subst
  | Panic = Ok _ _ => discriminate H
  | NoFuel = Ok _ _ => discriminate H
  end.

(** Takes all successful computations in the hypotheses apart. *)
Ltac steps :=
  repeat match goal with
  | H : bind _ _ _ _ = Ok _ _ |- _ =>
      let a := fresh "a" in let w := fresh "w" in
      let H1 := fresh "E" in let H2 := fresh "E" in
      apply bind_ok in H; destruct H as (a & w & H1 & H2)
  | a : (_ * _)%type |- _ => destruct a
  | H : ret _ _ _ = Ok _ _ |- _ => injection H; clear H; intros; subst
  | H : now _ _ = Ok _ _ |- _ => rewrite now_eq in H; injection H; clear H; intros; subst
  | H : elapsed _ _ _ = Ok _ _ |- _ => rewrite elapsed_eq in H; injection H; clear H; intros; subst
  | H : panic _ _ = Ok _ _ |- _ => discriminate H
  | H : Ok _ _ = Ok _ _ |- _ => injection H; clear H; intros; subst
  | H : Panic = Ok _ _ |- _ => discriminate H
  | H : NoFuel = Ok _ _ |- _ => discriminate H
  end.

(** ** Machine integers *)

Lemma wrap_u64_id : forall z, 0 <= z <= u64_max -> wrap_u64 z = z.
Proof. intros. unfold wrap_u64. apply Z.mod_small. lia. Qed.

Lemma wrap_i64_id : forall z, i64_min <= z <= i64_max -> wrap_i64 z = z.
Proof. intros. unfold wrap_i64. rewrite Z.mod_small; lia. Qed.

Lemma wrap_u64_range : forall z, 0 <= wrap_u64 z <= u64_max.
Proof. intros. unfold wrap_u64. pose proof (Z.mod_pos_bound z two64). lia. Qed.

Lemma wrap_i64_range : forall z, i64_min <= wrap_i64 z <= i64_max.
Proof. intros. unfold wrap_i64. pose proof (Z.mod_pos_bound (z + two63) two64). lia. Qed.

Lemma wrap_u64_add_l : forall a b, wrap_u64 (wrap_u64 a + b) = wrap_u64 (a + b).
Proof. intros. unfold wrap_u64. apply Zplus_mod_idemp_l. Qed.

Lemma wrap_u64_add_r : forall a b, wrap_u64 (a + wrap_u64 b) = wrap_u64 (a + b).
Proof. intros. unfold wrap_u64. apply Zplus_mod_idemp_r. Qed.

Lemma wrap_i64_add_l : forall a b, wrap_i64 (wrap_i64 a + b) = wrap_i64 (a + b).
Proof.
  intros. unfold wrap_i64.
  replace ((a + two63) mod two64 - two63 + b + two63) with ((a + two63) mod two64 + b) by ring.
  rewrite Zplus_mod_idemp_l. f_equal. f_equal. ring.
Qed.

Lemma wrap_i64_add_r : forall a b, wrap_i64 (a + wrap_i64 b) = wrap_i64 (a + b).
Proof. intros. rewrite Z.add_comm, wrap_i64_add_l. f_equal. ring. Qed.

Lemma wrap_i64_mod : forall a b, a mod two64 = b mod two64 -> wrap_i64 a = wrap_i64 b.
Proof.
  intros a b H. unfold wrap_i64.
  rewrite (Zplus_mod a), (Zplus_mod b), H. reflexivity.
Qed.

Lemma u64_arith_fits : forall W r k (w : W), 0 <= r <= u64_max -> u64_arith r k w = Ok r w.
Proof.
  intros. unfold u64_arith, arith.
  replace ((0 <=? r) && (r <=? u64_max)) with true by lia. reflexivity.
Qed.

Lemma u64_arith_release : forall W r k (w : W),
  overflow_checks k = false -> u64_arith r k w = Ok (wrap_u64 r) w.
Proof.
  intros. unfold u64_arith, arith.
  destruct ((0 <=? r) && (r <=? u64_max)) eqn:E.
  - rewrite wrap_u64_id by lia. reflexivity.
  - rewrite H. reflexivity.
Qed.

Lemma u64_arith_checked : forall W r k (w : W),
  overflow_checks k = true -> ~ (0 <= r <= u64_max) -> u64_arith r k w = Panic.
Proof.
  intros. unfold u64_arith, arith.
  destruct ((0 <=? r) && (r <=? u64_max)) eqn:E; [lia|]. rewrite H. reflexivity.
Qed.

Lemma u64_arith_inv : forall W r k (w w' : W) x,
  u64_arith r k w = Ok x w' ->
  w' = w /\ x = wrap_u64 r /\ (overflow_checks k = true -> 0 <= r <= u64_max).
Proof.
  intros W r k w w' x H. unfold u64_arith, arith in H.
  destruct ((0 <=? r) && (r <=? u64_max)) eqn:E.
  - inversion H; subst. rewrite wrap_u64_id by lia. repeat split; lia.
  - destruct (overflow_checks k); inversion H. repeat split; congruence.
Qed.

Lemma i64_arith_fits : forall W r k (w : W), i64_min <= r <= i64_max -> i64_arith r k w = Ok r w.
Proof.
  intros. unfold i64_arith, arith.
  replace ((i64_min <=? r) && (r <=? i64_max)) with true by lia. reflexivity.
Qed.

Lemma i64_arith_release : forall W r k (w : W),
  overflow_checks k = false -> i64_arith r k w = Ok (wrap_i64 r) w.
Proof.
  intros. unfold i64_arith, arith.
  destruct ((i64_min <=? r) && (r <=? i64_max)) eqn:E.
  - rewrite wrap_i64_id by lia. reflexivity.
  - rewrite H. reflexivity.
Qed.

Lemma i64_arith_checked : forall W r k (w : W),
  overflow_checks k = true -> ~ (i64_min <= r <= i64_max) -> i64_arith r k w = Panic.
Proof.
  intros. unfold i64_arith, arith.
  destruct ((i64_min <=? r) && (r <=? i64_max)) eqn:E; [lia|]. rewrite H. reflexivity.
Qed.

Lemma i64_arith_inv : forall W r k (w w' : W) x,
  i64_arith r k w = Ok x w' ->
  w' = w /\ x = wrap_i64 r /\ (overflow_checks k = true -> i64_min <= r <= i64_max).
Proof.
  intros W r k w w' x H. unfold i64_arith, arith in H.
  destruct ((i64_min <=? r) && (r <=? i64_max)) eqn:E.
  - inversion H; subst. rewrite wrap_i64_id by lia. repeat split; lia.
  - destruct (overflow_checks k); inversion H. repeat split; congruence.
Qed.

Lemma arith_no_fuel : forall W lo hi wr r k (w : W), arith lo hi wr r k w <> NoFuel.
Proof.
  intros. unfold arith. destruct (_ && _); [discriminate|].
  destruct (overflow_checks k); discriminate.
Qed.

(** ** Sums and histories *)

Lemma sum_app : forall a b, sum (a ++ b) = sum a + sum b.
Proof. induction a; intros; cbn; rewrite ?IHa; lia. Qed.

Lemma sum_nonneg : forall l, Forall (fun x => 0 <= x) l -> 0 <= sum l.
Proof. induction 1; cbn; lia. Qed.

Lemma monotone_le : forall c i j, monotone c -> (i <= j)%nat -> c i <= c j.
Proof.
  intros c i j Hm Hij. induction Hij; [lia|]. specialize (Hm m). lia.
Qed.

Lemma monotone_tail : forall c, monotone c -> monotone (clock_tail c).
Proof. intros c H i. apply (H (S i)). Qed.

Lemma frozen_monotone : forall t, monotone (frozen t).
Proof. intros t i. unfold frozen. lia. Qed.

Lemma run_all_app : forall W X Op (step : X -> Op -> St W (X * Z)) a b x k w,
  run_all step x (a ++ b) k w
  = (let* '(x1, n1) := run_all step x a in
     let* '(x2, n2) := run_all step x1 b in
     ret (x2, n1 ++ n2)) k w.
Proof.
  induction a as [|o a IH]; intros b x k w; cbn [run_all app].
  - unfold bind, ret. destruct (run_all step x b k w) as [[x2 n2] w2| |]; reflexivity.
  - unfold bind, ret in *. destruct (step x o k w) as [[x1 n] w1| |]; try reflexivity.
    rewrite IH. destruct (run_all step x1 a k w1) as [[x2 n2] w2| |]; try reflexivity.
    destruct (run_all step x2 b k w2) as [[x3 n3] w3| |]; reflexivity.
Qed.

Lemma run_timed_app : forall X Op (step : X -> Op -> M X) k a b x,
  run_timed step k x (a ++ b)
  = match run_timed step k x a with Some x' => run_timed step k x' b | None => None end.
Proof.
  induction a as [|[c o] a IH]; intros b x; cbn [run_timed app]; [reflexivity|].
  destruct (step x o k c); auto.
Qed.
