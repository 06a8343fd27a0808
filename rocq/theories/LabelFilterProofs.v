(** Lemmas about label filters. *)
From Coq Require Import Bool List.
From Verif Require Import ModelLabelFilter.
Import ListNotations.

Section Proofs.
  Context {L : Type} (eqb : L -> L -> bool).
  Hypothesis eqb_spec : forall a b, eqb a b = true <-> a = b.

  Lemma accept_another_spec : forall f x l,
    accepts eqb (accept_another eqb f x) l = true <-> accepts eqb f l = true \/ l = x.
  Proof.
    intros f x l.
    assert (E := eqb_spec l x).
    destruct f; cbn; rewrite ?orb_true_iff, ?existsb_app, ?orb_true_iff; cbn;
      rewrite ?orb_true_iff, ?eqb_spec; intuition congruence.
  Qed.

  Lemma accept_all_labels_spec : forall xs f l,
    accepts eqb (fold_left (accept_another eqb) xs f) l = true
    <-> accepts eqb f l = true \/ In l xs.
  Proof.
    induction xs as [|x xs IH]; intros f l; cbn [fold_left In].
    - intuition.
    - rewrite IH, accept_another_spec. intuition congruence.
  Qed.

  Lemma from_vec_spec : forall xs l, accepts eqb (from_vec eqb xs) l = true <-> In l xs.
  Proof.
    intros. unfold from_vec. rewrite accept_all_labels_spec. cbn. intuition congruence.
  Qed.

  Lemma from_single_and_tuples_spec : forall a b c d e l,
    (accepts eqb (from_label eqb a) l = true <-> In l [a])
    /\ (accepts eqb (from_tuple2 eqb (a, b)) l = true <-> In l [a; b])
    /\ (accepts eqb (from_tuple3 eqb (a, b, c)) l = true <-> In l [a; b; c])
    /\ (accepts eqb (from_tuple4 eqb (a, b, c, d)) l = true <-> In l [a; b; c; d])
    /\ (accepts eqb (from_tuple5 eqb (a, b, c, d, e)) l = true <-> In l [a; b; c; d; e]).
  Proof.
    intros.
    assert (H := accept_all_labels_spec).
    repeat split; intro X.
    all: first [ apply (proj1 (from_vec_spec _ l)); exact X
               | apply (proj2 (from_vec_spec _ l)) in X; exact X ].
  Qed.

  Lemma accept_another_commutes_with_order : forall xs ys,
    (forall l, In l xs <-> In l ys) ->
    forall f l,
      accepts eqb (fold_left (accept_another eqb) xs f) l
      = accepts eqb (fold_left (accept_another eqb) ys f) l.
  Proof.
    intros xs ys H f l. apply eq_true_iff_eq.
    rewrite !accept_all_labels_spec, H. reflexivity.
  Qed.
End Proofs.

Lemma all_and_none_spec : forall (L : Type) (eqb : L -> L -> bool) (added : list L) (l : L),
  accepts eqb (fold_left (accept_another eqb) added accept_all) l = true
  /\ accepts eqb accept_none l = false
  /\ accepts eqb filter_default l = true.
Proof.
  intros L eqb added l. repeat split.
  induction added as [|x xs IH]; [reflexivity|exact IH].
Qed.
