(** Specification of what a single instrument in a processor sees of the
    observations that are sent to the processor. *)
From Coq Require Import ZArith Bool String List.
From Verif Require Import Base SpecClock ModelObservation ModelInstrument ModelTree ModelProcessor SpecTree.
Import ListNotations.
Open Scope Z_scope.

Section Follow.
  Context {X : ext}.
  Variable k : cfg.

  (** The [i]th leaf of the processor is [x]; [on]: the labels that reach it *)
  Definition leaf_at (t : tele X) (i : nat) (on : lab X -> bool) (x : leaf X) : Prop :=
    forall l, nth_error (tele_leaves l t) i = Some (on l, x).

  (** The leaf handles the observations one after the other; between them time goes on. *)
  Inductive follows : clock -> leaf X -> list (observation (lab X)) -> leaf X -> clock -> Prop :=
  | fo_nil : forall c x c', later c c' -> follows c x [] x c'
  | fo_cons : forall c c0 o x x1 n c1 os x2 c2,
      later c c0 -> leaf_handle o x k c0 = Ok (x1, n) c1 ->
      follows c1 x1 os x2 c2 -> follows c x (o :: os) x2 c2.
End Follow.
