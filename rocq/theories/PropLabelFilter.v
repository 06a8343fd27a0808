(** C01: label filters behave as sets of labels. *)
From Coq Require Import Bool List Arith.
From Verif Require Import ModelLabelFilter LabelFilterProofs.
Import ListNotations.

(** Whatever a filter accepted before (nothing, everything, a predicate, some
    labels): after any number of [accept_another] calls it accepts exactly that
    plus the added labels. *)
Theorem c01_adding_labels : forall (L : Type) (eqb : L -> L -> bool),
  (forall a b, eqb a b = true <-> a = b) ->
  forall (added : list L) (f : label_filter L) (l : L),
    accepts eqb (fold_left (accept_another eqb) added f) l = true
    <-> accepts eqb f l = true \/ In l added.
Proof. exact @accept_all_labels_spec. Qed.
Print Assumptions c01_adding_labels.

(** Seven labels drive the filter through all its representations. *)
Example c01_adding_labels_case :
  map (accepts Nat.eqb (fold_left (accept_another Nat.eqb) [3; 1; 4; 1; 5; 9; 2] accept_none))
    [0; 1; 2; 3; 4; 5; 6; 7; 8; 9]
  = [false; true; true; true; true; true; false; false; false; true]
  /\ map (accepts Nat.eqb (accept_another Nat.eqb (predicate (Nat.ltb 5)) 2)) [1; 2; 5; 6]
     = [false; true; false; true].
Proof. split; reflexivity. Qed.

(** A filter made from a vector of labels accepts exactly these labels. *)
Theorem c01_from_vec : forall (L : Type) (eqb : L -> L -> bool),
  (forall a b, eqb a b = true <-> a = b) ->
  forall (labels : list L) (l : L),
    accepts eqb (from_vec eqb labels) l = true <-> In l labels.
Proof. exact @from_vec_spec. Qed.
Print Assumptions c01_from_vec.

Example c01_from_vec_case :
  accepts Nat.eqb (from_vec Nat.eqb [7; 7; 8]) 8 = true
  /\ accepts Nat.eqb (from_vec Nat.eqb []) 8 = false.
Proof. split; reflexivity. Qed.

(** The same for one label and for tuples. *)
Theorem c01_from_label_and_tuples : forall (L : Type) (eqb : L -> L -> bool),
  (forall a b, eqb a b = true <-> a = b) ->
  forall a b c d e l : L,
    (accepts eqb (from_label eqb a) l = true <-> In l [a])
    /\ (accepts eqb (from_tuple2 eqb (a, b)) l = true <-> In l [a; b])
    /\ (accepts eqb (from_tuple3 eqb (a, b, c)) l = true <-> In l [a; b; c])
    /\ (accepts eqb (from_tuple4 eqb (a, b, c, d)) l = true <-> In l [a; b; c; d])
    /\ (accepts eqb (from_tuple5 eqb (a, b, c, d, e)) l = true <-> In l [a; b; c; d; e]).
Proof. exact @from_single_and_tuples_spec. Qed.
Print Assumptions c01_from_label_and_tuples.

Example c01_from_tuples_case :
  map (accepts Nat.eqb (from_tuple4 Nat.eqb (1, 2, 3, 4))) [0; 1; 2; 3; 4; 5]
  = [false; true; true; true; true; false].
Proof. reflexivity. Qed.

(** [accept_all] accepts everything whatever is added, [accept_none] nothing,
    and the default accepts everything. *)
Theorem c01_all_and_none : forall (L : Type) (eqb : L -> L -> bool) (added : list L) (l : L),
  accepts eqb (fold_left (accept_another eqb) added accept_all) l = true
  /\ accepts eqb accept_none l = false
  /\ accepts eqb filter_default l = true.
Proof. exact @all_and_none_spec. Qed.
Print Assumptions c01_all_and_none.

Example c01_all_and_none_case :
  accepts Nat.eqb (fold_left (accept_another Nat.eqb) [1; 2; 3; 4; 5; 6] accept_all) 99 = true.
Proof. reflexivity. Qed.
