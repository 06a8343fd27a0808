(** Model of src/instruments/label_filter.rs. *)
From Coq Require Import Bool List.
Import ListNotations.

Section LabelFilter.
  (** The label type with its [Eq] instance. *)
  Context {L : Type} (eqb : L -> L -> bool).

  (** src/instruments/label_filter.rs 192-202. Predicates are pure functions
      (Rust's [Fn(&L) -> bool]); a predicate with hidden state is not
      covered. *)
  Inductive label_filter :=
  | AcceptNone
  | AcceptAll
  | One (a : L)
  | Two (a b : L)
  | Three (a b c : L)
  | Four (a b c d : L)
  | Five (a b c d ee : L)
  | Many (many : list L)
  | Predicate (p : L -> bool).

  (** src/instruments/label_filter.rs 208-210, 30-34 *)
  Definition accept_none : label_filter := AcceptNone.

  (** src/instruments/label_filter.rs 24-28 *)
  Definition accept_all : label_filter := AcceptAll.

  (** src/instruments/label_filter.rs 15-22, 212-217 *)
  Definition predicate (p : L -> bool) : label_filter := Predicate p.

  (** src/instruments/label_filter.rs 219-242 *)
  Definition accept_another (f : label_filter) (label : L) : label_filter :=
    match f with
    | AcceptNone => One label
    | AcceptAll => AcceptAll
    | One a => Two a label
    | Two a b => Three a b label
    | Three a b c => Four a b c label
    | Four a b c d => Five a b c d label
    | Five a b c d ee => Many [a; b; c; d; ee; label]
    | Many many => Many (many ++ [label])
    | Predicate pred => Predicate (fun l => eqb l label || pred l)
    end.

  (** src/instruments/label_filter.rs 244-260 *)
  Definition accepts (f : label_filter) (label : L) : bool :=
    match f with
    | AcceptNone => false
    | AcceptAll => true
    | One a => eqb label a
    | Two a b => eqb label a || eqb label b
    | Three a b c => eqb label a || eqb label b || eqb label c
    | Four a b c d => eqb label a || eqb label b || eqb label c || eqb label d
    | Five a b c d ee =>
        eqb label a || eqb label b || eqb label c || eqb label d || eqb label ee
    | Many many => existsb (eqb label) many
    | Predicate pred => pred label
    end.

  (** src/instruments/label_filter.rs 9-13 *)
  Definition filter_new (label : L) : label_filter := accept_another accept_none label.

  (** src/instruments/label_filter.rs 56-118: [From] of one label, of
      [AcceptNoLabel], [AcceptAllLabels], [LabelPredicate] *)
  Definition from_label (l : L) : label_filter := filter_new l.

  (** src/instruments/label_filter.rs 120-131 *)
  Definition from_vec (v : list L) : label_filter := fold_left accept_another v accept_none.

  (** src/instruments/label_filter.rs 133-181 *)
  Definition from_tuple2 (v : L * L) : label_filter :=
    let '(a, b) := v in accept_another (filter_new a) b.
  Definition from_tuple3 (v : L * L * L) : label_filter :=
    let '(a, b, c) := v in accept_another (accept_another (filter_new a) b) c.
  Definition from_tuple4 (v : L * L * L * L) : label_filter :=
    let '(a, b, c, d) := v in
    accept_another (accept_another (accept_another (filter_new a) b) c) d.
  Definition from_tuple5 (v : L * L * L * L * L) : label_filter :=
    let '(a, b, c, d, ee) := v in
    accept_another (accept_another (accept_another (accept_another (filter_new a) b) c) d) ee.

  (** src/instruments/label_filter.rs 183-190, 263-267 *)
  Definition filter_default : label_filter := AcceptAll.
End LabelFilter.
Arguments label_filter : clear implicits.
