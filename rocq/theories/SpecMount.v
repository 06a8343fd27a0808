(** Specification of adding to mounts. *)
From Coq Require Import ZArith Bool String List.
From Verif Require Import Base SpecRun SpecClock ModelSnapshot ModelTree SpecTree SpecSite.
Import ListNotations.

(** One more at the end, everything else stays. *)
Definition appended {A} (old new : list A) (x : A) : Prop :=
  length new = S (length old) /\ nth_error new (length old) = Some x
  /\ forall j y, nth_error old j = Some y -> nth_error new j = Some y.

(** A snapshot is written by a component with this name and this guard between [c]
    and [c'], which appends [added]: what the part [x] writes with [put] is in it
    below the name unless the component is inactive; [x'] is the part afterwards. *)
Definition writes_below {A} (put : A -> bool -> snapshot -> M (A * snapshot)) (k : cfg) (c : clock) (n : option string)
  (g : guard) (x : A) (de : bool) (added : snapshot) (x' : A) (c' : clock) : Prop :=
  (x' = x /\ exists c1, later c c1 /\ later c1 c' /\ hides g (c1 O))
  \/ exists level fields c1 c2,
       later c c1 /\ put x de level k c1 = Ok (x', level ++ fields) c2 /\ later c2 c'
       /\ contains (opt_list n) fields added.
