(** Running histories. This file belongs to the specification: it says how the
    operations of a component are strung together. *)
From Coq Require Import ZArith List.
From Verif Require Import Base.
Import ListNotations.
Open Scope Z_scope.

(** Feeds a list of operations into a component, one after the other. The result
    is the component and the numbers of updated instruments reported. *)
Fixpoint run_all {W X Op : Type} (step : X -> Op -> St W (X * Z)) (x : X) (ops : list Op)
  : St W (X * list Z) :=
  match ops with
  | [] => ret (x, [])
  | o :: rest =>
      let* '(x1, n) := step x o in
      let* '(x2, ns) := run_all step x1 rest in
      ret (x2, n :: ns)
  end.

(** A timed history: every operation comes with the clock readings available
    while it runs (its first reading is [c 0], and so on). [None]: it
    panicked. *)
Fixpoint run_timed {X Op : Type} (step : X -> Op -> M X) (k : cfg) (x : X)
  (h : list (clock * Op)) : option X :=
  match h with
  | [] => Some x
  | (c, o) :: rest =>
      match step x o k c with
      | Ok x' _ => run_timed step k x' rest
      | Panic => None
      | NoFuel => None
      end
  end.

(** Result of a computation started at clock [c]. *)
Definition at_clock {A} (k : cfg) (c : clock) (m : M A) : option A :=
  match m k c with
  | Ok a _ => Some a
  | Panic => None
  | NoFuel => None
  end.

(** Time does not run backwards. *)
Definition monotone (c : clock) : Prop := forall i, c i <= c (S i).

(** A clock that always shows the same time. *)
Definition frozen (t : Z) : clock := fun _ => t.

Fixpoint sum (l : list Z) : Z :=
  match l with
  | [] => 0
  | x :: xs => x + sum xs
  end.

(** Build profiles used in examples. *)
Definition release : cfg := Cfg false 0 (2 ^ 62) 100.
Definition debug : cfg := Cfg true 0 (2 ^ 62) 100.
