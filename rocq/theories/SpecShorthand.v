(** Specification of constructors and shorthands. *)
From Coq Require Import ZArith Bool String List.
From Verif Require Import Base ModelObservation ModelInstrument ModelTree ModelChannel ModelProcessor ModelTransmitter.
Import ListNotations.

(** The ways to get a transmitter and a processor, with the name of the processor,
    the capacity of the queue and whether a full queue blocks *)
Inductive makes_pair {X : ext} (id : nat) : option string -> option nat -> bool -> M (chan (message X) * transmitter * tele X) -> Prop :=
| mp_named : forall n, makes_pair id (Some n) None true (new_pair id n)
| mp_unnamed : makes_pair id None None true (new_pair_without_name id)
| mp_bounded : forall n cap block, makes_pair id (Some n) (Some cap) block (new_pair_bounded id n cap block)
| mp_bounded_unnamed : forall cap block, makes_pair id None (Some cap) block (new_pair_bounded_without_name id cap block).

(** The number of handles after clones ([true]) and ends ([false]); when there is
    none left there is nothing to clone. *)
Fixpoint handles_after (n : nat) (l : list bool) : nat :=
  match n, l with
  | _, [] => n
  | O, _ => O
  | S _, true :: l => handles_after (S n) l
  | S n', false :: l => handles_after n' l
  end.
