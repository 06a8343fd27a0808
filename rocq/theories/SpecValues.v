(** What the values a program hands to the library stand for, and what the items
    of a snapshot stand for. *)
From Coq Require Import ZArith QArith Bool List String Floats.SpecFloat.
From Verif Require Import Base SpecObservation ModelObservation ModelSnapshot ModelValues.
Import ListNotations.
Open Scope Z_scope.

(** By how much an increment or decrement is supposed to change a gauge. *)
Definition amount (d : delta) : Z :=
  match d with
  | Increment => 1
  | IncrementBy n => n
  | Decrement => 0 - 1
  | DecrementBy n => 0 - n
  | ChangeBy n => n
  end.

Definition delta_ok (d : delta) : Prop :=
  match d with
  | IncrementBy n | DecrementBy n => 0 <= n < 2 ^ 32
  | ChangeBy n => in_i64 n
  | _ => True
  end.

(** A labelled change that is observed at some time. *)
Definition told {L} (x : L * delta * Z) : observation L :=
  let '(l, d, t) := x in observation_observed_one_value l (value_of_delta d) t.

(** The integer a primitive value is, if it is one. *)
Definition integer (p : primitive) : option Z :=
  match p with
  | PI64 v | PI32 v | PI16 v | PI8 v | PU64 v | PU32 v | PU16 v | PU8 v | PUSize v => Some v
  | PF64 _ | PBool _ => None
  end.

(** What a value tells a reader. *)
Inductive meaning :=
| Number (q : Q)
| Infinite (negative : bool)
| NotANumber
| Truth (b : bool)
| Words (s : string)
| Items (l : list (string * item_kind)).

Inductive same_meaning : meaning -> meaning -> Prop :=
| same_number : forall p q, (p == q)%Q -> same_meaning (Number p) (Number q)
| same_otherwise : forall m, same_meaning m m.

(** m * 2^e *)
Definition magnitude (m : positive) (e : Z) : Q :=
  if 0 <=? e then inject_Z (Zpos m * 2 ^ e) else (Zpos m # Z.to_pos (2 ^ (- e))).

Definition float_meaning (f : spec_float) : meaning :=
  match f with
  | S754_infinity s => Infinite s
  | S754_nan => NotANumber
  | S754_zero _ => Number 0
  | S754_finite s m e => Number (if s then (- magnitude m e)%Q else magnitude m e)
  end.

Definition primitive_meaning (p : primitive) : meaning :=
  match p with
  | PF64 f => float_meaning f
  | PBool b => Truth b
  | PI64 v | PI32 v | PI16 v | PI8 v | PU64 v | PU32 v | PU16 v | PU8 v | PUSize v =>
      Number (inject_Z v)
  end.

Definition source_meaning (s : item_source) : meaning :=
  match s with
  | FromPrimitive p => primitive_meaning p
  | FromISize v => Number (inject_Z v)
  | FromF32 f => float_meaning f
  | FromString t => Words t
  | FromSnapshot l => Items l
  end.

Definition source_ok (s : item_source) : Prop :=
  match s with
  | FromPrimitive p => primitive_ok p
  | FromISize v => in_i64 v
  | FromF32 f => f32_valid f = true
  | _ => True
  end.

Definition item_meaning (i : item_kind) : meaning :=
  match i with
  | Text t => Words t
  | Boolean b => Truth b
  | Float f => float_meaning f
  | UInt v => Number (inject_Z v)
  | Int v => Number (inject_Z v)
  | ItemSnapshot l => Items l
  end.

(** The items that can exist in the Rust program. *)
Definition item_fits (i : item_kind) : Prop :=
  match i with
  | UInt v => in_u64 v
  | Int v => in_i64 v
  | Float f => f64_valid f = true
  | _ => True
  end.
