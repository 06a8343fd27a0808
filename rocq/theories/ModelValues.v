(** Model of the constructors of src/observation.rs and of the conversions of
    primitive values (src/observation.rs, src/snapshot.rs, polled.rs). *)
From Coq Require Import ZArith Bool List String Floats.SpecFloat.
From Verif Require Import Base ModelObservation ModelSnapshot ModelInstrument.
Import ListNotations.
Open Scope Z_scope.

(** The types with [Into<ObservedValue>] that are plain values: src/observation.rs
    116-181. A usize has 64 bits. *)
Inductive primitive :=
| PI64 (v : Z) | PI32 (v : Z) | PI16 (v : Z) | PI8 (v : Z)
| PU64 (v : Z) | PU32 (v : Z) | PU16 (v : Z) | PU8 (v : Z) | PUSize (v : Z)
| PF64 (v : f64)
| PBool (v : bool).

(** The values that can exist in the Rust program. *)
Definition primitive_ok (p : primitive) : Prop :=
  match p with
  | PI64 v => in_i64 v
  | PI32 v => - 2 ^ 31 <= v < 2 ^ 31
  | PI16 v => - 2 ^ 15 <= v < 2 ^ 15
  | PI8 v => - 2 ^ 7 <= v < 2 ^ 7
  | PU64 v | PUSize v => in_u64 v
  | PU32 v => 0 <= v < 2 ^ 32
  | PU16 v => 0 <= v < 2 ^ 16
  | PU8 v => 0 <= v < 2 ^ 8
  | PF64 v => f64_valid v = true
  | PBool _ => True
  end.

(** src/observation.rs 116-181; [v.into()] widens, [v as u64] of a usize wraps *)
Definition value_of_primitive (p : primitive) : observed_value :=
  match p with
  | PI64 v => SignedInteger v
  | PI32 v => SignedInteger v
  | PI16 v => SignedInteger v
  | PI8 v => SignedInteger v
  | PU64 v => UnsignedInteger v
  | PU32 v => UnsignedInteger v
  | PU16 v => UnsignedInteger v
  | PU8 v => UnsignedInteger v
  | PUSize v => UnsignedInteger (wrap_u64 v)
  | PF64 v => FloatValue v
  | PBool v => BoolValue v
  end.

Section Constructors.
  Context {L : Type}.

  (** src/observation.rs 45-51, 57-59, 65-75; the value is already converted *)
  Definition observation_observed (l : L) (count timestamp : Z) : observation L :=
    Observed l count timestamp.
  Definition observation_observed_one (l : L) (timestamp : Z) : observation L :=
    ObservedOne l timestamp.
  Definition observation_observed_one_value (l : L) (v : observed_value) (timestamp : Z)
    : observation L :=
    ObservedOneValue l v timestamp.

  (** src/observation.rs 53-55, 61-63, 77-79 *)
  Definition observation_observed_now (l : L) (count : Z) : M (observation L) :=
    let* t := now in ret (observation_observed l count t).
  Definition observation_observed_one_now (l : L) : M (observation L) :=
    let* t := now in ret (observation_observed_one l t).
  Definition observation_observed_one_value_now (l : L) (v : observed_value)
    : M (observation L) :=
    let* t := now in ret (observation_observed_one_value l v t).
End Constructors.

(** ** Items *)

(** [f32]; [as f64] is exact *)
Definition f32 := spec_float.
Definition f32_valid (f : f32) : bool := valid_binary 24 128 f.
Definition f64_of_f32 (f : f32) : f64 :=
  match f with
  | S754_finite s m e => binary_normalize f64_prec f64_emax (if s then Zneg m else Zpos m) e s
  | other => other
  end.

(** The types with [Into<ItemKind>], src/snapshot.rs 408-503. *)
Inductive item_source :=
| FromPrimitive (p : primitive)
| FromISize (v : Z)
| FromF32 (v : f32)
| FromString (s : string)        (* String and &str *)
| FromSnapshot (s : snapshot).

(** src/snapshot.rs 408-460, 474-478, 486-490; [as] widens or wraps *)
Definition item_of_primitive (p : primitive) : item_kind :=
  match p with
  | PI64 v => Int v
  | PI32 v => Int v
  | PI16 v => Int v
  | PI8 v => Int v
  | PU64 v => UInt v
  | PU32 v => UInt v
  | PU16 v => UInt v
  | PU8 v => UInt v
  | PUSize v => UInt (wrap_u64 v)
  | PF64 v => Float v
  | PBool v => Boolean v
  end.

(** src/snapshot.rs 456-503 *)
Definition item_of_source (s : item_source) : item_kind :=
  match s with
  | FromPrimitive p => item_of_primitive p
  | FromISize v => Int (wrap_i64 v)
  | FromF32 v => Float (f64_of_f32 v)
  | FromString s => Text s
  | FromSnapshot s => ItemSnapshot s
  end.

(** [Snapshot::push], src/snapshot.rs 23-25, for anything that converts *)
Definition push_source (s : snapshot) (k : string) (v : item_source) : snapshot :=
  push s k (item_of_source v).

(** polled.rs 118-126 [ConstantValue::new] *)
Definition constant_value_new (name : string) (v : item_source) : constant_value :=
  ConstantValue name no_descr (item_of_source v).
