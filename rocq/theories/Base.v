(** Common vocabulary of the model: machine integers, time, and the
    state/error monad in which every function of the library is written.
    No proofs in this file. *)
From Coq Require Import ZArith Bool List String Ascii Floats.SpecFloat.
Import ListNotations.
Open Scope Z_scope.

(** ** Machine integers (64 bit platform: usize = u64) *)

Notation two63 := 9223372036854775808.
Notation two64 := 18446744073709551616.
Notation i64_min := (-9223372036854775808).
Notation i64_max := 9223372036854775807.
Notation u64_max := 18446744073709551615.

Definition wrap_u64 (z : Z) : Z := z mod two64.
Definition wrap_i64 (z : Z) : Z := (z + two63) mod two64 - two63.

Definition in_u64 (z : Z) : Prop := 0 <= z <= u64_max.
Definition in_i64 (z : Z) : Prop := i64_min <= z <= i64_max.

(** ** Time: nanoseconds *)

Notation nanos_per_sec := 1000000000.

(** A clock is the stream of values which the successive calls of
    [Instant::now()] return. *)
Definition clock := nat -> Z.

Definition clock_tail (c : clock) : clock := fun n => c (S n).

(** ** Build profile and platform *)

Record cfg := Cfg {
  overflow_checks : bool;   (* debug build: overflow panics; release: wraps *)
  min_instant : Z;          (* smallest representable std::time::Instant *)
  max_instant : Z;          (* largest representable std::time::Instant *)
  fuel : nat                (* bound for loops the environment can keep busy *)
}.

(** ** Results and computations *)

Inductive res (W A : Type) : Type :=
| Ok (a : A) (w : W)
| Panic
| NoFuel.
Arguments Ok {W A} a w.
Arguments Panic {W A}.
Arguments NoFuel {W A}.

Definition St (W A : Type) : Type := cfg -> W -> res W A.

Definition ret {W A} (a : A) : St W A := fun _ w => Ok a w.

Definition bind {W A B} (m : St W A) (f : A -> St W B) : St W B :=
  fun k w =>
    match m k w with
    | Ok a w' => f a k w'
    | Panic => Panic
    | NoFuel => NoFuel
    end.

Definition panic {W A} : St W A := fun _ _ => Panic.

Notation "'let*' x := m 'in' f" := (bind m (fun x => f))
  (at level 200, x name, m at level 100, f at level 200, right associativity).
Notation "'let*' ' x := m 'in' f" := (bind m (fun x => f))
  (at level 200, x strict pattern, m at level 100, f at level 200, right associativity).

(** Computations that only need the clock. *)
Definition M (A : Type) : Type := St clock A.

(** std::time::Instant::now() *)
Definition now : M Z := fun _ c => Ok (c O) (clock_tail c).

(** [Instant::elapsed]: saturates at zero (Rust >= 1.60). *)
Definition elapsed (since : Z) : M Z :=
  let* n := now in ret (Z.max 0 (n - since)).

(** [Instant + Duration] and [Instant - Duration] panic if the result is not
    representable, in every build profile. *)
Definition instant_add {W} (t d : Z) : St W Z :=
  fun k w => if t + d <=? max_instant k then Ok (t + d) w else Panic.

Definition instant_sub {W} (t d : Z) : St W Z :=
  fun k w => if min_instant k <=? t - d then Ok (t - d) w else Panic.

(** Integer arithmetic: the exact result if it fits, otherwise a panic
    (overflow checks on) or the wrapped result (overflow checks off). *)
Definition arith {W} (lo hi : Z) (wrap : Z -> Z) (r : Z) : St W Z :=
  fun k w =>
    if (lo <=? r) && (r <=? hi) then Ok r w
    else if overflow_checks k then Panic else Ok (wrap r) w.

Definition u64_arith {W} : Z -> St W Z := arith 0 u64_max wrap_u64.
Definition i64_arith {W} : Z -> St W Z := arith i64_min i64_max wrap_i64.

Definition add_u64 {W} (a b : Z) : St W Z := u64_arith (a + b).
Definition mul_u64 {W} (a b : Z) : St W Z := u64_arith (a * b).
Definition add_i64 {W} (a b : Z) : St W Z := i64_arith (a + b).
(** usize is 64 bit *)
Definition add_usize {W} (a b : Z) : St W Z := u64_arith (a + b).

(** Duration::{as_secs, subsec_nanos} *)
Definition as_secs (d : Z) : Z := d / nanos_per_sec.
Definition subsec_nanos (d : Z) : Z := d mod nanos_per_sec.

(** ** Loops over collections *)

Section Traverse.
  Context {W A S : Type} (f : A -> S -> St W (A * S)).
  (** [for x in &mut xs { acc = f(x, acc) }] where [f] may update [x]. *)
  Fixpoint traverse (l : list A) (s : S) : St W (list A * S) :=
    match l with
    | [] => ret ([], s)
    | x :: xs =>
        let* '(x', s1) := f x s in
        let* '(xs', s2) := traverse xs s1 in
        ret (x' :: xs', s2)
    end.
End Traverse.

(** The same for an [Option]. *)
Definition traverse_opt {W A S} (f : A -> S -> St W (A * S)) (o : option A) (s : S)
  : St W (option A * S) :=
  match o with
  | None => ret (None, s)
  | Some x =>
      let* '(x', s1) := f x s in
      ret (Some x', s1)
  end.

(** ** 64 bit floats *)

Definition f64 := spec_float.
Notation f64_prec := 53.
Notation f64_emax := 1024.

Definition f64_valid (f : f64) : bool := valid_binary f64_prec f64_emax f.
Definition f64_add : f64 -> f64 -> f64 := SFadd f64_prec f64_emax.
Definition f64_sub : f64 -> f64 -> f64 := SFsub f64_prec f64_emax.
Definition f64_mul : f64 -> f64 -> f64 := SFmul f64_prec f64_emax.
Definition f64_div : f64 -> f64 -> f64 := SFdiv f64_prec f64_emax.
Definition f64_ltb : f64 -> f64 -> bool := SFltb.
Definition f64_leb : f64 -> f64 -> bool := SFleb.
Definition f64_zero : f64 := S754_zero false.

(** [i as f64]: nearest, ties to even *)
Definition f64_of_Z (z : Z) : f64 := binary_normalize f64_prec f64_emax z 0 false.

(** Strings *)
Definition string_is_empty (s : string) : bool :=
  match s with EmptyString => true | _ => false end.
