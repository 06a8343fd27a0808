(** Model of the [Display] implementations, src/snapshot.rs 289-297, 315-324,
    362-374, with what [std] prints for integers and durations. Strings are
    sequences of bytes in UTF-8. *)
From Coq Require Import ZArith Bool Ascii String List.
From Verif Require Import Base ModelSnapshot.
Import ListNotations.
Open Scope string_scope.
Open Scope Z_scope.

(** [Display] of integers: the decimal digits, the most significant first. [n]
    bounds their number; 20 suffice for 64 bits. *)
Definition digit (d : Z) : string := String (ascii_of_N (Z.to_N (48 + d))) "".
Fixpoint decimal (n : nat) (z : Z) : string :=
  match n with
  | O => ""
  | S n => if z <? 10 then digit z else decimal n (z / 10) ++ digit (z mod 10)
  end.
Definition show_u64 (z : Z) : string := decimal 20 z.
Definition show_i64 (z : Z) : string := if z <? 0 then "-" ++ decimal 20 (- z) else decimal 20 z.

(** [Display] of [bool] *)
Definition show_bool (b : bool) : string := if b then "true" else "false".

(** [Debug] of [Duration] (core/src/time.rs, [fmt_decimal] without a precision):
    the digits behind the point as long as there is something left *)
Fixpoint fraction (n : nat) (f divisor : Z) : string :=
  match n with
  | O => ""
  | S n => if f =? 0 then "" else digit (f / divisor) ++ fraction n (f mod divisor) (divisor / 10)
  end.
Definition fmt_decimal (i f divisor : Z) : string :=
  decimal 20 i ++ (if f =? 0 then "" else "." ++ fraction 9 f divisor).
Definition show_duration (d : Z) : string :=
  let secs := d / 1000000000 in
  let nanos := d mod 1000000000 in
  if 0 <? secs then fmt_decimal secs nanos 100000000 ++ "s"
  else if 1000000 <=? nanos then fmt_decimal (nanos / 1000000) (nanos mod 1000000) 100000 ++ "ms"
  else if 1000 <=? nanos then fmt_decimal (nanos / 1000) (nanos mod 1000) 100 ++ "µs"
  else fmt_decimal nanos 0 1 ++ "ns".

Section Display.
  (** [Display] of [f64] is not modelled. *)
  Context (show_f64 : f64 -> string).

  (** snapshot.rs 362-374 *)
  Definition item_display (i : item_kind) : string :=
    match i with
    | Text v => v
    | Boolean v => show_bool v
    | Float v => show_f64 v
    | UInt v => show_u64 v
    | Int v => show_i64 v
    | ItemSnapshot items => "Snapshot(" ++ show_u64 (Z.of_nat (List.length items)) ++ " items)"
    end.

  (** snapshot.rs 289-297 *)
  Definition find_display (r : find_result) : string :=
    match r with
    | Found v => item_display v
    | NotFound => "<item not found>"
    end.
End Display.

(** snapshot.rs 315-324 *)
Definition find_duration_display (r : find_duration) : string :=
  match r with
  | DDuration d => show_duration d
  | DNotFound => "<item not found>"
  | NotADuration => "<item not a duration>"
  end.

(** snapshot.rs 224-229, 307-312 *)
Definition find_opt (r : find_result) : option item_kind :=
  match r with Found v => Some v | NotFound => None end.
Definition find_duration_opt (r : find_duration) : option Z :=
  match r with DDuration d => Some d | _ => None end.
