(** Specification of reading numbers and durations from a text. *)
From Coq Require Import ZArith Bool Ascii String List.
Import ListNotations.
Open Scope string_scope.
Open Scope Z_scope.

(** The digit that a character is *)
Definition digit_of (c : ascii) : option Z :=
  let n := Z.of_N (N_of_ascii c) in
  if (48 <=? n) && (n <=? 57) then Some (n - 48) else None.

(** A number in decimal digits; [acc]: the value of the digits before *)
Fixpoint reads_from (acc : Z) (s : string) : option Z :=
  match s with
  | "" => Some acc
  | String c s => match digit_of c with Some d => reads_from (10 * acc + d) s | None => None end
  end.
Definition reads (s : string) (z : Z) : Prop := s <> "" /\ reads_from 0 s = Some z.

(** A usual way of writing a number: no zeros in front *)
Definition tidy (s : string) : Prop := forall s', s = String "0" s' -> s' = "".
(** no zeros behind *)
Definition tidy_fraction (s : string) : Prop := forall s', s <> s' ++ "0".

(** The units of durations, in nanoseconds *)
Definition unit_of (u : string) : option Z :=
  if string_dec u "s" then Some 1000000000
  else if string_dec u "ms" then Some 1000000
  else if string_dec u "µs" then Some 1000
  else if string_dec u "ns" then Some 1
  else None.

(** [s] says that the duration is [d] ns: an integer, possibly a point and more
    digits, and the largest unit in which the integer is not zero. *)
Definition tells (s : string) (d : Z) : Prop :=
  exists whole part u scale w p,
    unit_of u = Some scale /\ reads whole w /\ reads_from 0 part = Some p
    /\ s = whole ++ (if string_dec part "" then "" else "." ++ part) ++ u
    /\ tidy whole /\ tidy_fraction part
    /\ (u = "s" \/ w < 1000) /\ (u = "ns" \/ 0 < w)
    /\ d * 10 ^ Z.of_nat (String.length part) = w * scale * 10 ^ Z.of_nat (String.length part) + p * scale.
