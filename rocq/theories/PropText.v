(** Theorems on the texts that the [Display] implementations make. *)
From Coq Require Import ZArith Bool Ascii String List.
From Verif Require Import Base ModelSnapshot ModelText SpecText TextProofs.
Import ListNotations.
Open Scope string_scope.
Open Scope Z_scope.

(** ** C89 *)

(** Integers are their decimal digits without zeros in front, whatever is
    printed for floats; a snapshot is the number of its items; a text is itself. *)
Theorem c89_items : forall show,
  (forall z, 0 <= z <= u64_max -> reads (item_display show (UInt z)) z /\ tidy (item_display show (UInt z)))
  /\ (forall z, 0 <= z <= i64_max -> reads (item_display show (Int z)) z /\ tidy (item_display show (Int z)))
  /\ (forall z, i64_min <= z < 0 -> exists s, item_display show (Int z) = "-" ++ s /\ reads s (- z) /\ tidy s)
  /\ (forall items, Z.of_nat (List.length items) <= u64_max ->
      exists s, item_display show (ItemSnapshot items) = "Snapshot(" ++ s ++ " items)" /\ reads s (Z.of_nat (List.length items)) /\ tidy s)
  /\ (forall s, item_display show (Text s) = s)
  /\ item_display show (Boolean true) = "true" /\ item_display show (Boolean false) = "false".
Proof. exact items_read. Qed.
Print Assumptions c89_items.

(** Different integers look different. *)
Theorem c89_integers_differ : forall show a b,
  (0 <= a <= u64_max -> 0 <= b <= u64_max -> item_display show (UInt a) = item_display show (UInt b) -> a = b)
  /\ (i64_min <= a <= i64_max -> i64_min <= b <= i64_max -> item_display show (Int a) = item_display show (Int b) -> a = b).
Proof. exact integers_differ. Qed.
Print Assumptions c89_integers_differ.

(** What was found shows as itself. *)
Theorem c89_found : forall show r,
  (forall i, r = Found i -> find_display show r = item_display show i)
  /\ (r = NotFound -> find_display show r = "<item not found>").
Proof. exact find_shows. Qed.
Print Assumptions c89_found.

(** A duration is told exactly, to the nanosecond. *)
Theorem c89_durations : forall r,
  (forall d, r = DDuration d -> 0 <= d < 1000000000 * two64 -> tells (find_duration_display r) d)
  /\ (r = DNotFound -> find_duration_display r = "<item not found>")
  /\ (r = NotADuration -> find_duration_display r = "<item not a duration>").
Proof. exact find_duration_shows. Qed.
Print Assumptions c89_durations.

(** A text tells one duration at most; the texts for failures tell none. *)
Theorem c89_one_duration : forall s d1 d2, tells s d1 -> tells s d2 -> d1 = d2.
Proof. exact tells_unique. Qed.
Print Assumptions c89_one_duration.

Theorem c89_no_duration : forall r d,
  (r = DNotFound \/ r = NotADuration) -> ~ tells (find_duration_display r) d.
Proof. exact others_not_durations. Qed.
Print Assumptions c89_no_duration.

Theorem c89_durations_differ : forall a b,
  0 <= a < 1000000000 * two64 -> 0 <= b < 1000000000 * two64 -> show_duration a = show_duration b -> a = b.
Proof. exact durations_differ. Qed.
Print Assumptions c89_durations_differ.

(** Any unsigned item taken as a duration is told in full. *)
Theorem c89_found_durations : forall v, 0 <= v <= u64_max ->
  tells (find_duration_display (to_duration_nanoseconds (Found (UInt v)))) v
  /\ tells (find_duration_display (to_duration_microseconds (Found (UInt v)))) (v * 1000)
  /\ tells (find_duration_display (to_duration_milliseconds (Found (UInt v)))) (v * 1000000)
  /\ tells (find_duration_display (to_duration_seconds (Found (UInt v)))) (v * 1000000000).
Proof. exact found_durations. Qed.
Print Assumptions c89_found_durations.

Theorem c89_opts : forall r i q d,
  (find_opt r = Some i <-> r = Found i) /\ (find_opt r = None <-> r = NotFound)
  /\ (find_duration_opt q = Some d <-> q = DDuration d) /\ (find_duration_opt q = None <-> q = DNotFound \/ q = NotADuration).
Proof. exact opts. Qed.
Print Assumptions c89_opts.

(** Items of different kinds may look the same, and a text like a failure. *)
Theorem c89_kinds_differ_refuted : forall show, exists a b,
  a <> b /\ item_display show a = item_display show b
  /\ (exists r, find_display show (Found r) = find_display show NotFound).
Proof.
  intros show. exists (UInt 1), (Text "1"). split; [discriminate|]. split; [reflexivity|].
  exists (Text "<item not found>"). reflexivity.
Qed.
Print Assumptions c89_kinds_differ_refuted.

Example c89_case : forall show,
  item_display show (Int (-9223372036854775808)) = "-9223372036854775808"
  /\ item_display show (UInt u64_max) = "18446744073709551615"
  /\ item_display show (ItemSnapshot [("a", UInt 0); ("b", Boolean true)]) = "Snapshot(2 items)"
  /\ find_duration_display (DDuration 1500000000) = "1.5s"
  /\ find_duration_display (DDuration 12000300) = "12.0003ms"
  /\ find_duration_display (DDuration 999999) = "999.999µs"
  /\ find_duration_display (DDuration 0) = "0ns"
  /\ find_duration_display (to_duration_seconds (Found (UInt u64_max))) = "18446744073709551615s".
Proof. intros show. repeat split. Qed.
