(** C02: a counter equals the number of occurrences observed. *)
From Coq Require Import ZArith Bool String List.
From Verif Require Import Base SpecRun SpecCounting ModelObservation ModelSnapshot ModelCounter CounterProofs.
Import ListNotations.
Open Scope Z_scope.

(** Build without overflow checks: the shown value is the exact total modulo
    2^64, for every history; every update reports one updated instrument. *)
Theorem c02_counter_release : forall W k, overflow_checks k = false ->
  forall name us (w : W),
  exists c,
    run_all counter_update (counter_new name) us k w = Ok (c, repeat 1 (length us)) w
    /\ counter_put c false [] = [(name, UInt (total us mod two64))].
Proof. exact counter_release. Qed.
Print Assumptions c02_counter_release.

Example c02_counter_release_case :
  match run_all counter_update (counter_new "n")
          [Observations u64_max 7; OneObservation 8; ObservationWithValue (ChangedBy 55) 9]
          release tt with
  | Ok (c, ns) _ => counter_put c false [] = [("n"%string, UInt 1)] /\ ns = [1; 1; 1]
  | _ => False
  end.
Proof. vm_compute. split; reflexivity. Qed.

(** Any build: as long as the total fits the shown value is exact. *)
Theorem c02_counter_exact : forall W k name us (w : W),
  Forall update_ok us -> total us <= u64_max ->
  exists c,
    run_all counter_update (counter_new name) us k w = Ok (c, repeat 1 (length us)) w
    /\ counter_put c false [] = [(name, UInt (total us))].
Proof. exact counter_fits. Qed.
Print Assumptions c02_counter_exact.

Example c02_counter_exact_case :
  match run_all counter_update (counter_new "n")
          [Observations 40 7; OneObservation 8; ObservationWithValue (BoolValue false) 9]
          debug tt with
  | Ok (c, _) _ => counter_put c false [] = [("n"%string, UInt 42)]
  | _ => False
  end.
Proof. vm_compute. reflexivity. Qed.

(** Build with overflow checks: it panics exactly when the exact total does not
    fit u64. *)
Theorem c02_counter_checked : forall W k, overflow_checks k = true ->
  forall name us (w : W),
  Forall update_ok us ->
  (run_all counter_update (counter_new name) us k w = Panic <-> total us > u64_max).
Proof. exact counter_checked. Qed.
Print Assumptions c02_counter_checked.

Example c02_counter_checked_case :
  run_all counter_update (counter_new "n") [Observations u64_max 7; OneObservation 8] debug tt
  = Panic.
Proof. reflexivity. Qed.

(** It never decreases as long as the total fits. *)
Theorem c02_counter_monotone : forall W k name us1 us2 (w : W),
  Forall update_ok (us1 ++ us2) -> total (us1 ++ us2) <= u64_max ->
  exists c1 c2 n1 n2,
    run_all counter_update (counter_new name) us1 k w = Ok (c1, n1) w
    /\ run_all counter_update (counter_new name) (us1 ++ us2) k w = Ok (c2, n2) w
    /\ counter_get c1 <= counter_get c2.
Proof. exact counter_monotone. Qed.
Print Assumptions c02_counter_monotone.

Example c02_counter_monotone_case :
  Forall update_ok ([Observations 4 7] ++ [Observations 0 7; OneObservation 9])
  /\ total ([Observations 4 7] ++ [Observations 0 7; OneObservation 9]) <= u64_max.
Proof. split; [repeat constructor; discriminate|discriminate]. Qed.
