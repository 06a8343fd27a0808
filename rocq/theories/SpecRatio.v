(** Specification of the share of the collections in the iterations of a driver. *)
From Coq Require Import ZArith Bool String List.
From Verif Require Import Base ModelSnapshot ModelHistogram ModelInstrument SpecHistogram SpecMetrix.
Import ListNotations.
Open Scope string_scope.
Open Scope list_scope.
Open Scope Z_scope.

(** The collections with a ratio: how long they took and how long their iterations *)
Definition shares (rs : list run) : list (Z * Z) :=
  flat_map (fun r => match ru_ratio r with
                     | Some (y, _) => [(ru_finished r - ru_started r, y - ru_iteration r)]
                     | None => []
                     end) rs.

(** The number of thousandths, cut off; one less now and then if it is exact *)
Definition thousandths (p : Z * Z) (n : Z) : Prop :=
  let q := 1000 * fst p / snd p in
  0 <= n <= 1000 /\ q - 1 <= n <= q + 1
  /\ (snd p < 2 ^ 38 -> n = q \/ (1000 * fst p) mod snd p = 0 /\ n = q - 1).

Definition ratio_figures (X : ext) (contents : histo (ex_histo X) -> list Z) (rs : list run) (inner : snapshot) : Prop :=
  exists ns, Forall2 thousandths (shares rs) ns
    /\ shows inner "iteration_update_ratio_per_mille" (last_one ns)
    /\ shows inner "iteration_update_ratio_per_mille_histo" (statistics_of X contents ns).
