(** Specification of the warnings of a driver about dropped messages. *)
From Coq Require Import ZArith List.
From Verif Require Import Base SpecRun ModelProcessor.
Import ListNotations.
Open Scope Z_scope.

(** What a collection dropped; [log]: for each collection when it was over, its
    outcome and when its bookkeeping was over *)
Definition dropped_in (e : Z * outcome * Z) : Z := oc_dropped (snd (fst e)).
Definition dropped_total (log : list (Z * outcome * Z)) : Z := sum (map dropped_in log).

(** [last]: when the last warning was written, [open]: the number of messages
    dropped since. A warning has a time and a number. *)
Inductive ledger : Z -> Z -> list (Z * outcome * Z) -> list (Z * Z) -> Z -> Z -> Prop :=
| lg_nil : forall last open, ledger last open [] [] last open
| lg_warning : forall last open e log t ws last' open',
    0 < open + dropped_in e -> last + 5 * nanos_per_sec < t -> fst (fst e) <= t <= snd e ->
    ledger t 0 log ws last' open' ->
    ledger last open (e :: log) ((t, open + dropped_in e) :: ws) last' open'
| lg_silent : forall last open e log ws last' open',
    open + dropped_in e = 0 \/ fst (fst e) <= last + 5 * nanos_per_sec ->
    ledger last (open + dropped_in e) log ws last' open' ->
    ledger last open (e :: log) ws last' open'.

(** Warnings more than five seconds apart, the first one that long after [last] *)
Fixpoint apart (last : Z) (ws : list (Z * Z)) : Prop :=
  match ws with
  | [] => True
  | (t, _) :: ws => last + 5 * nanos_per_sec < t /\ apart t ws
  end.
