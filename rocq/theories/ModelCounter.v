(** Model of src/instruments/counter.rs. *)
From Coq Require Import ZArith Bool List String.
From Verif Require Import Base ModelObservation ModelSnapshot.
Open Scope Z_scope.

(** counter.rs 28-33 *)
Record counter := Counter {
  c_name : string;
  c_descr : descr;
  c_count : Z
}.

(** counter.rs 36-43 *)
Definition counter_new (name : string) : counter := Counter name no_descr 0.

(** counter.rs 84-87 [inc_by] *)
Definition counter_inc_by {W} (c : counter) (n : Z) : St W counter :=
  let* v := add_u64 (c_count c) n in
  ret (Counter (c_name c) (c_descr c) v).

(** counter.rs 79-82 [inc] *)
Definition counter_inc {W} (c : counter) : St W counter :=
  let* v := add_u64 (c_count c) 1 in
  ret (Counter (c_name c) (c_descr c) v).

(** counter.rs 89-92 *)
Definition counter_get (c : counter) : Z := c_count c.

(** counter.rs 147-164 [Updates] *)
Definition counter_update {W} (c : counter) (u : update) : St W (counter * Z) :=
  match u with
  | OneObservation _ => let* c' := counter_inc c in ret (c', 1)
  | Observations n _ => let* c' := counter_inc_by c n in ret (c', 1)
  | ObservationWithValue _ _ => let* c' := counter_inc c in ret (c', 1)
  end.

(** counter.rs 140-145 [PutsSnapshot] *)
Definition counter_put (c : counter) (descriptive : bool) (into : snapshot) : snapshot :=
  push (put_postfixed_descriptives (c_descr c) (c_name c) into descriptive)
       (c_name c) (UInt (c_count c)).
