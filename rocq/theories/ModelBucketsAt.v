(** Model of [get_at_mut] in src/instruments/fundamentals/buckets.rs, which only the
    tests of the library use. *)
From Coq Require Import ZArith Bool List.
From Verif Require Import Base ModelBuckets.
Import ListNotations.
Open Scope Z_scope.

Section At.
  Context {T : Type} (default : T).

  (** buckets.rs 55-69 [get_at_mut], followed by an update [f] of the bucket, if
      there is one *)
  Definition get_at_mut (b : buckets T) (for_when : Z) (f : T -> M T) : M (buckets T * bool) :=
    let* b := tick default b in
    if b_current_time b <? for_when then ret (b, false)
    else
      let d := as_secs (b_current_time b - for_when) in
      if Z.of_nat (length (b_buckets b)) <=? d then ret (b, false)
      else
        let offset := (length (b_buckets b) + b_current_idx b - Z.to_nat d)%nat in
        let* i := idx b offset in
        let* x := index_get (b_buckets b) i in
        let* x' := f x in
        let* bs := index_set (b_buckets b) i x' in
        ret (Buckets bs (b_current_time b) (b_current_idx b), true).
End At.
