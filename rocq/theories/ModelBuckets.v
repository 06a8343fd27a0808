(** Model of src/instruments/fundamentals/buckets.rs (with the wall clock). *)
From Coq Require Import ZArith Bool List.
From Verif Require Import Base.
Import ListNotations.
Open Scope Z_scope.

Section Buckets.
  Context {T : Type} (default : T).

  (** buckets.rs 8-13 *)
  Record buckets := Buckets {
    b_buckets : list T;
    b_current_time : Z;
    b_current_idx : nat
  }.

  (** [v[i] = x]; panics when out of bounds *)
  Fixpoint vec_set (l : list T) (i : nat) (x : T) : option (list T) :=
    match l, i with
    | [], _ => None
    | _ :: t, O => Some (x :: t)
    | h :: t, S i' => option_map (cons h) (vec_set t i' x)
    end.

  Definition index_set (l : list T) (i : nat) (x : T) : M (list T) :=
    match vec_set l i x with
    | Some l' => ret l'
    | None => panic
    end.

  Definition index_get (l : list T) (i : nat) : M T :=
    match nth_error l i with
    | Some x => ret x
    | None => panic
    end.

  (** buckets.rs 35-48 [initialized_with_clock] *)
  Definition buckets_initialized (bs : list T) : M buckets :=
    match bs with
    | [] => panic
    | _ =>
        let* t := now in
        ret (Buckets bs t (length bs - 1)%nat)
    end.

  (** buckets.rs 29-32 [with_clock], 16-22 [new] *)
  Definition buckets_new (for_seconds : nat) : M buckets :=
    buckets_initialized (repeat default for_seconds).

  (** buckets.rs 121-124; [%] panics for an empty vector *)
  Definition idx (b : buckets) (offset : nat) : M nat :=
    match length (b_buckets b) with
    | O => panic
    | n => ret (offset mod n)%nat
    end.

  (** buckets.rs 94-97 and 100-103: advance one slot and clear it *)
  Definition advance (b : buckets) : M buckets :=
    let* i := idx b (b_current_idx b + 1) in
    let* bs := index_set (b_buckets b) i default in
    ret (Buckets bs (b_current_time b) i).

  Fixpoint advance_n (n : nat) (b : buckets) : M buckets :=
    match n with
    | O => ret b
    | S n' => let* b' := advance b in advance_n n' b'
    end.

  (** buckets.rs 85-115. [now - current_time] saturates at zero. *)
  Definition tick (b : buckets) : M buckets :=
    let* n := now in
    let d := as_secs (Z.max 0 (n - b_current_time b)) in
    if d =? 0 then ret b
    else
      let* t := instant_add (b_current_time b) (d * nanos_per_sec) in
      let b := Buckets (b_buckets b) t (b_current_idx b) in
      if d =? 1 then advance b
      else if d <? Z.of_nat (length (b_buckets b)) then advance_n (Z.to_nat d) b
      else
        ret (Buckets (map (fun _ => default) (b_buckets b)) (b_current_time b) 0%nat).

  (** buckets.rs 50-53 [current_mut], followed by an update [f] of the bucket *)
  Definition current_mut (b : buckets) (f : T -> M T) : M buckets :=
    let* b := tick b in
    let* x := index_get (b_buckets b) (b_current_idx b) in
    let* x' := f x in
    let* bs := index_set (b_buckets b) (b_current_idx b) x' in
    ret (Buckets bs (b_current_time b) (b_current_idx b)).

  (** buckets.rs 133-150 [BucketIterator::next], run to the end *)
  Fixpoint bucket_iterator (bs : list T) (count : nat) (i : nat) : M (list T) :=
    match count with
    | O => ret []
    | S count' =>
        let i' := match i with O => (length bs - 1)%nat | S i' => i' end in
        let* x := index_get bs i in
        let* xs := bucket_iterator bs count' i' in
        ret (x :: xs)
    end.

  (** buckets.rs 74-83 [iter]; newest first *)
  Definition iter (b : buckets) : M (buckets * list T) :=
    let* b := tick b in
    let* xs := bucket_iterator (b_buckets b) (length (b_buckets b)) (b_current_idx b) in
    ret (b, xs).

  (** buckets.rs 117-119 *)
  Definition buckets_len (b : buckets) : Z := Z.of_nat (length (b_buckets b)).
End Buckets.
Arguments buckets : clear implicits.
