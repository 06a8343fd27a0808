(** Specification of a window of seconds whose records can be changed by their time. *)
From Coq Require Import ZArith Bool List.
From Verif Require Import Base ModelBuckets ModelBucketsAt.
Import ListNotations.
Open Scope Z_scope.

Section Window.
  Context {T : Type} (default : T).

  (** What is done with a window *)
  Inductive use :=
  | Record (u : T -> T)
  | Amend (for_when : Z) (u : T -> T)
  | Look.
  Inductive answer :=
  | Done
  | Amended (found : bool)
  | Shown (l : list T).

  (** The code *)
  Definition use_window (b : buckets T) (x : use) : M (buckets T * answer) :=
    match x with
    | Record u => let* b := current_mut default b (fun v => ret (u v)) in ret (b, Done)
    | Amend w u => let* '(b, found) := get_at_mut default b w (fun v => ret (u v)) in ret (b, Amended found)
    | Look => let* '(b, l) := iter default b in ret (b, Shown l)
    end.
  Fixpoint use_all (b : buckets T) (l : list use) : M (list answer) :=
    match l with
    | [] => ret []
    | x :: l => let* '(b, a) := use_window b x in let* r := use_all b l in ret (a :: r)
    end.

  (** A book of records, one for each second since [t0] *)
  Record book := Book { newest : Z; records : Z -> T }.

  (** The second a time is in, and the one at whose end a time is *)
  Definition second_of (t0 t : Z) : Z := (t - t0) / nanos_per_sec.
  Definition second_up (t0 t : Z) : Z := - (second_of t t0).

  Definition change (m : Z -> T) (s : Z) (u : T -> T) : Z -> T := fun p => if p =? s then u (m p) else m p.

  Definition reads (n : nat) (s : Z) (m : Z -> T) : list T := map (fun j => m (s - Z.of_nat j)) (seq 0 n).

  Definition write (n : nat) (t0 : Z) (k : book) (t : Z) (x : use) : book * answer :=
    let s := Z.max (newest k) (second_of t0 t) in
    match x with
    | Record u => (Book s (change (records k) s u), Done)
    | Amend w u =>
        let p := second_up t0 w in
        if (s - Z.of_nat n <? p) && (p <=? s) then (Book s (change (records k) p u), Amended true)
        else (Book s (records k), Amended false)
    | Look => (Book s (records k), Shown (reads n s (records k)))
    end.
  Fixpoint write_all (n : nat) (t0 : Z) (k : book) (times : list Z) (l : list use) : list answer :=
    match times, l with
    | t :: times, x :: l => let '(k, a) := write n t0 k t x in a :: write_all n t0 k times l
    | _, _ => []
    end.
End Window.
Arguments use : clear implicits.
Arguments answer : clear implicits.
Arguments book : clear implicits.
