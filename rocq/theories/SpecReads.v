(** Specification of snapshots that do not matter. *)
From Coq Require Import ZArith Bool String List.
From Verif Require Import Base SpecRun ModelObservation ModelSnapshot ModelHistogram ModelInstrument ModelTree
  ModelChannel ModelProcessor ModelDriver SpecSafe.
Import ListNotations.
Open Scope Z_scope.

(** Whatever the computation does, a clock that stands still stands still
    afterwards. *)
Definition stays {A} (m : M A) : Prop := forall k t a c, m k (frozen t) = Ok a c -> c = frozen t.

(** Writing a snapshot at one point in time does not change the part. *)
Definition unchanged {A} (put : A -> bool -> snapshot -> M (A * snapshot)) : Prop :=
  forall x de s k t y s' c, put x de s k (frozen t) = Ok (y, s') c -> y = x.

(** The parts that do not belong to the library do not change when they are asked
    for a snapshot. *)
Record parts_quiet (X : ext) : Prop := PartsQuiet {
  pq_histo_new : stays (histo_new (ex_histo X));
  pq_histo_update : forall h v, stays (histo_update (ex_histo X) h v);
  pq_instr_update : forall i u, stays (user_instr_update X i u);
  pq_instr_put : forall i d s, stays (user_instr_put X i d s);
  pq_handler_handle : forall h o, stays (user_handler_handle X h o);
  pq_handler_put : forall h d s, stays (user_handler_put X h d s);
  pq_snap_put : forall u d s, stays (user_snap_put X u d s);
  pq_instr_same : unchanged (user_instr_put X);
  pq_handler_same : unchanged (user_handler_put X);
  pq_snap_same : unchanged (user_snap_put X)
}.

Record processors_quiet (Y : pext) : Prop := ProcessorsQuiet {
  pq_proc_process : forall u n s, stays (user_proc_process Y u n s);
  pq_proc_put : forall u d s, stays (user_proc_put Y u d s);
  pq_driver_snapshot : forall h d, stays (driver_snapshot Y h d);
  pq_proc_same : unchanged (user_proc_put Y);
  pq_driver_same : forall h d k t h' s c, driver_snapshot Y h d k (frozen t) = Ok (h', s) c -> h' = h
}.

(** ** Histories with marked snapshots *)

(** A history is a list of operations with the times at which they take place.
    [answers] runs it: the results of the operations, in order, unless
    something panics. *)
Section Histories.
  Context {S Op R : Type} (step : Z -> S -> Op -> option (S * R)).

  Fixpoint answers (x : S) (h : list (Z * Op)) : option (list R) :=
    match h with
    | [] => Some []
    | (t, o) :: h =>
        match step t x o with
        | Some (x, r) => option_map (cons r) (answers x h)
        | None => None
        end
    end.

  (** The times of a history do not run backwards. *)
  Fixpoint in_order (from : Z) (h : list (Z * Op)) : Prop :=
    match h with
    | [] => True
    | (t, _) :: h => from <= t /\ in_order t h
    end.

  (** The inserted operations of a history are marked with [true]. *)
  Definition whole (h : list (bool * (Z * Op))) : list (Z * Op) := map snd h.
  Definition without_marked (h : list (bool * (Z * Op))) : list (Z * Op) :=
    map snd (filter (fun x => negb (fst x)) h).

  (** The results of the operations that are not marked. *)
  Fixpoint unmarked (h : list (bool * (Z * Op))) (rs : list R) : list R :=
    match h, rs with
    | (m, _) :: h, r :: rs => if m : bool then unmarked h rs else r :: unmarked h rs
    | _, _ => []
    end.

  (** Inserting the marked operations changes no other result. *)
  Definition insertions_do_not_matter (is_read : Op -> bool) (x : S) : Prop :=
    forall h from rs1 rs2,
      in_order from (whole h) ->
      Forall (fun e => fst e = true -> is_read (snd (snd e)) = true) h ->
      answers x (without_marked h) = Some rs1 ->
      answers x (whole h) = Some rs2 ->
      rs1 = unmarked h rs2.
End Histories.

(** ** Components *)

Inductive result :=
| Updated (n : Z)
| Collected (o : outcome)
| Written (s : snapshot).

(** An operation on a component that handles observations: an observation or a
    request for a snapshot. *)
Inductive operation (O : Type) :=
| Handle (o : O)
| Read (descriptive : bool) (into : snapshot).
Arguments Handle {O}.
Arguments Read {O}.

Definition operation_reads {O} (o : operation O) : bool :=
  match o with Handle _ => false | Read _ _ => true end.
Definition request_reads (r : request) : bool :=
  match r with Collect _ _ => false | Write _ _ => true end.

Definition handling {A O} (handle : A -> O -> M (A * Z)) (put : A -> bool -> snapshot -> M (A * snapshot))
  (k : cfg) (t : Z) (x : A) (o : operation O) : option (A * result) :=
  match o with
  | Handle o =>
      match handle x o k (frozen t) with Ok (x, n) _ => Some (x, Updated n) | _ => None end
  | Read de into =>
      match put x de into k (frozen t) with Ok (x, s) _ => Some (x, Written s) | _ => None end
  end.

(** The request is served at time [t]; what the other threads do in the meantime
    is part of the world. *)
Definition at_time {X Y} (w : world X Y) (t : Z) : world X Y :=
  World (frozen t) (w_queues w) (w_mounts w) (w_sched w).

Definition serving {X Y} (k : cfg) (depth : nat) (t : Z) (x : processor X Y * world X Y) (r : request)
  : option (processor X Y * world X Y * result) :=
  let '(p, w) := x in
  match r with
  | Collect max s =>
      match processor_process depth p max s k (at_time w t) with
      | Ok (p, o) w => Some (p, w, Collected o)
      | _ => None
      end
  | Write de into =>
      match lift (processor_put p de into) k (at_time w t) with
      | Ok (p, s) w => Some (p, w, Written s)
      | _ => None
      end
  end.

(** ** Drivers *)

(** A driver executes a command or collects. *)
Inductive driver_operation (X : ext) (Y : pext) :=
| Execute (c : command X Y)
| Run.
Arguments Execute {X Y}.
Arguments Run {X Y}.

Definition driver_operation_reads {X Y} (o : driver_operation X Y) : bool :=
  match o with Execute (CGetSnapshotSync _ _ _) | Execute (CGetSnapshotAsync _ _ _) => true | _ => false end.

(** The result is what is sent to back channels. *)
Definition driving {X Y} (k : cfg) (t : Z) (x : driver X Y * dworld X Y) (o : driver_operation X Y)
  : option (driver X Y * dworld X Y * list (nat * snapshot)) :=
  let '(d, w) := x in
  let w := DWorld (at_time (dw_world w) t) (dw_commands w) (dw_guards w) (dw_running w) [] (dw_unanswered w)
             (dw_sched w) in
  match (match o with Execute c => driver_command d c | Run => driver_run d t end) k w with
  | Ok d w => Some (d, w, dw_answers w)
  | _ => None
  end.
