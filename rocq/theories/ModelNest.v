(** Model of the threads of several drivers that are mounted into each other
    (driver.rs: the handles can be cloned, a handle is a processor and can be
    mounted into any driver, also into its own).

    Here the commands that mount something and the requests for snapshots are
    modelled, each thread step by step, because a thread that takes a snapshot of a
    mounted driver waits for the answer of the other thread (driver.rs 240-247).
    Simplifications: whatever is not a driver writes some items, which may differ
    for each request ([Own]; this includes whether descriptives are wanted);
    collecting and sleeping between the commands takes no step; what is sent to
    the handle of an attached mount (attached_mount.rs 33-43) is not included. *)
From Coq Require Import ZArith String List Arith.
From Verif Require Import ModelSnapshot.
Import ListNotations.

(** What can be mounted: something without drivers, the handle of the driver [j], a
    mount (processor.rs 672-697, 741-750). A mount writes its descriptives and the
    activity ([head]) and then what is mounted into it unless it is inactive. *)
Inductive part :=
| Own (items : nat -> snapshot)   (* the items it writes for a request *)
| Mounted (j : nat)
| Group (name : option string) (head : nat -> snapshot) (active : nat -> bool) (inner : list part).

(** The drivers a part has handles of *)
Fixpoint drivers_in (p : part) : list nat :=
  match p with
  | Own _ => []
  | Mounted j => [j]
  | Group _ _ _ inner => flat_map drivers_in inner
  end.

(** driver.rs 561-565: the name; what the descriptives (driver.rs 536-540) and the own
    metrics (552-557) write *)
Record identity := Identity {
  id_name : option string;
  id_descriptives : nat -> snapshot;
  id_metrics : nat -> snapshot
}.

(** driver.rs 350-358; a request is named by the number of its back channel *)
Inductive ncommand :=
| Ask (b : nat)
| AddProcessor (p : part)
| AddSnapshooter (p : part).

Definition command_drivers (c : ncommand) : list nat :=
  match c with
  | Ask _ => []
  | AddProcessor p | AddSnapshooter p => drivers_in p
  end.

(** A level of the snapshot that is being written: its name, the parts still to be
    written, the items so far *)
Record frame := Frame { fr_name : option string; fr_rest : list part; fr_level : snapshot }.

(** What the thread of a driver does: driver.rs 377-465 *)
Inductive thread :=
| Looping
| Writing (back : nat) (top : frame) (below : list frame)
| Waiting (answer back : nat) (top : frame) (below : list frame)   (* in [rx.recv()], driver.rs 246 *)
| Ended.

(** What has become of a back channel; [Dropped]: [recv] fails *)
Inductive reply := Pending | Answered (s : snapshot) | Dropped.

(** [ns_log] is the history of all commands with the drivers they were sent to. *)
Record nstate := NState {
  ns_queues : nat -> list ncommand;
  ns_threads : nat -> thread;
  ns_replies : nat -> reply;
  ns_processors : nat -> list part;
  ns_snapshooters : nat -> list part;
  ns_log : list (nat * ncommand)
}.

Definition set {A} (f : nat -> A) (i : nat) (a : A) : nat -> A := fun x => if Nat.eqb x i then a else f x.

(** [self.sender.send(...)], driver.rs 241-245, 306-316. If the thread has ended the
    command is dropped, with it the back channel. *)
Definition call (st : nstate) (i : nat) (c : ncommand) : nstate :=
  let log := ns_log st ++ [(i, c)] in
  match ns_threads st i with
  | Ended =>
      NState (ns_queues st) (ns_threads st)
        (match c with Ask b => set (ns_replies st) b Dropped | _ => ns_replies st end)
        (ns_processors st) (ns_snapshooters st) log
  | _ =>
      NState (set (ns_queues st) i (ns_queues st i ++ [c])) (ns_threads st) (ns_replies st)
        (ns_processors st) (ns_snapshooters st) log
  end.

(** driver.rs 240-245: a new back channel *)
Definition new_request (st : nstate) : nat := length (ns_log st).
Definition request (st : nstate) (i : nat) : nstate := call st i (Ask (new_request st)).

(** driver.rs 513-532, processor.rs 741-750: something with a name writes one group *)
Definition finished (name : option string) (level : snapshot) : snapshot :=
  match name with
  | Some name => [(name, ItemSnapshot level)]
  | None => level
  end.

Section Nest.
  Context (net : nat -> identity).

  (** driver.rs 536-558 *)
  Definition parts (st : nstate) (i : nat) : list part :=
    Own (id_descriptives (net i)) :: ns_processors st i ++ ns_snapshooters st i ++ [Own (id_metrics (net i))].

  Definition with_thread (st : nstate) (i : nat) (t : thread) : nstate :=
    NState (ns_queues st) (set (ns_threads st) i t) (ns_replies st) (ns_processors st) (ns_snapshooters st) (ns_log st).
  Definition with_queue (st : nstate) (i : nat) (q : list ncommand) : nstate :=
    NState (set (ns_queues st) i q) (ns_threads st) (ns_replies st) (ns_processors st) (ns_snapshooters st) (ns_log st).

  (** One step of the thread of the driver [i]; [None]: nothing to do, or it waits *)
  Definition thread_step (st : nstate) (i : nat) : option nstate :=
    match ns_threads st i with
    | Looping =>
        match ns_queues st i with
        | [] => None
        | Ask b :: q =>                                  (* driver.rs 388-410, 500-512 *)
            Some (with_thread (with_queue st i q) i (Writing b (Frame (id_name (net i)) (parts st i) []) []))
        | AddProcessor p :: q =>                         (* driver.rs 386 *)
            Some (NState (set (ns_queues st) i q) (ns_threads st) (ns_replies st)
                    (set (ns_processors st) i (ns_processors st i ++ [p])) (ns_snapshooters st) (ns_log st))
        | AddSnapshooter p :: q =>                       (* driver.rs 387 *)
            Some (NState (set (ns_queues st) i q) (ns_threads st) (ns_replies st)
                    (ns_processors st) (set (ns_snapshooters st) i (ns_snapshooters st i ++ [p])) (ns_log st))
        end
    | Writing b (Frame n (Own f :: rest) level) below =>
        Some (with_thread st i (Writing b (Frame n rest (level ++ f b)) below))
    | Writing b (Frame n (Mounted j :: rest) level) below =>   (* driver.rs 289-290, 240-246 *)
        Some (with_thread (request st j) i (Waiting (new_request st) b (Frame n rest level) below))
    | Writing b (Frame n (Group m head active inner :: rest) level) below =>
        Some (with_thread st i
                (Writing b (Frame m (if active b then inner else []) (head b)) (Frame n rest level :: below)))
    | Writing b (Frame m [] inside) (Frame n rest level :: below) =>
        Some (with_thread st i (Writing b (Frame n rest (level ++ finished m inside)) below))
    | Writing b (Frame n [] level) [] =>                 (* driver.rs 397, 408 *)
        Some (NState (ns_queues st) (set (ns_threads st) i Looping)
                (set (ns_replies st) b (Answered (finished n level)))
                (ns_processors st) (ns_snapshooters st) (ns_log st))
    | Waiting a b (Frame n rest level) below =>          (* driver.rs 290-295 *)
        match ns_replies st a with
        | Answered s => Some (with_thread st i (Writing b (Frame n rest (level ++ s)) below))
        | Dropped => Some (with_thread st i (Writing b (Frame n rest level) below))
        | Pending => None
        end
    | Ended => None
    end.

  (** The handles that belong to the thread of [i] or are on their way to it *)
  Definition handles_of (st : nstate) (i : nat) : list nat :=
    flat_map drivers_in (ns_processors st i ++ ns_snapshooters st i) ++ flat_map command_drivers (ns_queues st i).

  Definition is_ask (b : nat) (c : ncommand) : bool :=
    match c with Ask b' => Nat.eqb b' b | _ => false end.

  (** The end of the thread, driver.rs 377-383: the commands and everything that is
      mounted are dropped. *)
  Definition ended (st : nstate) (i : nat) : nstate :=
    NState (set (ns_queues st) i []) (set (ns_threads st) i Ended)
      (fun b => if existsb (is_ask b) (ns_queues st i) then Dropped else ns_replies st b)
      (set (ns_processors st) i []) (set (ns_snapshooters st) i []) (ns_log st).

  (** Nothing is mounted when a driver is started, driver.rs 360-375. *)
  Definition start : nstate :=
    NState (fun _ => []) (fun _ => Looping) (fun _ => Pending) (fun _ => []) (fun _ => []) [].

  (** The threads of the program, the drivers and their ends, in any order. A handle
      can only be mounted while there is one, then the thread has not ended. The
      flag [is_running] is cleared with the last handle (driver.rs 162-166), those
      inside of drivers count; it is read between two commands. Which handles the
      program holds is not modelled: it may drop its last one at any time, and
      requests after this, which are impossible, are dropped. *)
  Inductive nstep : nstate -> nstate -> Prop :=
  | ns_request : forall st i, nstep st (request st i)
  | ns_add : forall st i c, (forall b, c <> Ask b) -> (forall j, In j (command_drivers c) -> ns_threads st j <> Ended) ->
      nstep st (call st i c)
  | ns_thread : forall st i st', thread_step st i = Some st' -> nstep st st'
  | ns_end : forall st i, ns_threads st i = Looping -> (forall j, ~ In i (handles_of st j)) -> nstep st (ended st i).

  Inductive nlater (st0 : nstate) : nstate -> Prop :=
  | nl_now : nlater st0 st0
  | nl_step : forall st st', nlater st0 st -> nstep st st' -> nlater st0 st'.

  Definition nreach : nstate -> Prop := nlater start.
End Nest.
