(** Specification of drivers that are mounted into each other. *)
From Coq Require Import ZArith String List Arith.
From Verif Require Import Base ModelSnapshot ModelInstrument ModelTree ModelProcessor ModelNest.
Import ListNotations.
Open Scope nat_scope.

(** ** The commands *)

(** What was sent to the driver [i] *)
Definition sent_to (i : nat) (log : list (nat * ncommand)) : list ncommand :=
  map snd (filter (fun x => Nat.eqb (fst x) i) log).

(** What was sent before the request [b] *)
Fixpoint before (b : nat) (l : list ncommand) : list ncommand :=
  match l with
  | [] => []
  | Ask b' :: rest => if Nat.eqb b' b then [] else Ask b' :: before b rest
  | c :: rest => c :: before b rest
  end.

Definition added_processors (l : list ncommand) : list part :=
  flat_map (fun c => match c with AddProcessor p => [p] | _ => [] end) l.
Definition added_snapshooters (l : list ncommand) : list part :=
  flat_map (fun c => match c with AddSnapshooter p => [p] | _ => [] end) l.

(** ** Snapshots *)

Definition grouped (name : option string) (items : snapshot) : snapshot :=
  match name with
  | Some n => [(n, ItemSnapshot items)]
  | None => items
  end.

Section Shows.
  Context (net : nat -> identity) (log : list (nat * ncommand)).

  (** [shows i b s]: [s] is a snapshot of the driver [i] for the request [b]: its
      descriptives, all processors and then all snapshooters that were added before
      the request, its metrics. In the place of a mounted driver is a snapshot of
      this driver for a later request; a mount is a level of its own and shows
      what is mounted into it if it is active. *)
  Inductive shows : nat -> nat -> snapshot -> Prop :=
  | sh : forall i b pieces, In (i, Ask b) log ->
      shows_parts b (added_processors (before b (sent_to i log)) ++ added_snapshooters (before b (sent_to i log))) pieces ->
      shows i b (grouped (id_name (net i)) (id_descriptives (net i) b ++ concat pieces ++ id_metrics (net i) b))
  with shows_parts : nat -> list part -> list snapshot -> Prop :=
  | sp_nil : forall b, shows_parts b [] []
  | sp_own : forall b f ps pieces, shows_parts b ps pieces -> shows_parts b (Own f :: ps) (f b :: pieces)
  | sp_mounted : forall b j a s ps pieces,
      b < a -> shows j a s -> shows_parts b ps pieces -> shows_parts b (Mounted j :: ps) (s :: pieces)
  | sp_active : forall b n head active inner inside ps pieces,
      active b = true -> shows_parts b inner inside -> shows_parts b ps pieces ->
      shows_parts b (Group n head active inner :: ps) (grouped n (head b ++ concat inside) :: pieces)
  | sp_inactive : forall b n head active inner ps pieces,
      active b = false -> shows_parts b ps pieces ->
      shows_parts b (Group n head active inner :: ps) (grouped n (head b) :: pieces).
End Shows.

(** ** Mounting *)

(** [p] writes the driver [j] whatever happens. *)
Inductive surely_in (j : nat) : part -> Prop :=
| su_here : surely_in j (Mounted j)
| su_group : forall n head active inner p, (forall b, active b = true) -> In p inner -> surely_in j p ->
    surely_in j (Group n head active inner).

(** [j] is mounted into the driver [i], or a command to do so is in its queue. *)
Inductive mounts (st : nstate) (i j : nat) : Prop :=
| mo_processor : forall p, In p (ns_processors st i) -> In j (drivers_in p) -> mounts st i j
| mo_snapshooter : forall p, In p (ns_snapshooters st i) -> In j (drivers_in p) -> mounts st i j
| mo_add_processor : forall p, In (AddProcessor p) (ns_queues st i) -> In j (drivers_in p) -> mounts st i j
| mo_add_snapshooter : forall p, In (AddSnapshooter p) (ns_queues st i) -> In j (drivers_in p) -> mounts st i j.

(** The drivers [ws] and everything mounted into them, without a cycle. *)
Definition acyclic (st : nstate) (ws : list nat) (rank : nat -> nat) : Prop :=
  forall i j, In i ws -> mounts st i j -> In j ws /\ rank j < rank i.

(** Each driver in [S] has one in [S] mounted. *)
Definition endless (st : nstate) (S : nat -> Prop) : Prop :=
  forall i, S i -> ns_threads st i <> Ended /\ exists j p, S j /\ In p (ns_processors st i ++ ns_snapshooters st i) /\ surely_in j p.

(** Each driver in [S] is mounted into one in [S]. *)
Definition tied (st : nstate) (S : nat -> Prop) : Prop :=
  forall i, S i -> ns_threads st i <> Ended /\ exists j, S j /\ mounts st j i.

(** The request [b] to [i] has not been taken up in the state [st]. *)
Definition not_taken_up (st : nstate) (i b : nat) : Prop :=
  In (Ask b) (ns_queues st i) \/ ~ In (i, Ask b) (ns_log st).

Section Steps.
  Context (net : nat -> identity).

  (** [n] steps of the drivers [ws], mixed with [m] steps of anything, also of other
      threads that ask [ws] for snapshots, that do not mount something into [ws]. *)
  Inductive runs (ws : list nat) (st0 : nstate) : nat -> nat -> nstate -> Prop :=
  | ru_start : runs ws st0 0 0 st0
  | ru_own : forall n m st i st', runs ws st0 n m st ->
      In i ws -> thread_step net st i = Some st' -> runs ws st0 (S n) m st'
  | ru_other : forall n m st st', runs ws st0 n m st -> nstep net st st' ->
      (forall i c, In i ws -> ns_log st' = ns_log st ++ [(i, c)] -> exists b, c = Ask b) -> runs ws st0 n (S m) st'.

  (** None of the drivers [ws] can do anything. *)
  Definition idle (ws : list nat) (st : nstate) : Prop := forall i, In i ws -> thread_step net st i = None.

  Definition all_answered (ws : list nat) (st : nstate) : Prop :=
    forall b i, In (i, Ask b) (ns_log st) -> In i ws -> ns_threads st i <> Ended -> exists s, ns_replies st b = Answered s.
End Steps.

(** The handles of the drivers mounted into a processor. *)
Section Handles.
  Context {X : ext} {Y : pext}.
  Fixpoint mounted_drivers (p : processor X Y) : list (driver_handle Y) :=
    match p with
    | PDriver h => [h]
    | PMount m | PAttached _ m => mount_drivers m
    | PTele _ | PUser _ => []
    end
  with mount_drivers (m : mount X Y) : list (driver_handle Y) :=
    match m with
    | Mount _ ps _ => flat_map mounted_drivers ps
    end.
End Handles.
