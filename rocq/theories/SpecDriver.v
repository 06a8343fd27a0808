(** Specification of drivers. *)
From Coq Require Import ZArith Bool String List.
From Verif Require Import Base SpecRun SpecClock ModelObservation ModelSnapshot ModelSwitches ModelInstrument ModelTree
  ModelChannel ModelProcessor ModelDriver SpecQueue SpecCollect SpecWriting.
Import ListNotations.
Open Scope Z_scope.

Section Driver.
  Context {X : ext} {Y : pext}.
  Variable k : cfg.
  Implicit Types (d : driver X Y) (w : dworld X Y) (cs : list (command X Y)).

  (** ** Commands *)

  Definition added_processors cs : list (processor X Y) :=
    flat_map (fun c => match c with CAddProcessor p => [p] | _ => [] end) cs.
  Definition added_snapshooters cs : list (snapshooter X) :=
    flat_map (fun c => match c with CAddSnapshooter s => [s] | _ => [] end) cs.

  (** The last one counts. *)
  Fixpoint strategy_after (s : strategy) cs : strategy :=
    match cs with
    | [] => s
    | CSetProcessingStrategy s' :: cs => strategy_after s' cs
    | _ :: cs => strategy_after s cs
    end.
  Fixpoint paused_after (b : bool) cs : bool :=
    match cs with
    | [] => b
    | CPause :: cs => paused_after true cs
    | CResume :: cs => paused_after false cs
    | _ :: cs => paused_after b cs
    end.

  (** The requests for snapshots, each with the commands before it. *)
  Fixpoint requests_in (before : list (command X Y)) cs : list (list (command X Y) * command X Y) :=
    match cs with
    | [] => []
    | c :: cs =>
        match c with
        | CGetSnapshotSync _ _ _ | CGetSnapshotAsync _ _ _ => [(before, c)]
        | _ => []
        end ++ requests_in (before ++ [c]) cs
    end.

  (** [d2] is [d] after the commands [cs] as far as they concern its parts. The
      parts themselves went on. *)
  Definition grown d cs (d2 : driver X Y) : Prop :=
    dr_name d2 = dr_name d /\ dr_descr d2 = dr_descr d
    /\ Forall2 (evolves k) (dr_processors d ++ added_processors cs) (dr_processors d2)
    /\ Forall2 (snapshooter_evolves k) (dr_snapshooters d ++ added_snapshooters cs) (dr_snapshooters d2)
    /\ dr_strategy d2 = strategy_after (dr_strategy d) cs
    /\ dr_paused d2 = paused_after (dr_paused d) cs
    /\ (dr_metrics d2 = None <-> dr_metrics d = None).

  (** The answer to a request is the snapshot of the driver as it was after the
      commands before the request. *)
  Definition answered d (r : list (command X Y) * command X Y) (a : nat * snapshot) : Prop :=
    exists into de d2 c d3 c',
      (snd r = CGetSnapshotSync into (fst a) de \/ snd r = CGetSnapshotAsync into (fst a) de)
      /\ grown d (fst r) d2
      /\ put_values_into_snapshot d2 de into k c = Ok (d3, snd a) c'.

  (** ** Iterations *)

  (** [n] iterations, the thread goes on. *)
  Inductive iterates : nat -> driver X Y -> dworld X Y -> driver X Y -> dworld X Y -> Prop :=
  | it_nil : forall d w, iterates O d w d w
  | it_step : forall n d w d1 w1 d2 w2,
      driver_iteration d k w = Ok (d1, true) w1 -> iterates n d1 w1 d2 w2 -> iterates (S n) d w d2 w2.

  (** The same as a function. *)
  Fixpoint run_iterations (n : nat) (d : driver X Y) : St (dworld X Y) (option (driver X Y)) :=
    match n with
    | O => ret (Some d)
    | S n => let* '(d, more) := driver_iteration d in if more : bool then run_iterations n d else ret None
    end.

  (** Nobody but the driver stops it. A handle that is not being dropped has a
      guard and a sender. *)
  Definition driver_ok w : Prop :=
    ch_cap (dw_commands w) = None /\ ch_waiting (dw_commands w) = []
    /\ ch_receiver (dw_commands w) = true
    /\ (dw_guards w <= ch_senders (dw_commands w))%nat
    /\ (dw_running w = true <-> dw_guards w <> O).

  (** The world of the processors goes on, but nobody collects. *)
  Definition resting (a b : world X Y) : Prop :=
    w_queues b = w_queues a /\ w_mounts b = w_mounts a /\ w_sched b = w_sched a.

  (** Only snapshots were taken. *)
  Inductive asked : processor X Y -> processor X Y -> Prop :=
  | as_same : forall p, asked p p
  | as_more : forall p de into c p1 into1 c1 p2,
      processor_put p de into k c = Ok (p1, into1) c1 -> asked p1 p2 -> asked p p2.

  (** The calls of the threads with handles that reach the driver's queue;
      [guards]: the number of handles *)
  Fixpoint called (guards : nat) (l : list (client_action X Y)) : list (command X Y) :=
    match l with
    | [] => []
    | Call c :: l => (match guards with O => [] | _ => [c] end) ++ called guards l
    | CloneHandle :: l => called (match guards with O => O | n => S n end) l
    | DropHandleGuard :: l => called (pred guards) l
    | DropHandleSender :: l => called guards l
    end.

  (** The number of handles afterwards. *)
  Fixpoint guards_after (guards : nat) (l : list (client_action X Y)) : nat :=
    match l with
    | [] => guards
    | Call _ :: l | DropHandleSender :: l => guards_after guards l
    | CloneHandle :: l => guards_after (match guards with O => O | n => S n end) l
    | DropHandleGuard :: l => guards_after (pred guards) l
    end.

  (** What the threads with handles do during the first [n] operations of the
      driver's thread on the flag or the channel; each iteration has two. *)
  Definition meanwhile (w : dworld X Y) (n : nat) : list (client_action X Y) :=
    flat_map (dw_sched w) (seq 0 n).

  (** The numbers of the back channels of the requests. *)
  Definition requested cs : list nat :=
    flat_map (fun c => match c with CGetSnapshotSync _ b _ | CGetSnapshotAsync _ b _ => [b] | _ => [] end) cs.

  (** A driver that was just created. *)
  Definition new_world (w : world X Y) (sched : nat -> list (client_action X Y)) : dworld X Y :=
    DWorld w (chan_new None) 1 true [] [] sched.
  (** ** Snapshots *)

  (** One after the other; the pieces are what they write. *)
  Inductive in_turn {A} (put : A -> snapshot -> M (A * snapshot))
    : list A -> snapshot -> clock -> list A -> list snapshot -> clock -> Prop :=
  | tu_nil : forall s c, in_turn put [] s c [] [] c
  | tu_cons : forall a s c a' piece c1 l l' pieces c2,
      put a s k c = Ok (a', s ++ piece) c1 ->
      in_turn put l (s ++ piece) c1 l' pieces c2 ->
      in_turn put (a :: l) s c (a' :: l') (piece :: pieces) c2.

  (** The level a driver writes to. *)
  Definition level_of d (into : snapshot) : snapshot :=
    match dr_name d with Some _ => [] | None => into end.
  Definition shows_on_level d (into body s : snapshot) : Prop :=
    match dr_name d with
    | Some n => s = into ++ [(n, ItemSnapshot body)]
    | None => s = into ++ body
    end.

  (** What a driver writes: descriptions, the processors and the snapshooters in
      their order and the driver's own metrics, if there are any. *)
  Definition consists_of d (de : bool) (level : snapshot) (c : clock) (d' : driver X Y) (body : snapshot) : Prop :=
    exists texts pieces c1 pieces' c2 metrix,
      body = texts ++ concat pieces ++ concat pieces' ++ metrix
      /\ (de = false -> texts = []) /\ (de = true -> adds_texts (keys level) [] texts)
      /\ (de = true -> level = [] -> title_of (dr_descr d) texts)
      /\ in_turn (fun p => processor_put p de) (dr_processors d) (level ++ texts) c (dr_processors d') pieces c1
      /\ in_turn (fun s => snapshooter_put s de) (dr_snapshooters d) (level ++ texts ++ concat pieces) c1
           (dr_snapshooters d') pieces' c2
      /\ (dr_metrics d = None -> metrix = [])
      /\ (dr_metrics d <> None -> exists inner, metrix = [("_metrix"%string, ItemSnapshot inner)]).

  Definition metrix_names : list string :=
    ["collections_per_second"; "collection_times_us"; "observations_processed_per_second";
     "observations_processed_per_collection"; "observations_dropped_per_second";
     "observations_dropped_per_collection"; "observations_enqueued"; "instruments_updated_per_second";
     "snapshots_per_second"; "snapshots_times_us"; "dropped_observations_alarm"; "inactivity_alarm";
     "iteration_update_ratio_per_mille"; "iteration_update_ratio_per_mille_histo"]%string.

  (** [inner] is the content of [_metrix], the last item of the driver's snapshot. *)
  Definition shows_metrix d (into s inner : snapshot) : Prop :=
    exists before, let body := before ++ [("_metrix"%string, ItemSnapshot inner)] in
      match dr_name d with
      | Some n => s = into ++ [(n, ItemSnapshot body)]
      | None => s = body
      end.

  (** ** The driver's own metrics *)

  (** The collection of an iteration: nothing if the driver is paused. An entry
      says when the collection was over, its outcome and when its bookkeeping was
      over. *)
  Inductive collected : driver X Y -> Z -> dworld X Y -> list (Z * outcome * Z) -> driver X Y -> dworld X Y -> Prop :=
  | co_paused : forall d t0 w, dr_paused d = true -> collected d t0 w [] d w
  | co_collects : forall d t0 w d1 w1 t v1 ps o v2,
      dr_paused d = false ->
      driver_run d t0 k w = Ok d1 w1 ->
      lift now k (dw_world w) = Ok t v1 ->
      do_a_run (dr_processors d) 1000 (dr_strategy d) k v1 = Ok (ps, o) v2 ->
      collected d t0 w [(w_clock v2 O, o, w_clock (dw_world w1) O)] d1 w1.

  (** [n] iterations with all collections. *)
  Inductive history : nat -> driver X Y -> dworld X Y -> list (Z * outcome * Z) -> driver X Y -> dworld X Y -> Prop :=
  | hi_nil : forall d w, history O d w [] d w
  | hi_step : forall n d w wa t0 wb r wc dm wd e d1 w1 log d2 w2,
      load_running k w = Ok true wa ->
      timed now k wa = Ok t0 wb ->
      command_try_recv k wb = Ok r wc ->
      r <> Disconnected ->
      (match r with Message c => driver_command d c | _ => ret d end) k wc = Ok dm wd ->
      collected dm t0 wd e d1 w1 ->
      history n d1 w1 log d2 w2 ->
      history (S n) d w (e ++ log) d2 w2.

  (** The collections that dropped observations. *)
  Definition dropping (log : list (Z * outcome * Z)) : list (Z * outcome * Z) :=
    filter (fun e => 0 <? oc_dropped (snd (fst e))) log.

  (** [t] is between the end of a collection and the end of its bookkeeping. *)
  Definition within (t : Z) (e : Z * outcome * Z) : Prop := fst (fst e) <= t <= snd e.
End Driver.
