(** Model of src/processor.rs and src/attached_mount.rs. *)
From Coq Require Import ZArith Bool String List.
From Verif Require Import Base ModelObservation ModelSnapshot ModelHistogram ModelInstrument
  ModelTree ModelChannel.
Import ListNotations.
Open Scope Z_scope.

(** ** Strategies *)

(** processor.rs 108-119 *)
Inductive strategy :=
| ProcessAll
| DropAll
| DropOlderThan (max_age : Z) (drop_deltas : bool).

(** processor.rs 138-145 *)
Definition strategy_default : strategy := DropOlderThan (30 * nanos_per_sec) false.

(** processor.rs 147-155 *)
Inductive decider :=
| DProcessAll
| DDropAll
| DropBeforeDeadline (drop_if_older_than : Z) (drop_deltas : bool).

(** processor.rs 122-136 *)
Definition strategy_decider (s : strategy) : M decider :=
  match s with
  | ProcessAll => ret DProcessAll
  | DropAll => ret DDropAll
  | DropOlderThan max_age drop_deltas =>
      let* t := now in
      let* d := instant_sub t max_age in
      ret (DropBeforeDeadline d drop_deltas)
  end.

(** processor.rs 158-175 *)
Definition should_be_processed {L} (d : decider) (o : observation L) : bool :=
  match d with
  | DProcessAll => true
  | DDropAll => false
  | DropBeforeDeadline deadline drop_deltas =>
      if deadline <=? obs_timestamp o then true
      else if drop_deltas then false
      else obs_is_delta o
  end.

(** ** Outcomes *)

(** processor.rs 74-79 *)
Record outcome := Outcome {
  oc_processed : Z;
  oc_dropped : Z;
  oc_instruments_updated : Z;
  oc_enqueued : Z
}.

(** processor.rs 95-104 *)
Definition outcome_default : outcome := Outcome 0 0 0 0.

(** processor.rs 83-88 *)
Definition combine_with {W} (a b : outcome) : St W outcome :=
  let* p := add_usize (oc_processed a) (oc_processed b) in
  let* d := add_usize (oc_dropped a) (oc_dropped b) in
  let* i := add_usize (oc_instruments_updated a) (oc_instruments_updated b) in
  let* e := add_usize (oc_enqueued a) (oc_enqueued b) in
  ret (Outcome p d i e).

(** processor.rs 90-92 *)
Definition something_happened (o : outcome) : bool :=
  (0 <? oc_processed o) || (0 <? oc_dropped o).

(** What else comes from outside: the user's processors and the handles of other
    drivers (src/driver.rs 152-156). What another driver answers to a snapshot
    request ([None]: it has stopped) is arbitrary. *)
Record pext := PExt {
  user_proc : Type;
  user_proc_process : user_proc -> nat -> strategy -> M (user_proc * outcome);
  user_proc_put : user_proc -> bool -> snapshot -> M (user_proc * snapshot);
  driver_handle : Type;
  driver_snapshot : driver_handle -> bool -> M (driver_handle * option snapshot)
}.

Section Processor.
  Context {X : ext} {Y : pext}.

  (** processor.rs 43-67 *)
  Inductive message :=
  | MObservation (o : observation (lab X))
  | MAddCockpit (c : cockpit X)
  | MRemoveCockpit (n : string)
  | MAddHandler (h : handler X)
  | MAddPanelToCockpit (cockpit_name : string) (p : panel X)
  | MRemovePanelFromCockpit (cockpit_name panel_name : string).

  (** processor.rs 197-209. [tp_receiver] identifies the channel. *)
  Record tele := Tele {
    tp_name : option string;
    tp_descr : descr;
    tp_cockpits : list (cockpit X);
    tp_handlers : list (handler X);
    tp_receiver : nat;
    tp_snapshooters : list (snapshooter X);
    tp_last_activity : Z;
    tp_limit : option Z;
    tp_show_activity : bool;
    tp_disconnected : bool
  }.

  Definition tele_with (t : tele) (cs : list (cockpit X)) (hs : list (handler X)) : tele :=
    Tele (tp_name t) (tp_descr t) cs hs (tp_receiver t) (tp_snapshooters t) (tp_last_activity t)
      (tp_limit t) (tp_show_activity t) (tp_disconnected t).

  Definition tele_disconnect (t : tele) : tele :=
    Tele (tp_name t) (tp_descr t) (tp_cockpits t) (tp_handlers t) (tp_receiver t)
      (tp_snapshooters t) (tp_last_activity t) (tp_limit t) (tp_show_activity t) true.

  Definition tele_touch (t : tele) (now : Z) : tele :=
    Tele (tp_name t) (tp_descr t) (tp_cockpits t) (tp_handlers t) (tp_receiver t)
      (tp_snapshooters t) now (tp_limit t) (tp_show_activity t) (tp_disconnected t).

  (** processor.rs 270-304 without the channel *)
  Definition tele_new (name : option string) (receiver : nat) : M tele :=
    let* t := now in
    ret (Tele name no_descr [] [] receiver [] t None true false).

  (** processor.rs 429-438, 445-457 *)
  Definition tele_set_inactivity_limit (t : tele) (limit : Z) : tele :=
    Tele (tp_name t) (tp_descr t) (tp_cockpits t) (tp_handlers t) (tp_receiver t)
      (tp_snapshooters t) (tp_last_activity t) (Some limit) (tp_show_activity t) (tp_disconnected t).
  Definition tele_set_show_activity_state (t : tele) (show : bool) : tele :=
    Tele (tp_name t) (tp_descr t) (tp_cockpits t) (tp_handlers t) (tp_receiver t)
      (tp_snapshooters t) (tp_last_activity t) (tp_limit t) show (tp_disconnected t).

  (** processor.rs 311-322 *)
  Definition tele_add_cockpit (t : tele) (c : cockpit X) : tele :=
    match cockpit_name c with
    | Some n =>
        if existsb (fun q => is_named n (cockpit_name q)) (tp_cockpits t) then t
        else tele_with t (tp_cockpits t ++ [c]) (tp_handlers t)
    | None => tele_with t (tp_cockpits t ++ [c]) (tp_handlers t)
    end.

  (** processor.rs 324-327 *)
  Definition tele_remove_cockpit (t : tele) (n : string) : tele :=
    tele_with t (filter (fun q => negb (is_named n (cockpit_name q))) (tp_cockpits t)) (tp_handlers t).

  (** processor.rs 356-358 and 530-533 *)
  Definition tele_add_handler (t : tele) (h : handler X) : tele :=
    tele_with t (tp_cockpits t) (tp_handlers t ++ [h]).

  (** processor.rs 384-386 *)
  Definition tele_add_snapshooter (t : tele) (s : snapshooter X) : tele :=
    Tele (tp_name t) (tp_descr t) (tp_cockpits t) (tp_handlers t) (tp_receiver t)
      (tp_snapshooters t ++ [s]) (tp_last_activity t) (tp_limit t) (tp_show_activity t)
      (tp_disconnected t).

  (** [iter_mut().find(|c| c.get_name() == Some(&name))] and an update of what is found *)
  Fixpoint update_first (n : string) (f : cockpit X -> cockpit X) (cs : list (cockpit X))
    : list (cockpit X) :=
    match cs with
    | [] => []
    | c :: rest => if is_named n (cockpit_name c) then f c :: rest else c :: update_first n f rest
    end.

  (** processor.rs 511-516: cockpits, then handlers *)
  Definition tele_handle (t : tele) (o : observation (lab X)) (acc : Z) : M (tele * Z) :=
    let* '(cs, acc) := traverse (tally (fun c => cockpit_handle c o)) (tp_cockpits t) acc in
    let* '(hs, acc) := traverse (tally (fun h => handler_handle h o)) (tp_handlers t) acc in
    ret (tele_with t cs hs, acc).

  (** The local variables of [process], processor.rs 502-504 *)
  Record counts := Counts { ct_processed : Z; ct_dropped : Z; ct_updated : Z }.

  (** processor.rs 509-559: the reaction to one message *)
  Definition tele_message (d : decider) (t : tele) (n : counts) (m : message) : M (tele * counts) :=
    let processed := add_usize (ct_processed n) 1 in
    match m with
    | MObservation o =>
        if should_be_processed d o then
          let* '(t, u) := tele_handle t o (ct_updated n) in
          let* p := processed in
          ret (t, Counts p (ct_dropped n) u)
        else
          let* dr := add_usize (ct_dropped n) 1 in
          ret (t, Counts (ct_processed n) dr (ct_updated n))
    | MAddCockpit c =>
        let* p := processed in ret (tele_add_cockpit t c, Counts p (ct_dropped n) (ct_updated n))
    | MRemoveCockpit name =>
        let* p := processed in ret (tele_remove_cockpit t name, Counts p (ct_dropped n) (ct_updated n))
    | MAddHandler h =>
        let* p := processed in ret (tele_add_handler t h, Counts p (ct_dropped n) (ct_updated n))
    | MAddPanelToCockpit cn p =>
        let* pr := processed in
        ret (tele_with t (update_first cn (fun c => cockpit_add_panel c p) (tp_cockpits t)) (tp_handlers t),
             Counts pr (ct_dropped n) (ct_updated n))
    | MRemovePanelFromCockpit cn pn =>
        let* pr := processed in
        ret (tele_with t (update_first cn (fun c => cockpit_remove_panel c pn) (tp_cockpits t)) (tp_handlers t),
             Counts pr (ct_dropped n) (ct_updated n))
    end.

  (** ** Processors *)

  (** The plain fields of a [ProcessorMount], processor.rs 616-624 *)
  Record mount_data := MountData {
    md_name : option string;
    md_descr : descr;
    md_last_activity : Z;
    md_limit : option Z
  }.

  (** [Box<dyn ProcessesTelemetryMessages>]: [TelemetryProcessor],
      [ProcessorMount], [InternalAttachedMount] (attached_mount.rs 65-68),
      [TelemetryDriver] and the user's processors *)
  Inductive processor :=
  | PTele (t : tele)
  | PMount (m : mount)
  | PAttached (receiver : option nat) (m : mount)
  | PDriver (h : driver_handle Y)
  | PUser (u : user_proc Y)
  with mount :=
  | Mount (d : mount_data) (processors : list processor) (snapshooters : list (snapshooter X)).

  (** attached_mount.rs 60-63 *)
  Inductive mount_message :=
  | MProcessor (p : processor)
  | MSnapshooter (s : snapshooter X).

  (** ** The world of a collecting thread *)

  (** What other threads do: on the queue of a telemetry processor or of an
      attached mount. *)
  Inductive action :=
  | OnQueue (ch : nat) (a : chan_action message)
  | OnMount (ch : nat) (a : chan_action mount_message).

  (** [w_sched]: what the other threads do before each of the following channel
      operations of this thread. *)
  Record world := World {
    w_clock : clock;
    w_queues : nat -> chan message;
    w_mounts : nat -> chan mount_message;
    w_sched : nat -> list action
  }.

  Definition set_chan {A} (f : nat -> A) (i : nat) (c : A) : nat -> A :=
    fun j => if Nat.eqb j i then c else f j.

  Definition act (w : world) (a : action) : world :=
    match a with
    | OnQueue i a =>
        World (w_clock w) (set_chan (w_queues w) i (chan_act (w_queues w i) a)) (w_mounts w) (w_sched w)
    | OnMount i a =>
        World (w_clock w) (w_queues w) (set_chan (w_mounts w) i (chan_act (w_mounts w i) a)) (w_sched w)
    end.

  (** The other threads get their turn. *)
  Definition interleave : St world unit :=
    fun _ w =>
      let w := fold_left act (w_sched w O) w in
      Ok tt (World (w_clock w) (w_queues w) (w_mounts w) (fun i => w_sched w (S i))).

  Definition lift {A} (m : M A) : St world A :=
    fun k w =>
      match m k (w_clock w) with
      | Ok a c => Ok a (World c (w_queues w) (w_mounts w) (w_sched w))
      | Panic => Panic
      | NoFuel => NoFuel
      end.

  (** [self.receiver.try_recv()] *)
  Definition queue_try_recv (i : nat) : St world (received message) :=
    let* _ := interleave in
    fun _ w =>
      let '(c, r) := chan_try_recv (w_queues w i) in
      Ok r (World (w_clock w) (set_chan (w_queues w) i c) (w_mounts w) (w_sched w)).

  (** [self.receiver.len()] *)
  Definition queue_len (i : nat) : St world Z :=
    let* _ := interleave in
    fun _ w => Ok (Z.of_nat (chan_len (w_queues w i))) w.

  (** [the_receiver.try_recv()], attached_mount.rs 81 *)
  Definition mount_try_recv (i : nat) : St world (received mount_message) :=
    let* _ := interleave in
    fun _ w =>
      let '(c, r) := chan_try_recv (w_mounts w i) in
      Ok r (World (w_clock w) (w_queues w) (set_chan (w_mounts w) i c) (w_sched w)).

  (** ** Collecting *)

  (** processor.rs 507-572, [while num_received < max]: [n] iterations are left *)
  Fixpoint tele_collect (n : nat) (d : decider) (t : tele) (acc : counts) : St world (tele * counts) :=
    match n with
    | O => ret (t, acc)
    | S n =>
        let* r := queue_try_recv (tp_receiver t) in
        match r with
        | Message m =>
            let* '(t, acc) := lift (tele_message d t acc m) in
            tele_collect n d t acc
        | Empty => tele_collect n d t acc
        | Disconnected => ret (tele_disconnect t, acc)
        end
    end.

  (** processor.rs 497-586 *)
  Definition tele_process (t : tele) (max : nat) (s : strategy) : St world (tele * outcome) :=
    if tp_disconnected t then ret (t, outcome_default)
    else
      let* d := lift (strategy_decider s) in
      let* '(t, acc) := tele_collect max d t (Counts 0 0 0) in
      let* enqueued := queue_len (tp_receiver t) in
      let o := Outcome (ct_processed acc) (ct_dropped acc) (ct_updated acc) enqueued in
      if something_happened o then
        let* t0 := lift now in
        ret (tele_touch t t0, o)
      else ret (t, o).

  Definition mount_touch (d : mount_data) (t : Z) : mount_data :=
    MountData (md_name d) (md_descr d) t (md_limit d).

  (** [outcome.combine_with(&processor.process(max, strategy))] *)
  Definition collect_one (f : processor -> St world (processor * outcome)) (p : processor) (acc : outcome)
    : St world (processor * outcome) :=
    let* '(p, o) := f p in
    let* acc := combine_with acc o in
    ret (p, acc).

  (** processor.rs 725-737; [f] is the collection of a contained processor *)
  Definition mount_process (f : processor -> St world (processor * outcome)) (m : mount)
    : St world (mount * outcome) :=
    let '(Mount d ps ss) := m in
    let* '(ps, o) := traverse (collect_one f) ps outcome_default in
    if something_happened o then
      let* t := lift now in
      ret (Mount (mount_touch d t) ps ss, o)
    else ret (Mount d ps ss, o).

  (** processor.rs 664-666, 668-670 *)
  Definition mount_add (m : mount) (x : mount_message) : mount :=
    let '(Mount d ps ss) := m in
    match x with
    | MProcessor p => Mount d (ps ++ [p]) ss
    | MSnapshooter s => Mount d ps (ss ++ [s])
    end.

  (** attached_mount.rs 79-93, the [loop]; other threads can keep it busy for any
      number of iterations, more than [n] of them are not followed *)
  Fixpoint attached_drain (n : nat) (receiver : nat) (m : mount) : St world (mount * bool) :=
    match n with
    | O => fun _ _ => NoFuel
    | S n =>
        let* r := mount_try_recv receiver in
        match r with
        | Message x => attached_drain n receiver (mount_add m x)
        | Empty => ret (m, true)
        | Disconnected => ret (m, false)
        end
    end.

  (** attached_mount.rs 77-98: empty the channel; a disconnected receiver is
      dropped *)
  Definition attached_take (receiver : option nat) (m : mount) : St world (option nat * mount) :=
    match receiver with
    | None => ret (None, m)
    | Some i =>
        fun k =>
          (let* '(m, still_connected) := attached_drain (fuel k) i m in
           ret (if still_connected : bool then Some i else None, m)) k
    end.

  (** [ProcessesTelemetryMessages::process]: processor.rs 497-586, 725-737,
      attached_mount.rs 77-100, driver.rs 283-285. [n] bounds the nesting of
      mounts (an attached mount may receive further attached mounts while it
      is collected). *)
  Fixpoint processor_process (n : nat) (p : processor) (max : nat) (s : strategy)
    : St world (processor * outcome) :=
    match n with
    | O => fun _ _ => NoFuel
    | S n =>
        match p with
        | PTele t => let* '(t, o) := tele_process t max s in ret (PTele t, o)
        | PMount m =>
            let* '(m, o) := mount_process (fun p => processor_process n p max s) m in
            ret (PMount m, o)
        | PAttached r m =>
            let* '(r, m) := attached_take r m in
            let* '(m, o) := mount_process (fun p => processor_process n p max s) m in
            ret (PAttached r m, o)
        | PDriver h => ret (PDriver h, outcome_default)
        | PUser u =>
            let* '(u, o) := lift (user_proc_process Y u max s) in
            ret (PUser u, o)
        end
    end.

  (** ** Snapshots *)

  (** processor.rs 459-490, 593-602 *)
  Definition tele_put (t : tele) (descriptive : bool) (into : snapshot) : M (tele * snapshot) :=
    put_named (tp_name t)
      (fun into =>
         let into := put_default_descriptives (tp_descr t) into descriptive in
         check_activity (tp_limit t) (tp_show_activity t) (tp_last_activity t) t
           (fun into =>
              let* '(cs, into) := traverse (fun x => cockpit_put x descriptive) (tp_cockpits t) into in
              let* '(hs, into) := traverse (fun x => handler_put x descriptive) (tp_handlers t) into in
              let* '(ss, into) := traverse (fun x => snapshooter_put x descriptive) (tp_snapshooters t) into in
              ret (Tele (tp_name t) (tp_descr t) cs hs (tp_receiver t) ss (tp_last_activity t)
                     (tp_limit t) (tp_show_activity t) (tp_disconnected t), into))
           into)
      into.

  (** driver.rs 288-297: the items of the answer are pushed one by one *)
  Definition driver_put (h : driver_handle Y) (descriptive : bool) (into : snapshot)
    : M (driver_handle Y * snapshot) :=
    let* '(h, answer) := driver_snapshot Y h descriptive in
    ret (h, match answer with
            | Some s => fold_left (fun into '(k, v) => push into k v) s into
            | None => into
            end).

  (** processor.rs 672-697 (the activity is always shown), 741-750 *)
  Fixpoint processor_put (p : processor) (descriptive : bool) (into : snapshot) {struct p}
    : M (processor * snapshot) :=
    match p with
    | PTele t => wrap PTele (tele_put t descriptive into)
    | PMount m => wrap PMount (mount_put m descriptive into)
    | PAttached r m => wrap (PAttached r) (mount_put m descriptive into)   (* attached_mount.rs 70-74 *)
    | PDriver h => wrap PDriver (driver_put h descriptive into)
    | PUser u => wrap PUser (user_proc_put Y u descriptive into)
    end
  with mount_put (m : mount) (descriptive : bool) (into : snapshot) {struct m}
    : M (mount * snapshot) :=
    match m with
    | Mount d ps ss =>
        put_named (md_name d)
          (fun into =>
             let into := put_default_descriptives (md_descr d) into descriptive in
             check_activity (md_limit d) true (md_last_activity d) m
               (fun into =>
                  let* '(ps, into) := traverse (fun x => processor_put x descriptive) ps into in
                  let* '(ss, into) := traverse (fun x => snapshooter_put x descriptive) ss into in
                  ret (Mount d ps ss, into))
               into)
          into
    end.

  (** ** Building mounts *)

  (** processor.rs 700-712, 632-636 *)
  Definition mount_default : M mount :=
    let* t := now in ret (Mount (MountData None no_descr t None) [] []).
  Definition mount_new (n : string) : M mount :=
    let* t := now in ret (Mount (MountData (Some n) no_descr t None) [] []).
  Definition mount_set_inactivity_limit (m : mount) (limit : Z) : mount :=
    let '(Mount d ps ss) := m in
    Mount (MountData (md_name d) (md_descr d) (md_last_activity d) (Some limit)) ps ss.

  (** processor.rs 715-721 *)
  Definition mount_add_processor (m : mount) (p : processor) : mount := mount_add m (MProcessor p).
  Definition mount_add_snapshooter (m : mount) (s : snapshooter X) : mount :=
    mount_add m (MSnapshooter s).
End Processor.
Arguments message : clear implicits.
Arguments tele : clear implicits.
Arguments processor : clear implicits.
Arguments mount : clear implicits.
Arguments mount_message : clear implicits.
Arguments world : clear implicits.
Arguments action : clear implicits.
