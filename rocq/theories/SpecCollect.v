(** Specification of collections: which messages are handled, and by whom. *)
From Coq Require Import ZArith Bool String List.
From Verif Require Import Base SpecRun ModelObservation ModelSnapshot ModelInstrument ModelTree
  ModelChannel ModelProcessor SpecQueue.
Import ListNotations.
Open Scope Z_scope.

Section Collect.
  Context {X : ext} {Y : pext}.
  Variable k : cfg.

  (** The messages [ms] are handled one after the other, starting with the clock [c]. *)
  Inductive handles (d : decider) : tele X -> counts -> clock -> list (message X) -> tele X -> counts -> clock -> Prop :=
  | handles_nil : forall t n c, handles d t n c [] t n c
  | handles_cons : forall t n c m t1 n1 c1 ms t2 n2 c2,
      tele_message d t n m k c = Ok (t1, n1) c1 ->
      handles d t1 n1 c1 ms t2 n2 c2 ->
      handles d t n c (m :: ms) t2 n2 c2.

  (** A collection handles the messages [ms]; the strategy's decision is taken at
      its start. Besides that only the time of the last activity and the note
      that there are no transmitters left may change. *)
  Definition collection (t : tele X) (s : strategy) (c : clock) (ms : list (message X)) (t' : tele X) (o : outcome) : Prop :=
    (tp_disconnected t = true /\ ms = [] /\ t' = t /\ o = outcome_default)
    \/ (tp_disconnected t = false /\
        exists d c1 t1 n c2 t2,
          strategy_decider s k c = Ok d c1
          /\ handles d t (Counts 0 0 0) c1 ms t1 n c2
          /\ oc_processed o = ct_processed n /\ oc_dropped o = ct_dropped n
          /\ oc_instruments_updated o = ct_updated n
          /\ (t2 = t1 \/ t2 = tele_disconnect t1)
          /\ (t' = t2 \/ t' = tele_touch t2 (c2 O))).

  (** The life of a processor: collections and snapshots. What the senders do
      meanwhile is the schedule of the world. *)
  Inductive tele_life : tele X -> world X Y -> list (nat * strategy * outcome) -> tele X -> world X Y -> Prop :=
  | tl_nil : forall t w, tele_life t w [] t w
  | tl_collect : forall t w max s o t1 w1 h t2 w2,
      tele_process t max s k w = Ok (t1, o) w1 ->
      tele_life t1 w1 h t2 w2 -> tele_life t w ((max, s, o) :: h) t2 w2
  | tl_snapshot : forall t w de into t1 into1 w1 h t2 w2,
      lift (tele_put t de into) k w = Ok (t1, into1) w1 ->
      tele_life t1 w1 h t2 w2 -> tele_life t w h t2 w2.

  (** [max] is a usize. *)
  Definition maxima_fit (h : list (nat * strategy * outcome)) : Prop :=
    Forall (fun e => Z.of_nat (fst (fst e)) <= u64_max) h.

  (** The same life told by the messages that are handled in the collections. *)
  Inductive tele_story : tele X -> list (nat * strategy * outcome) -> list (list (message X)) -> tele X -> Prop :=
  | ts_nil : forall t, tele_story t [] [] t
  | ts_collect : forall t c max s o ms t1 h mss t2,
      collection t s c ms t1 o ->
      (length ms <= max)%nat ->
      oc_processed o + oc_dropped o = Z.of_nat (length ms) ->
      tele_story t1 h mss t2 -> tele_story t ((max, s, o) :: h) (ms :: mss) t2
  | ts_snapshot : forall t de into c t1 into1 c1 h mss t2,
      tele_put t de into k c = Ok (t1, into1) c1 ->
      tele_story t1 h mss t2 -> tele_story t h mss t2.

  (** ** Groups *)

  (** [p] is collected (the nesting of mounts is finite). *)
  Definition collects (p : processor X Y) (max : nat) (s : strategy) (w : world X Y)
    (p' : processor X Y) (o : outcome) (w' : world X Y) : Prop :=
    exists n, processor_process n p max s k w = Ok (p', o) w'.

  (** Every processor once, in order. *)
  Inductive collect_each (max : nat) (s : strategy)
    : list (processor X Y) -> world X Y -> list (processor X Y) -> list outcome -> world X Y -> Prop :=
  | ce_nil : forall w, collect_each max s [] w [] [] w
  | ce_cons : forall p w p' o w1 ps ps' os w2,
      collects p max s w p' o w1 -> collect_each max s ps w1 ps' os w2 ->
      collect_each max s (p :: ps) w (p' :: ps') (o :: os) w2.

  Definition total (f : outcome -> Z) (os : list outcome) : Z := sum (map f os).

  (** The component-wise sum in 64 bit. *)
  Definition wrapped (os : list outcome) : outcome :=
    Outcome (wrap_u64 (total oc_processed os)) (wrap_u64 (total oc_dropped os))
      (wrap_u64 (total oc_instruments_updated os)) (wrap_u64 (total oc_enqueued os)).

  (** No sum exceeds 64 bit. *)
  Definition outcomes_fit (os : list outcome) : Prop :=
    0 <= total oc_processed os <= u64_max /\ 0 <= total oc_dropped os <= u64_max
    /\ 0 <= total oc_instruments_updated os <= u64_max /\ 0 <= total oc_enqueued os <= u64_max.

  (** ** Attached mounts *)

  Definition put_processors (xs : list (mount_message X Y)) : list (processor X Y) :=
    flat_map (fun x => match x with MProcessor p => [p] | MSnapshooter _ => [] end) xs.
  Definition put_snapshooters (xs : list (mount_message X Y)) : list (snapshooter X) :=
    flat_map (fun x => match x with MProcessor _ => [] | MSnapshooter s => [s] end) xs.

  (** A component changes only by being collected or by being asked for a snapshot. *)
  Inductive evolves : processor X Y -> processor X Y -> Prop :=
  | ev_same : forall p, evolves p p
  | ev_collected : forall p max s w p1 o w1 p2,
      collects p max s w p1 o w1 -> evolves p1 p2 -> evolves p p2
  | ev_asked : forall p de into c p1 into1 c1 p2,
      processor_put p de into k c = Ok (p1, into1) c1 -> evolves p1 p2 -> evolves p p2.
  Inductive snapshooter_evolves : snapshooter X -> snapshooter X -> Prop :=
  | sv_same : forall s, snapshooter_evolves s s
  | sv_asked : forall s de into c s1 into1 c1 s2,
      snapshooter_put s de into k c = Ok (s1, into1) c1 -> snapshooter_evolves s1 s2 -> snapshooter_evolves s s2.

  (** The life of any processor. *)
  Inductive proc_life : processor X Y -> world X Y -> processor X Y -> world X Y -> Prop :=
  | pl_nil : forall p w, proc_life p w p w
  | pl_collect : forall p w max s p1 o w1 p2 w2,
      collects p max s w p1 o w1 -> proc_life p1 w1 p2 w2 -> proc_life p w p2 w2
  | pl_snapshot : forall p w de into p1 into1 w1 p2 w2,
      lift (processor_put p de into) k w = Ok (p1, into1) w1 ->
      proc_life p1 w1 p2 w2 -> proc_life p w p2 w2.

  (** ** Receivers *)

  (** In Rust the receiver of a channel exists once, here it is identified by a
      number; so it has to be said who holds it. *)
  Inductive receiver := QueueReceiver (i : nat) | MountReceiver (i : nat).

  Fixpoint holds (r : receiver) (p : processor X Y) : Prop :=
    match p with
    | PTele t => r = QueueReceiver (tp_receiver t)
    | PMount m => mount_holds r m
    | PAttached (Some i) m => r = MountReceiver i \/ mount_holds r m
    | PAttached None m => mount_holds r m
    | PDriver _ | PUser _ => False
    end
  with mount_holds (r : receiver) (m : mount X Y) : Prop :=
    match m with
    | Mount _ ps _ => (fix any ps := match ps with [] => False | p :: ps => holds r p \/ any ps end) ps
    end.

  Definition put_holds (r : receiver) (x : mount_message X Y) : Prop :=
    match x with MProcessor p => holds r p | MSnapshooter _ => False end.

  (** Nothing that waits to be put into a mount, or will be put there, holds the receiver. *)
  Definition foreign (r : receiver) (w : world X Y) : Prop :=
    (forall j x, In x (ch_queue (w_mounts w j) ++ ch_waiting (w_mounts w j)) -> ~ put_holds r x)
    /\ (forall n j x, In (OnMount j (Send x)) (w_sched w n) \/ In (OnMount j (TrySend x)) (w_sched w n) -> ~ put_holds r x).
  (** What the other threads do to channel [i]. *)
  Definition on_queue (i : nat) (l : list (action X Y)) : list (chan_event (message X)) :=
    flat_map (fun a => match a with OnQueue j b => if Nat.eqb i j then [Acts b] else [] | OnMount _ _ => [] end) l.
  Definition on_mount (i : nat) (l : list (action X Y)) : list (chan_event (mount_message X Y)) :=
    flat_map (fun a => match a with OnMount j b => if Nat.eqb i j then [Acts b] else [] | OnQueue _ _ => [] end) l.

  (** All channels change by channel operations only. *)
  Definition runs (w w' : world X Y) : Prop :=
    (forall i, exists h, w_queues w' i = chan_run (w_queues w i) h)
    /\ (forall i, exists h, w_mounts w' i = chan_run (w_mounts w i) h).

  Definition keeps_queue (i : nat) (w w' : world X Y) : Prop := exists l, w_queues w' i = chan_run (w_queues w i) (on_queue i l).

  (** The channel of the receiver is used by other threads only. *)
  Definition untouched (r : receiver) (w w' : world X Y) : Prop :=
      match r with
      | QueueReceiver i => keeps_queue i w w'
      | MountReceiver i => exists l, w_mounts w' i = chan_run (w_mounts w i) (on_mount i l)
      end.

End Collect.
