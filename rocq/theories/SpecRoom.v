(** Specification of numbers that stay far from the limits of their types, so that
    overflow checks do not matter. *)
From Coq Require Import ZArith Bool String List.
From Verif Require Import Base SpecRun ModelObservation ModelLabelFilter ModelSnapshot ModelCounter ModelBuckets ModelGauge
  ModelMeter ModelHistogram ModelSwitches ModelInstrument ModelTree SpecTree SpecSafe.
Import ListNotations.
Open Scope Z_scope.

(** The nanoseconds of a unit *)
Definition nanos_of (u : time_unit) : Z :=
  match u with Nanoseconds => 1 | Microseconds => 1000 | Milliseconds => 1000000 | Seconds => 1000000000 end.

(** Numbers up to [V], durations up to [V] nanoseconds *)
Definition fits_value (V : Z) (v : observed_value) : Prop :=
  match v with
  | ChangedBy d => Z.abs d <= V
  | DurationValue t u => 0 <= t /\ t * nanos_of u <= V
  | v => forall z, convert_to_i64 v = Some z -> Z.abs z <= V
  end.
Definition fits (V : Z) (u : update) : Prop :=
  match u with
  | Observations n _ => 0 <= n <= V
  | OneObservation _ => True
  | ObservationWithValue v _ => fits_value V v
  end.

Section Room.
  Context {X : ext}.
  Variables (k : cfg) (lo hi V : Z).

  (** ** What an instrument contains after [n] updates *)

  (** A record of a second that was made of at most [n] values of at most [n * V] *)
  Definition bucket_calm (n : Z) (b : bucket) : Prop :=
    0 <= bk_count b /\ Z.abs (bk_sum b) <= bk_count b * (n * V)
    /\ Z.abs (bk_min b) <= n * V /\ Z.abs (bk_max b) <= n * V.

  Definition counts (l : list bucket) : Z := fold_right (fun b s => bk_count b + s) 0 l.

  Definition gauge_calm (n : Z) (g : gauge) : Prop :=
    match g_value g with Some v => Z.abs v <= n * V | None => True end
    /\ match g_tracking g with
       | Some b => Forall (bucket_calm n) (b_buckets b) /\ counts (b_buckets b) <= n
       | None => True
       end.

  (** The start of a meter is not before the time that is looked at. *)
  Definition meter_calm (n : Z) (m : meter) : Prop :=
    Z.abs (sm_count (m_inner m)) <= n * V /\ lo <= sm_start (m_inner m).

  Definition calm (n : Z) (i : instrument X) : Prop :=
    sound k lo hi i
    /\ match i with
       | ICounter c => 0 <= c_count c <= n * V
       | IGauge g => gauge_calm n g
       | IMeter m => meter_calm n m
       | IValueMeter vm => meter_calm n (vm_meter vm)
       | _ => True
       end.

  (** ** Trees *)

  (** What is reached by observations or snapshots in a tree: instruments, with
      what modifies their updates, and the user's handlers *)
  Inductive leaf :=
  | LInstrument (i : instrument X) (m : update_modifier (lab X))
  | LUser.

  Definition slots_leaves (sl : slots X) : list leaf :=
    map (fun a => LInstrument (ICounter (ad_instrument a)) (ad_modify a)) (opt_list (sl_counter sl))
    ++ map (fun a => LInstrument (IGauge (ga_gauge a)) (ga_modify_update a)) (opt_list (sl_gauge sl))
    ++ map (fun a => LInstrument (IMeter (ad_instrument a)) (ad_modify a)) (opt_list (sl_meter sl))
    ++ map (fun a => LInstrument (IHistogram (ad_instrument a)) (ad_modify a)) (opt_list (sl_histogram sl)).

  Fixpoint panel_leaves (p : panel X) {struct p} : list leaf :=
    match p with
    | Panel _ sl ps hs ss =>
        slots_leaves sl ++ flat_map panel_leaves ps ++ flat_map handler_leaves hs ++ flat_map snapshooter_leaves ss
    end
  with handler_leaves (h : handler X) {struct h} : list leaf :=
    match h with
    | HInstrument a => [LInstrument (ad_instrument a) (ad_modify a)]
    | HGauge a => [LInstrument (IGauge (ga_gauge a)) (ga_modify_update a)]
    | HPanel p => panel_leaves p
    | HCockpit c => cockpit_leaves c
    | HUser _ => [LUser]
    end
  with cockpit_leaves (c : cockpit X) {struct c} : list leaf :=
    match c with
    | Cockpit _ ps hs ss =>
        flat_map panel_leaves ps ++ flat_map handler_leaves hs ++ flat_map snapshooter_leaves ss
    end
  with snapshooter_leaves (s : snapshooter X) {struct s} : list leaf :=
    match s with
    | SConstant _ | SUser _ => []
    | SPolled _ _ _ poll => snapshooter_leaves poll
    | SInstrument i => [LInstrument i None]
    | SHandler h => handler_leaves h
    end.

  (** Modifiers do not make values larger than [V]. *)
  Definition leaf_calm (n : Z) (l : leaf) : Prop :=
    match l with
    | LInstrument i m => calm n i /\ forall lb u, fits V u -> fits V (modify m lb u)
    | LUser => True
    end.

  (** The user's parts do not panic and update at most [V] instruments each. *)
  Record parts_calm : Prop := PartsCalm {
    pc_safe : parts_safe k lo hi X;
    pc_instr : forall i u, safe k lo hi (user_instr_update X i u) (fun r => 0 <= snd r <= V);
    pc_handler : forall h o, safe k lo hi (user_handler_handle X h o) (fun r => 0 <= snd r <= V)
  }.

  (** ** Lives *)

  Inductive event :=
  | Observes (o : observation (lab X))
  | Snaps (descriptive : bool) (into : snapshot).

  Fixpoint live (h : handler X) (l : list event) : M (handler X) :=
    match l with
    | [] => ret h
    | Observes o :: l => let* '(h, _) := handler_handle h o in live h l
    | Snaps de into :: l => let* '(h, _) := handler_put h de into in live h l
    end.

  Definition observes (l : list event) : Z :=
    fold_right (fun e n => match e with Observes _ => n + 1 | Snaps _ _ => n end) 0 l.
  Definition event_fits (e : event) : Prop :=
    match e with Observes o => fits V (snd (split_observation o)) | Snaps _ _ => True end.
End Room.
Arguments leaf : clear implicits.
Arguments event : clear implicits.
