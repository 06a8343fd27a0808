(** Specification of the lives of histograms, switches, displays and trackers. *)
From Coq Require Import ZArith Bool String List.
From Verif Require Import Base SpecRun SpecClock SpecGauge SpecHistogram SpecSwitches ModelObservation ModelLabelFilter ModelSnapshot ModelHistogram
  ModelSwitches ModelInstrument ModelTree ModelChannel ModelProcessor ModelDriver SpecNames SpecTree SpecQueue SpecCollect SpecDriver SpecChronicle
  SpecSite SpecLife.
Import ListNotations.
Open Scope Z_scope.

(** Times in order, from [a] to [b] *)
Inductive ascending (a b : Z) : list Z -> Prop :=
| as_nil : a <= b -> ascending a b []
| as_cons : forall t ts, a <= t -> ascending t b ts -> ascending a b (t :: ts).

Definition only_texts (fields : snapshot) : Prop := Forall (fun e => exists x, snd e = Text x) fields.

(** When the last displayed observation expires *)
Definition expiry (after : option Z) (ts : list Z) (us : list update) : list (option Z) :=
  map (fun '(t, u) => match displayable u, after with Some _, Some p => Some (t + p) | _, _ => None end) (combine ts us).

(** The amounts that count *)
Definition summed (amount : update -> option Z) (us : list update) : list Z :=
  flat_map (fun u => match amount u with Some n => [n] | None => [] end) us.

(** ** Histograms *)

(** Time passes while a histogram is updated: an update arrives at one time and is
    recorded at another one. *)
Definition visit := (Z * Z * effect)%type.
Definition arrived (v : visit) : Z := fst (fst v).
Definition recorded (v : visit) : Z := snd (fst v).
Definition taken (vs : list visit) : list Z := flat_map (fun v => sample (snd v)) vs.

Inductive visits (a b : Z) : list visit -> Prop :=
| vi_nil : a <= b -> visits a b []
| vi_cons : forall t r e vs, a <= t -> t <= r -> visits r b vs -> visits a b ((t, r, e) :: vs).

Section Limit.
  Context (start : Z) (limit : option Z) (reset : bool).

  (** When the last sample was recorded *)
  Inductive last_record : list visit -> Z -> Prop :=
  | lr_never : forall vs, taken vs = [] -> last_record vs start
  | lr_at : forall vs t r z vs', taken vs' = [] -> last_record (vs ++ (t, r, Sets z) :: vs') r.

  (** An update that arrives at [t], after [vs], resets the histogram. *)
  Definition clears (vs : list visit) (t : Z) : Prop :=
    reset = true /\ exists d r, limit = Some d /\ last_record vs r /\ d < t - r.

  Definition no_clearing (base vs : list visit) : Prop :=
    forall vs1 v vs2, vs = vs1 ++ v :: vs2 -> ~ clears (base ++ vs1) (arrived v).

  (** What a histogram with the contents [held] holds then. *)
  Inductive retained (held : list Z) : list visit -> list Z -> Prop :=
  | rt_all : forall vs, no_clearing [] vs -> retained held vs (held ++ taken vs)
  | rt_since : forall vs1 v vs2,
      clears vs1 (arrived v) -> no_clearing (vs1 ++ [v]) vs2 -> retained held (vs1 ++ v :: vs2) (sample (snd v) ++ taken vs2).

  (** It is active at [q]. *)
  Definition awake (vs : list visit) (q : Z) : Prop :=
    match limit with
    | None => True
    | Some d => exists r, last_record vs r /\ q - r < d
    end.
End Limit.

(** ** In a driver *)

Section Driver.
  Context {X : ext} {Y : pext}.

  (** The instrument [x] of the processor [t] in the driver [d]; the driver runs for
      [n] iterations and then answers a request for a snapshot. *)
  Record followed (k : cfg) (n : nat) (d : driver X Y) (w : dworld X Y) (d' : driver X Y) (w' : dworld X Y) (path : list place) (t : tele X)
    (at_ : list nat) (names : list string) (gs : list guard) (on : lab X -> bool) (x : leaf X) (b : nat) (de : bool) (d'' : driver X Y) (w'' : dworld X Y)
    : Prop := Followed {
    fo_runs : iterates k n d w d' w';
    fo_ok : driver_ok w;
    fo_alone : nobody_else (QueueReceiver (tp_receiver t)) w;
    fo_among : among (QueueReceiver (tp_receiver t)) (dr_processors d) path t;
    fo_site : tele_site t at_ names gs on x;
    fo_answers : driver_command d' (call_snapshot b de) k w' = Ok d'' w''
  }.

  Definition clock_of (w : dworld X Y) : clock := w_clock (dw_world w).

  (** The messages taken from the queue of the processor meanwhile are those of the
      collections [es]; unless the instrument is removed, the observations [os] of
      them that reach it satisfy [P] together with the fields that it shows in the
      snapshot, if it is not hidden. *)
  Definition in_the_end (n : nat) (d : driver X Y) (w w' : dworld X Y) (path : list place) (t : tele X) (at_ : list nat) (names : list string)
    (gs : list guard) (on : lab X -> bool) (b : nat) (w'' : dworld X Y) (P : list (observation (lab X)) -> snapshot -> Prop) : Prop :=
    exists css es added,
      List.length css = n /\ Forall (fun cs => (List.length cs <= 1)%nat) css /\ moved (dw_commands w) (dw_commands w') (concat css)
      /\ map (@en_strategy X) es = strategies (dr_strategy d) (dr_paused d) css
      /\ moved (queue_of (tp_receiver t) w) (queue_of (tp_receiver t) w') (flat_map (@en_messages X) es)
      /\ dw_answers w'' = dw_answers w' ++ [(b, added)]
      /\ (Forall (spares (owners at_ (layout t))) (flat_map en_messages es) ->
          exists os gs', seen on es os /\ guards_on path gs gs'
            /\ shown_unless_hidden (clock_of w') (opt_list (dr_name d) ++ names_on path ++ names) gs' added (clock_of w'') (P os)).
End Driver.
