(** What configuring a component is supposed to do: each option has the value it
    was given last, whatever happened before, in between and afterwards. *)
From Coq Require Import ZArith Bool String List Floats.SpecFloat.
From Verif Require Import Base SpecRun ModelObservation ModelSnapshot ModelSwitches ModelConfig.
Import ListNotations.
Open Scope Z_scope.

(** What happens to an instrument: a setter is called, an observation arrives. *)
Inductive event {U : Type} :=
| Sets (s : setting)
| Arrives (u : U).
Arguments event : clear implicits.

(** A component with the given functions lives through an event. *)
Definition live {A U} (config : A -> setting -> M A) (upd : A -> U -> M (A * Z)) (x : A) (e : event U)
  : M (A * Z) :=
  match e with
  | Sets s => let* x := config x s in ret (x, 0)
  | Arrives u => upd x u
  end.

(** The value given last; [default] if there was none. *)
Definition latest {Op A} (pick : Op -> option A) (default : A) (l : list Op) : A :=
  fold_left (fun a o => match pick o with Some b => b | None => a end) l default.

Definition asked {A U} (pick : setting -> option A) (default : A) (h : list (event U)) : A :=
  latest (fun e => match e with Sets s => pick s | Arrives _ => None end) default h.

(** The options. *)
Definition a_name s := match s with SetName n => Some n | _ => None end.
Definition a_title s := match s with SetTitle t => Some (Some t) | _ => None end.
Definition a_description s := match s with SetDescription t => Some (Some t) | _ => None end.
Definition a_group s := match s with SetGroup b => Some b | _ => None end.
Definition a_unit s := match s with SetUnit u => Some u | _ => None end.
Definition a_cutoff s := match s with SetCutoff f => Some f | _ => None end.
Definition a_one s := match s with SetOneMinute b => Some b | _ => None end.
Definition a_five s := match s with SetFiveMinutes b => Some b | _ => None end.
Definition a_fifteen s := match s with SetFifteenMinutes b => Some b | _ => None end.
Definition a_limit s := match s with SetLimit d => Some (Some d) | _ => None end.
Definition a_reset s := match s with SetReset b => Some b | _ => None end.
Definition a_show_activity s := match s with SetShowActivity b => Some b | _ => None end.
Definition a_show_inverted s := match s with SetShowInverted a => Some (Some a) | _ => None end.
Definition a_invert s := match s with SetInvert b => Some b | _ => None end.
Definition a_off_after s := match s with SetSwitchOffAfter d => Some d | _ => None end.
Definition a_within s := match s with SetWithin d => Some d | _ => None end.
Definition a_none_zero s := match s with SetNoneZero b => Some b | _ => None end.
Definition a_reset_after s := match s with SetResetAfter d => Some (Some d) | _ => None end.
Definition a_reset_value s := match s with SetResetValue v => Some (Some v) | _ => None end.
Definition a_opt_name s := match s with SetName n => Some (Some n) | _ => None end.

(** The settings that only concern the presentation. *)
Definition presentation (s : setting) : bool :=
  match s with
  | SetName _ | SetTitle _ | SetDescription _ | SetGroup _ | SetCutoff _ | SetOneMinute _
  | SetFiveMinutes _ | SetFifteenMinutes _ | SetShowActivity _ | SetShowInverted _ | SetInvert _
  | SetNoneZero _ => true
  | _ => false
  end.

(** The history as it would have been without them. *)
Definition unadorned {U} (h : list (event U)) : list (event U) :=
  filter (fun e => match e with Sets s => negb (presentation s) | Arrives _ => true end) h.

(** The fields a descriptive snapshot has for an instrument. *)
Definition text_field (label : string) (t : option string) : snapshot :=
  match t with Some t => [(label, Text t)] | None => [] end.
Definition descriptive_fields {U} (descriptive : bool) (name : string) (h : list (event U)) : snapshot :=
  if descriptive then
    text_field ("_title_" ++ name) (asked a_title None h) ++
    text_field ("_description_" ++ name) (asked a_description None h)
  else [].

(** The name of the field with the inverted value. *)
Definition inverted_name (a : name_alternation) (name : string) : string :=
  match a with
  | Prefix p => (p ++ name)%string
  | Postfix p => (name ++ p)%string
  | Rename n => n
  end.

(** A gauge that is asked to remember values: for some seconds. *)
Definition a_tracking s := match s with SetTracking (S _) => Some true | _ => None end.

Definition tracked_labels : list string :=
  ["peak"; "peak_min"; "peak_avg"; "bottom"; "bottom_max"; "bottom_avg"; "avg"]%string.

(** The fields of a gauge: one level with short labels, or everything with the
    name of the gauge in front. *)
Definition gauge_fields (group : bool) (name : string) (v : option Z) (tracked : snapshot) : snapshot :=
  match v with
  | None => if group then [(name, ItemSnapshot [])] else []
  | Some v =>
      if group then [(name, ItemSnapshot (("current"%string, Int v) :: tracked))]
      else (name, Int v) :: map (fun '(l, i) => ((name ++ "_" ++ l)%string, i)) tracked
  end.

(** 0.001 as a double *)
Definition one_thousandth : f64 := S754_finite false 4611686018427388 (-62).

(** A rate as it is shown *)
Definition rate_field (shown : bool) (label : string) (cutoff r : f64) : snapshot :=
  if shown then [(label, ItemSnapshot [("rate"%string, Float (if f64_ltb r cutoff then f64_zero else r))])]
  else [].

(** The fields of a meter with all rates, nothing cut off *)
Definition meter_fields (name : string) (n : Z) (one five fifteen : snapshot) : snapshot :=
  [(name, ItemSnapshot (("count"%string, UInt n) :: one ++ five ++ fifteen))].
Definition plain_rate (label : string) (r : f64) : snapshot :=
  [(label, ItemSnapshot [("rate"%string, Float r)])].

(** A meter that shows everything it knows *)
Definition show_everything : list setting :=
  [SetOneMinute true; SetFiveMinutes true; SetFifteenMinutes true; SetCutoff (S754_infinity true)].
Fixpoint configured {A} (config : A -> setting -> M A) (x : A) (l : list setting) : M A :=
  match l with
  | [] => ret x
  | s :: rest => let* x := config x s in configured config x rest
  end.

(** The labels in the level of a histogram *)
Definition histogram_labels (l : list string) : Prop :=
  l = [] \/ l = ["count"%string] \/
  l = ["count"; "max"; "min"; "mean"; "stddev"; "quantiles"]%string.

(** The fields of a switch: its state and, if asked for, the opposite under
    another name. The state is asked for twice. *)
Definition switch_fields (state : M bool) (pre : snapshot) (name : string) (invert : bool)
  (other : option name_alternation) : M snapshot :=
  let* s := state in
  match other with
  | None => ret (pre ++ [(name, Boolean (xorb invert s))])
  | Some a =>
      let* s2 := state in
      ret (pre ++ [(name, Boolean (xorb invert s)); (inverted_name a name, Boolean (negb (xorb invert s2)))])
  end.

(** The observations alone *)
Definition arrivals {U} (h : list (event U)) : list (event U) :=
  filter (fun e => match e with Sets _ => false | Arrives _ => true end) h.

(** The level of a panel, cockpit, processor or mount: [contents] writes what is in
    it, [last] is the moment since when there was no activity. *)
Definition group_fields (name title description : option string) (limit : option Z) (show : bool)
  (descriptive : bool) (last : Z) (contents : snapshot -> M snapshot) : M snapshot :=
  let pre :=
    if descriptive then text_field "_title" title ++ text_field "_description" description else [] in
  let level :=
    match limit, show with
    | Some limit, true =>
        let* e := elapsed last in
        if limit <? e then ret (pre ++ [("_inactive"%string, Boolean true); ("_active"%string, Boolean false)])
        else contents (pre ++ [("_inactive"%string, Boolean false); ("_active"%string, Boolean true)])
    | _, _ => contents pre
    end in
  match name with
  | Some n => let* s := level in ret [(n, ItemSnapshot s)]
  | None => level
  end.

(** Only what is written *)
Definition written {A} (m : M (A * snapshot)) : M snapshot := let* '(_, s) := m in ret s.

(** Constant values and polling instruments take no observations. *)
Definition nothing_arrives {A} (x : A) (_ : update) : M (A * Z) := ret (x, 0).
