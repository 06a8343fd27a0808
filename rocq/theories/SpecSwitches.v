(** Specification of flags, timed switches, last occurrences and displays. *)
From Coq Require Import ZArith Bool String List.
From Verif Require Import Base SpecRun ModelObservation ModelSnapshot ModelSwitches.
Import ListNotations.
Open Scope Z_scope.

(** ** Flags *)

(** The truth value an update stands for. *)
Inductive truth : update -> option bool -> Prop :=
| truth_bool : forall b t, truth (ObservationWithValue (BoolValue b) t) (Some b)
| truth_signed : forall z t, z <> 0 -> truth (ObservationWithValue (SignedInteger z) t) (Some true)
| truth_signed_0 : forall t, truth (ObservationWithValue (SignedInteger 0) t) (Some false)
| truth_unsigned : forall z t, z <> 0 -> truth (ObservationWithValue (UnsignedInteger z) t) (Some true)
| truth_unsigned_0 : forall t, truth (ObservationWithValue (UnsignedInteger 0) t) (Some false)
| truth_float : forall f t, truth (ObservationWithValue (FloatValue f) t) None
| truth_duration : forall d u t, truth (ObservationWithValue (DurationValue d u) t) None
| truth_change : forall d t, truth (ObservationWithValue (ChangedBy d) t) None
| truth_one : forall t, truth (OneObservation t) None
| truth_many : forall n t, truth (Observations n t) None.

(** The last of some optional values, [init] if there is none. *)
Inductive last_of {A} (init : option A) : list (option A) -> option A -> Prop :=
| last_none : forall l, Forall (fun o => o = None) l -> last_of init l init
| last_some : forall l1 x l2, Forall (fun o => o = None) l2 -> last_of init (l1 ++ Some x :: l2) (Some x).

(** ** Timed histories *)

(** An observation arrives, or the period is configured. *)
Inductive switch_op :=
| Tap (u : update)
| Configure (d : Z).

(** Every operation with its clock; an operation happens at the first reading. *)
Definition history := list (clock * switch_op).

Definition happens (c : clock) : Z := c O.

Inductive in_order {Op : Type} : Z -> list (clock * Op) -> Z -> Prop :=
| ino_nil : forall t q, t <= q -> in_order t [] q
| ino_cons : forall t c o h q, t <= happens c -> in_order (happens c) h q -> in_order t ((c, o) :: h) q.

Definition is_tap (o : switch_op) : bool := match o with Tap _ => true | Configure _ => false end.

Definition no_taps (h : history) : Prop := Forall (fun e => is_tap (snd e) = false) h.
Definition no_config (h : history) : Prop := Forall (fun e => is_tap (snd e) = true) h.

(** [h] contains an observation at time [u]. *)
Definition tapped_at (h : history) (u : Z) : Prop := exists c up, In (c, Tap up) h /\ happens c = u.

(** The period in force after [h]. *)
Inductive period (d0 : Z) : history -> Z -> Prop :=
| period_initial : forall h, no_config h -> period d0 h d0
| period_configured : forall h1 c d h2, no_config h2 -> period d0 (h1 ++ (c, Configure d) :: h2) d.

(** The last observation in [h]. *)
Inductive last_tap : history -> history -> Z -> Prop :=
| lt_intro : forall h1 c u h2, no_taps h2 -> last_tap (h1 ++ (c, Tap u) :: h2) h1 (happens c).

(** The part of [h] since the last configuration. *)
Inductive since_config : history -> history -> Prop :=
| sc_never : forall h, no_config h -> since_config h h
| sc_config : forall h1 c d h2, no_config h2 -> since_config (h1 ++ (c, Configure d) :: h2) h2.

(** ** Displays *)

Inductive display_op :=
| Show (u : update)
| SetResetAfter (d : Z)
| SetResetValue (v : item_kind).

(** What is displayed of an observation. *)
Definition displayable (u : update) : option item_kind :=
  match u with
  | ObservationWithValue (SignedInteger z) _ => Some (Int z)
  | ObservationWithValue (UnsignedInteger z) _ => Some (UInt z)
  | ObservationWithValue (FloatValue f) _ => Some (Float f)
  | ObservationWithValue (BoolValue b) _ => Some (Boolean b)
  | _ => None
  end.

Definition display_history := list (clock * display_op).

(** The current value: the last displayable observation or reset value. *)
Definition sets_value (e : clock * display_op) : option item_kind :=
  match snd e with
  | Show u => displayable u
  | SetResetAfter _ => None
  | SetResetValue v => Some v
  end.

Definition sets_reset_value (e : clock * display_op) : option item_kind :=
  match snd e with SetResetValue v => Some v | _ => None end.

Definition sets_reset_after (e : clock * display_op) : option Z :=
  match snd e with SetResetAfter d => Some d | _ => None end.

(** When the last displayed observation expires: never, if no period was
    configured when it arrived. *)
Inductive expires : display_history -> option Z -> Prop :=
| exp_nothing : forall h,
    Forall (fun e => forall u, snd e = Show u -> displayable u = None) h -> expires h None
| exp_never : forall h1 c u v h2,
    displayable u = Some v -> Forall (fun e => forall u, snd e = Show u -> displayable u = None) h2 ->
    Forall (fun e => sets_reset_after e = None) h1 ->
    expires (h1 ++ (c, Show u) :: h2) None
| exp_at : forall h1 c u v h2 d,
    displayable u = Some v -> Forall (fun e => forall u, snd e = Show u -> displayable u = None) h2 ->
    last_of None (map sets_reset_after h1) (Some d) ->
    expires (h1 ++ (c, Show u) :: h2) (Some (happens c + d)).

(** ** Running histories *)

Definition staircase_op (t : staircase_timer) (o : switch_op) : M staircase_timer :=
  match o with
  | Tap u => let* '(t', _) := staircase_update t u in ret t'
  | Configure d => ret (staircase_set_switch_off_after t d)
  end.

Definition occurrence_op (x : occurrence_indicator) (o : switch_op) : M occurrence_indicator :=
  match o with
  | Tap u => let* '(x', _) := occurrence_update x u in ret x'
  | Configure d => occurrence_set_if_happened_within x d
  end.

Definition non_occurrence_op (x : non_occurrence_indicator) (o : switch_op) : M non_occurrence_indicator :=
  match o with
  | Tap u => let* '(x', _) := non_occurrence_update x u in ret x'
  | Configure d => ret (non_occurrence_set_if_not_happened_within x d)
  end.

Definition last_occurrence_op (x : last_occurrence_tracker) (u : update) : M last_occurrence_tracker :=
  let* '(x', _) := last_occurrence_update x u in ret x'.

Definition display_op_step (x : data_display) (o : display_op) : M data_display :=
  match o with
  | Show u => let* '(x', _) := display_update x u in ret x'
  | SetResetAfter d => ret (display_set_reset_after x d)
  | SetResetValue v => ret (display_set_reset_value x v)
  end.

(** A new switch with its settings. *)
Definition staircase_with (t : staircase_timer) (invert : bool) (sh : option name_alternation) : staircase_timer :=
  let t := staircase_set_invert t invert in
  match sh with Some a => staircase_set_show_inverted t a | None => t end.

Definition occurrence_with (x : occurrence_indicator) (invert : bool) (sh : option name_alternation)
  : occurrence_indicator :=
  let x := occurrence_set_invert x invert in
  match sh with Some a => occurrence_set_show_inverted x a | None => x end.

Definition non_occurrence_with (x : non_occurrence_indicator) (invert : bool) (sh : option name_alternation)
  : non_occurrence_indicator :=
  let x := non_occurrence_set_invert x invert in
  match sh with Some a => non_occurrence_set_show_inverted x a | None => x end.

(** What a switch shows: its field and, if configured, the inverted field. *)
Definition switch_shows (name : string) (b : bool) (inverted : option (name_alternation * bool)) : snapshot :=
  (name, Boolean b)
  :: match inverted with
     | None => []
     | Some (Prefix p, i) => [((p ++ name)%string, Boolean i)]
     | Some (Postfix p, i) => [((name ++ p)%string, Boolean i)]
     | Some (Rename n, i) => [(n, Boolean i)]
     end.
