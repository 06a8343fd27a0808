(** Specification of the lives of counters, gauges and meters. *)
From Coq Require Import ZArith Bool String List.
From Verif Require Import Base SpecRun SpecClock SpecCounting SpecGauge SpecMeter ModelObservation ModelLabelFilter ModelSnapshot ModelGauge
  ModelMeter ModelInstrument SpecChronicle SpecSite.
Import ListNotations.
Open Scope Z_scope.

(** The update an observation stands for *)
Definition update_of {L} (o : observation L) : update :=
  match o with
  | Observed _ n t => Observations n t
  | ObservedOne _ t => OneObservation t
  | ObservedOneValue _ v t => ObservationWithValue v t
  end.

(** ... and what the user makes of it *)
Definition taken_as {L} (m : update_modifier L) (o : observation L) : update :=
  match m with
  | Some f => f (obs_label o) (update_of o)
  | None => update_of o
  end.

(** What an observation does to a gauge with this strategy, modifier and unit *)
Section Reaction.
  Context {L : Type} (eqb : L -> L -> bool).

  Inductive reacts (m : update_modifier L) (u : time_unit) : gauge_update_strategy L -> observation L -> effect -> Prop :=
  | re_deaf : forall f o, accepts eqb f (obs_label o) = false -> reacts m u (GFilter f) o Nothing
  | re_follows : forall f o e, accepts eqb f (obs_label o) = true -> update_ok (taken_as m o) ->
      update_effect u (taken_as m o) e -> reacts m u (GFilter f) o e
  | re_deaf_deltas : forall f o, accepts eqb f (obs_label o) = false -> reacts m u (GDeltasOnly f) o Nothing
  | re_delta : forall f o d t, accepts eqb f (obs_label o) = true -> in_i64 d ->
      taken_as m o = ObservationWithValue (ChangedBy d) t -> reacts m u (GDeltasOnly f) o (Changes d)
  | re_no_delta : forall f o, accepts eqb f (obs_label o) = true ->
      (forall d t, taken_as m o <> ObservationWithValue (ChangedBy d) t) -> reacts m u (GDeltasOnly f) o Nothing
  | re_inc : forall i d o, accepts eqb i (obs_label o) = true -> reacts m u (GIncDecOnLabels i d) o (Changes 1)
  | re_dec : forall i d o, accepts eqb i (obs_label o) = false -> accepts eqb d (obs_label o) = true ->
      reacts m u (GIncDecOnLabels i d) o (Changes (-1))
  | re_other : forall i d o, accepts eqb i (obs_label o) = false -> accepts eqb d (obs_label o) = false ->
      reacts m u (GIncDecOnLabels i d) o Nothing.
End Reaction.

(** The value at the beginning as an effect *)
Definition begins (v : option Z) : list effect := match v with Some z => [Sets z] | None => [] end.

(** Everything but value and tracking *)
Definition same_gauge (g g' : gauge) : Prop :=
  g_name g' = g_name g /\ g_descr g' = g_descr g /\ g_display_time_unit g' = g_display_time_unit g
  /\ g_group_values g' = g_group_values g.

(** The fields show the value of the gauge. *)
Definition shows_gauge (g : gauge) (v : option Z) (fields : snapshot) : Prop :=
  match v with
  | None => if g_group_values g then In (g_name g, ItemSnapshot []) fields else ~ exists z, In (g_name g, Int z) fields
  | Some z =>
      if g_group_values g then exists rest, In (g_name g, ItemSnapshot (("current"%string, Int z) :: rest)) fields
      else In (g_name g, Int z) fields
  end.

(** The marks are in order and between [a] and [b]. *)
Inductive between (a b : Z) : marks -> Prop :=
| bt_nil : a <= b -> between a b []
| bt_cons : forall t n l, a <= t -> between t b l -> between a b ((t, n) :: l).

Definition marked_amounts (us : list update) : list Z :=
  flat_map (fun u => match meter_amount u with Some n => [n] | None => [] end) us.

(** Below the names there are fields with the property, unless something hides
    them. *)
Definition shown_unless_hidden (c : clock) (names : list string) (gs : list guard) (added : snapshot) (c' : clock) (P : snapshot -> Prop) : Prop :=
  (exists fields, contains names fields added /\ P fields)
  \/ exists g c1, In g gs /\ later c c1 /\ later c1 c' /\ hides g (c1 O).

(** [gs'] are mounts with the limits on the way, followed by components that are
    alike those of [gs]. *)
Definition guards_on (path : list place) (gs gs' : list guard) : Prop :=
  exists gs1 gs2, gs' = gs1 ++ gs2 /\ map gu_limit gs1 = limits_on path /\ alike gs gs2.
