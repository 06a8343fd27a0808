(** Which labels an instrument is told about. *)
From Coq Require Import ZArith Bool List.
From Verif Require Import Base ModelObservation ModelLabelFilter ModelGauge ModelInstrument ModelConfig.
Import ListNotations.
Open Scope Z_scope.

(** The ways to say it *)
Inductive choice (L : Type) :=
| ForLabel (l : L)
| ForLabels (ls : list L)
| ForAllLabels
| ForLabelsBy (p : L -> bool)
| ForNoLabels.
Arguments ForLabel {L}.
Arguments ForLabels {L}.
Arguments ForAllLabels {L}.
Arguments ForLabelsBy {L}.
Arguments ForNoLabels {L}.

Definition chosen {L} (ch : choice L) (l : L) : Prop :=
  match ch with
  | ForLabel a => l = a
  | ForLabels ls => In l ls
  | ForAllLabels => True
  | ForLabelsBy p => p l = true
  | ForNoLabels => False
  end.

Definition label_of {L} (o : observation L) : L :=
  match o with Observed l _ _ | ObservedOne l _ | ObservedOneValue l _ _ => l end.

(** An observation without its label *)
Definition content {L} (o : observation L) : update :=
  match o with
  | Observed _ n t => Observations n t
  | ObservedOne _ t => OneObservation t
  | ObservedOneValue _ v t => ObservationWithValue v t
  end.
Definition time_of {L} (o : observation L) : Z :=
  match o with Observed _ _ t | ObservedOne _ t | ObservedOneValue _ _ t => t end.
Definition is_change (u : update) : Prop :=
  match u with ObservationWithValue (ChangedBy _) _ => True | _ => False end.

(** [us] is what an instrument is to see of the observations. *)
Inductive sees {L} (ch : choice L) : list (observation L) -> list update -> Prop :=
| sees_nil : sees ch [] []
| sees_one : forall o os us, chosen ch (label_of o) -> sees ch os us -> sees ch (o :: os) (content o :: us)
| sees_not : forall o os us, ~ chosen ch (label_of o) -> sees ch os us -> sees ch (o :: os) us.

(** The same if the user's function [f] makes something else of each observation. *)
Inductive sees_as {L} (ch : choice L) (f : L -> update -> update) : list (observation L) -> list update -> Prop :=
| sa_nil : sees_as ch f [] []
| sa_one : forall o os us, chosen ch (label_of o) -> sees_as ch f os us -> sees_as ch f (o :: os) (f (label_of o) (content o) :: us)
| sa_not : forall o os us, ~ chosen ch (label_of o) -> sees_as ch f os us -> sees_as ch f (o :: os) us.

(** The same if only changes are wanted. *)
Inductive sees_changes {L} (ch : choice L) : list (observation L) -> list update -> Prop :=
| sc_nil : sees_changes ch [] []
| sc_one : forall o os us, chosen ch (label_of o) -> is_change (content o) ->
    sees_changes ch os us -> sees_changes ch (o :: os) (content o :: us)
| sc_not : forall o os us, ~ (chosen ch (label_of o) /\ is_change (content o)) ->
    sees_changes ch os us -> sees_changes ch (o :: os) us.

(** One up for the labels of [inc], one down for the others of [dec]. *)
Inductive sees_steps {L} (inc dec : choice L) : list (observation L) -> list update -> Prop :=
| ss_nil : sees_steps inc dec [] []
| ss_up : forall o os us, chosen inc (label_of o) -> sees_steps inc dec os us ->
    sees_steps inc dec (o :: os) (ObservationWithValue (ChangedBy 1) (time_of o) :: us)
| ss_down : forall o os us, ~ chosen inc (label_of o) -> chosen dec (label_of o) -> sees_steps inc dec os us ->
    sees_steps inc dec (o :: os) (ObservationWithValue (ChangedBy (-1)) (time_of o) :: us)
| ss_not : forall o os us, ~ chosen inc (label_of o) -> ~ chosen dec (label_of o) -> sees_steps inc dec os us ->
    sees_steps inc dec (o :: os) us.

(** The functions that are called for a choice *)
Definition attached {X : ext} {I} (ch : choice (lab X)) (i : I) : list (adapter X I) :=
  match ch with
  | ForLabel l => [adapter_for_label l i; instr_for_label i l]
  | ForLabels ls => [adapter_for_labels ls i; instr_for_labels i ls]
  | ForAllLabels =>
      [adapter_new i; adapter_from i; instr_for_all_labels i; adapter_accept_all_labels (adapter_deaf i)]
  | ForLabelsBy p => [adapter_by_predicate p i; instr_for_labels_by_predicate i p]
  | ForNoLabels => [adapter_deaf i; instr_adapter i; adapter_accept_no_labels (adapter_new i)]
  end.

(** A function that modifies updates can be given before or after the choice. *)
Definition attached_modified {X : ext} {I} (ch : choice (lab X)) (f : lab X -> update -> update) (i : I) : list (adapter X I) :=
  map (fun a => adapter_modify_with a f) (attached ch i)
  ++ match ch with
     | ForAllLabels => [adapter_accept_all_labels (adapter_modify_with (adapter_deaf i) f)]
     | ForNoLabels => [adapter_accept_no_labels (adapter_modify_with (adapter_new i) f)]
     | _ => []
     end.

Section Gauges.
  Context {L : Type} (eqb : L -> L -> bool).
  Definition attached_gauge (ch : choice L) (g : gauge) : list (gauge_adapter L) :=
    match ch with
    | ForLabel l => [ga_for_label eqb l g; gauge_for_label eqb g l]
    | ForLabels ls => [ga_for_labels eqb ls g; gauge_for_labels eqb g ls]
    | ForAllLabels => [ga_new g; ga_from g; gauge_for_all_labels g]
    | ForLabelsBy p => [ga_for_labels_by_predicate p g; gauge_for_labels_by_predicate g p]
    | ForNoLabels => [ga_deaf g; gauge_adapter_of g]
    end.
  Definition attached_deltas (ch : choice L) (g : gauge) : list (gauge_adapter L) :=
    match ch with
    | ForLabel l => [ga_for_label_deltas_only eqb l g; gauge_for_label_deltas_only eqb g l]
    | ForLabels ls => [ga_for_labels_deltas_only eqb ls g; gauge_for_labels_deltas_only eqb g ls]
    | ForAllLabels => [ga_deltas_only accept_all g; gauge_deltas_only g accept_all]
    | ForLabelsBy p =>
        [ga_for_labels_deltas_only_by_predicate p g; gauge_for_labels_deltas_only_by_predicate g p]
    | ForNoLabels => [ga_deltas_only accept_none g; gauge_deltas_only g accept_none]
    end.
  Definition attached_steps (inc dec : choice L) (g : gauge) : list (gauge_adapter L) :=
    match inc, dec with
    | ForLabel a, ForLabel b =>
        [ga_inc_dec_on (from_label eqb a) (from_label eqb b) g;
         gauge_inc_dec_on g (from_label eqb a) (from_label eqb b)]
    | ForLabels a, ForLabels b => [ga_inc_dec_on_many eqb a b g; gauge_inc_dec_on_many eqb g a b]
    | ForLabelsBy p, ForLabelsBy q => [ga_inc_dec_by_predicates p q g; gauge_inc_dec_by_predicates g p q]
    | ForLabels a, ForLabelsBy q => [ga_inc_dec_on (from_vec eqb a) (predicate q) g]
    | _, _ => []
    end.
End Gauges.
