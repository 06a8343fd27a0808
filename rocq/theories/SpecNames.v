(** Specification of names, of adding and removing, and of the strategies. *)
From Coq Require Import ZArith Bool String List.
From Verif Require Import Base ModelObservation ModelInstrument ModelTree ModelProcessor.
Import ListNotations.
Open Scope Z_scope.

(** The names that occur, unnamed components left out. *)
Definition names_of {A} (name : A -> option string) (l : list A) : list string :=
  flat_map (fun x => match name x with Some n => [n] | None => [] end) l.

(** [without P l l']: [l'] is [l] without the elements that satisfy [P], in the same order. *)
Inductive without {A} (P : A -> Prop) : list A -> list A -> Prop :=
| wo_nil : without P [] []
| wo_gone : forall x l l', P x -> without P l l' -> without P (x :: l) l'
| wo_kept : forall x l l', ~ P x -> without P l l' -> without P (x :: l) (x :: l').

Section Names.
  Context {X : ext}.

  (** Panel names are unique in a cockpit. *)
  Definition cockpit_unique (c : cockpit X) : Prop := NoDup (names_of panel_name (c_panels c)).

  (** Cockpit names are unique in a processor, and panel names in each of its cockpits. *)
  Definition tele_unique (t : tele X) : Prop :=
    NoDup (names_of cockpit_name (tp_cockpits t)) /\ Forall cockpit_unique (tp_cockpits t).

  (** What can be done with a cockpit. *)
  Inductive cockpit_op :=
  | AddPanel (p : panel X)
  | RemovePanel (n : string)
  | CockpitObserves (o : observation (lab X)).

  Definition cockpit_step (c : cockpit X) (o : cockpit_op) : M (cockpit X) :=
    match o with
    | AddPanel p => ret (cockpit_add_panel c p)
    | RemovePanel n => ret (cockpit_remove_panel c n)
    | CockpitObserves o => let* '(c, _) := cockpit_handle c o in ret c
    end.

  (** What can be done with a processor: directly, before it is mounted, or by
      messages (with any decision about observations). *)
  Inductive tele_op :=
  | AddCockpit (c : cockpit X)
  | RemoveCockpit (n : string)
  | TeleMessage (d : decider) (m : message X).

  Definition tele_step (t : tele X) (o : tele_op) : M (tele X) :=
    match o with
    | AddCockpit c => ret (tele_add_cockpit t c)
    | RemoveCockpit n => ret (tele_remove_cockpit t n)
    | TeleMessage d m => let* '(t, _) := tele_message d t (Counts 0 0 0) m in ret t
    end.

  (** The cockpits that are added have unique panel names themselves. *)
  Definition op_fine (o : tele_op) : Prop :=
    match o with
    | AddCockpit c | TeleMessage _ (MAddCockpit c) => cockpit_unique c
    | _ => True
    end.

  (** The command [m] turns [t] into [t'], counts as processed and does nothing else. *)
  Definition commanded (d : decider) (t : tele X) (n : counts) (m : message X) (t' : tele X) : Prop :=
    forall k c, tele_message d t n m k c
    = match add_usize (ct_processed n) 1 k c with
      | Ok p c' => Ok (t', Counts p (ct_dropped n) (ct_updated n)) c'
      | Panic => Panic
      | NoFuel => NoFuel
      end.

  (** ** Strategies *)

  Inductive delta_observation : observation (lab X) -> Prop :=
  | delta_intro : forall l d t, delta_observation (ObservedOneValue l (ChangedBy d) t).

  (** Whether an observation is kept by a collection that starts at [start]. *)
  Definition kept_by (s : strategy) (start : Z) (o : observation (lab X)) : Prop :=
    match s with
    | ProcessAll => True
    | DropAll => False
    | DropOlderThan max_age drop_deltas =>
        start - obs_timestamp o <= max_age \/ (delta_observation o /\ drop_deltas = false)
    end.
End Names.
