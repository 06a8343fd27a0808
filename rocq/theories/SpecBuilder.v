(** What the functions of a [DriverBuilder] ask for. *)
From Coq Require Import String List.
From Verif Require Import ModelProcessor ModelConfig.

Definition b_name c := match c with BName n => Some (Some n) | _ => None end.
Definition b_title c := match c with BTitle t => Some (Some t) | _ => None end.
Definition b_description c := match c with BDescription t => Some (Some t) | _ => None end.
Definition b_strategy c := match c with BStrategy s => Some s | _ => None end.
Definition b_metrics c := match c with BMetrics e => Some e | _ => None end.

(** The ways to get a builder, with the name it has. *)
Inductive new_builder : option string -> builder -> Prop :=
| nb_default : new_builder None builder_default
| nb_named : forall n, new_builder (Some n) (builder_new n).
