(** Specification of where the snapshooters of mounts and drivers are shown. *)
From Coq Require Import ZArith Bool String List.
From Verif Require Import Base SpecRun SpecClock ModelObservation ModelSnapshot ModelInstrument ModelTree ModelChannel ModelProcessor ModelDriver
  SpecTree SpecQueue SpecCollect SpecChronicle SpecSite.
Import ListNotations.
Open Scope Z_scope.

Section Shown.
  Context {X : ext} {Y : pext}.

  (** [processor_shows p path names gs s]: the snapshooter [s] is one of the
      snapshooters of a mount that is [p] or somewhere below it, [path]: the way to
      it; [names] and [gs]: the names of the mounts on the way (unnamed ones left out)
      and what may hide it. *)
  Inductive processor_shows : processor X Y -> list place -> list string -> list guard -> snapshooter X -> Prop :=
  | sh_mount : forall m path names gs s, mount_shows m path names gs s -> processor_shows (PMount m) path names gs s
  | sh_attached : forall r m path names gs s, mount_shows m path names gs s -> processor_shows (PAttached r m) path names gs s
  with mount_shows : mount X Y -> list place -> list string -> list guard -> snapshooter X -> Prop :=
  | sh_here : forall d ps ss j s,
      nth_error ss j = Some s ->
      mount_shows (Mount d ps ss) [Level (md_name d) (md_limit d); Position j] (opt_list (md_name d)) [mount_guard d] s
  | sh_below : forall d ps ss j p path names gs s,
      nth_error ps j = Some p -> processor_shows p path names gs s ->
      mount_shows (Mount d ps ss) (Level (md_name d) (md_limit d) :: Position j :: path) (opt_list (md_name d) ++ names) (mount_guard d :: gs) s.

  (** A driver has snapshooters of its own and those of its mounts. *)
  Inductive driver_shows : driver X Y -> list place -> list string -> list guard -> snapshooter X -> Prop :=
  | sh_own : forall d j s,
      nth_error (dr_snapshooters d) j = Some s -> driver_shows d [Position j] (opt_list (dr_name d)) [] s
  | sh_processor : forall d j p path names gs s,
      nth_error (dr_processors d) j = Some p -> processor_shows p path names gs s ->
      driver_shows d (Position j :: path) (opt_list (dr_name d) ++ names) gs s.
End Shown.
