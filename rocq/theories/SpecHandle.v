(** Specification of what is put through the handles of attached mounts. *)
From Coq Require Import ZArith Bool String List.
From Verif Require Import Base SpecRun SpecClock ModelObservation ModelSnapshot ModelInstrument ModelTree
  ModelChannel ModelProcessor ModelDriver SpecQueue SpecCollect SpecDriver SpecChronicle.
Import ListNotations.
Open Scope Z_scope.

Section Handle.
  Context {X : ext} {Y : pext}.

  (** In Rust the receiver of a channel exists once. [R] are some receivers; a
      processor, or what it consists of, has one of them: *)
  Definition held (R : receiver -> Prop) (p : processor X Y) : Prop := exists r, R r /\ holds r p.

  (** [q] is [p] itself or a processor in the mounts of [p]; [path]: the way to it, as for
      [located]. All else in [p] has none of the receivers [R]. *)
  Inductive inside (R : receiver -> Prop) : processor X Y -> list place -> processor X Y -> Prop :=
  | in_here : forall q, inside R q [] q
  | in_mount : forall d ps ss path q, inside_one R ps path q -> inside R (PMount (Mount d ps ss)) (Level (md_name d) (md_limit d) :: path) q
  | in_attached : forall i d ps ss path q,
      (forall j, i = Some j -> ~ R (MountReceiver j)) -> inside_one R ps path q ->
      inside R (PAttached i (Mount d ps ss)) (Level (md_name d) (md_limit d) :: path) q
  with inside_one (R : receiver -> Prop) : list (processor X Y) -> list place -> processor X Y -> Prop :=
  | io_at : forall before p after path q,
      Forall (fun p => ~ held R p) before -> inside R p path q -> Forall (fun p => ~ held R p) after ->
      inside_one R (before ++ p :: after) (Position (length before) :: path) q.

  (** A thread does something on a channel while the driver does not. *)
  Definition does (a : action X Y) (w : dworld X Y) : dworld X Y :=
    DWorld (act (dw_world w) a) (dw_commands w) (dw_guards w) (dw_running w) (dw_answers w) (dw_unanswered w) (dw_sched w).

  (** A channel as created by [unbounded()], of which a sender and the receiver are alive *)
  Definition usable {A} (c : chan A) : Prop := ch_cap c = None /\ ch_receiver c = true /\ ch_senders c <> O.

  Definition channel_of (j : nat) (w : dworld X Y) : chan (mount_message X Y) := w_mounts (dw_world w) j.

  (** An attached mount whose channel is [j]: [r] is its receiver, which is gone when
      nothing will be put any more; no other mount in it has the receiver. *)
  Definition listens (j : nat) (r : option nat) (ps : list (processor X Y)) (v : world X Y) : Prop :=
    Forall (fun p => ~ held (fun r => r = MountReceiver j) p) ps /\ chan_ok (w_mounts v j) /\ (r = Some j \/ r = None /\ exhausted (w_mounts v j)).
End Handle.
