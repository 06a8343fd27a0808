(** Specification of a driver that goes on undisturbed. *)
From Coq Require Import ZArith Bool String List.
From Verif Require Import Base SpecRun SpecClock ModelObservation ModelSnapshot ModelInstrument ModelTree
  ModelChannel ModelProcessor ModelTransmitter ModelDriver SpecTree SpecQueue SpecCollect SpecDriver SpecChronicle SpecSite SpecHandle.
Import ListNotations.
Open Scope Z_scope.

Section Total.
  Context {X : ext} {Y : pext}.

  (** Neither pauses the driver nor changes its strategy *)
  Definition steady_command (c : command X Y) : Prop :=
    match c with CPause | CSetProcessingStrategy _ => False | _ => True end.
  Definition steady (w : dworld X Y) : Prop :=
    Forall steady_command (ch_queue (dw_commands w))
    /\ forall n, Forall (fun a => match a with Call c => steady_command c | _ => True end) (dw_sched w n).

  (** The observations with one of the labels [on] *)
  Definition reaching (on : lab X -> bool) (os : list (observation (lab X))) : list (observation (lab X)) :=
    filter (fun o => on (obs_label o)) os.

  (** Observations are sent with a transmitter between two iterations. *)
  Definition sends_all (tx : transmitter) (os : list (observation (lab X))) (w : dworld X Y) : dworld X Y :=
    fold_left (fun w o => does (OnQueue (tx_sender tx) (transmit tx o)) w) os w.
End Total.
