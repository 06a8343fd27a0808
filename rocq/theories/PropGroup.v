(** C39, C40: mounts and attached mounts. *)
From Coq Require Import ZArith Bool String List Lia.
From Verif Require Import Base SpecRun MonadFacts ModelObservation ModelLabelFilter ModelSnapshot ModelCounter
  ModelGauge ModelHistogram ModelSwitches ModelInstrument ModelTree ModelChannel ModelProcessor ModelTransmitter
  SpecQueue QueueProofs SpecCollect CollectProofs GroupProofs Toy.
Import ListNotations.
Open Scope string_scope.
Open Scope list_scope.
Open Scope Z_scope.

(** ** C39 *)

(** Every processor once, in order, each with the same bound and strategy; the
    outcomes are added. Nothing but the time of the last activity changes
    besides. *)
Theorem c39_mount : forall X Y k d (ps : list (processor X Y)) ss max s w p' o w',
  collects k (PMount (Mount d ps ss)) max s w p' o w' ->
  exists ps' os w1 d',
    collect_each k max s ps w ps' os w1
    /\ p' = PMount (Mount d' ps' ss) /\ (d' = d \/ d' = mount_touch d (w_clock w1 O))
    /\ o = wrapped os
    /\ w_queues w' = w_queues w1 /\ w_mounts w' = w_mounts w1.
Proof. exact @mount_collected. Qed.
Print Assumptions c39_mount.

Theorem c39_sums : forall os, outcomes_fit os ->
  wrapped os = Outcome (total oc_processed os) (total oc_dropped os) (total oc_instruments_updated os) (total oc_enqueued os).
Proof. exact wrapped_exact. Qed.
Print Assumptions c39_sums.

(** There is only one result, however deep the nesting may be assumed to be. *)
Theorem c39_definite : forall X Y k (p : processor X Y) max s w p1 o1 w1 p2 o2 w2,
  collects k p max s w p1 o1 w1 -> collects k p max s w p2 o2 w2 -> p1 = p2 /\ o1 = o2 /\ w1 = w2.
Proof. exact @collects_fun. Qed.
Print Assumptions c39_definite.

(** A telemetry processor and a mount with two more processors. *)
Definition group_tele (i : nat) : processor toy toyp := PTele (Tele None no_descr [toy_cockpit] [] i [] 0 None true false).
Definition group_user : processor toy toyp := PUser (7 : user_proc toyp).
Definition group_mount : processor toy toyp :=
  PMount (Mount (MountData (Some "outer") no_descr 0 None)
    [group_tele 1; PMount (Mount (MountData None no_descr 0 None) [group_tele 2; group_user] [])] []).
Definition tell (l : lab toy) (t : Z) : chan_action (message toy) := Send (MObservation (ObservedOne l t)).
Definition group_world : world toy toyp :=
  World (frozen 100) (fun _ => chan_new None) (fun _ => chan_new None)
    (fun n => match n with
              | 0%nat => [OnQueue 1 (tell la 1); OnQueue 2 (tell lb 2); OnQueue 2 (tell la 3); OnQueue 2 (tell la 4)]
              | _ => []
              end).

Example c39_case :
  match processor_process 5 group_mount 2 ProcessAll debug group_world with
  | Ok (_, o) _ => o = Outcome 4 0 (oc_instruments_updated o) 1 /\ oc_instruments_updated o <> 0
  | _ => False
  end.
Proof. vm_compute. split; [reflexivity | discriminate]. Qed.

(** ** C40 *)

(** Before a collection everything that is put is taken over, in order; then the
    mount is collected like any mount. The receiver is given up only if all
    handles are gone. *)
Theorem c40_collection : forall X Y k i d (ps : list (processor X Y)) ss max s w p' o w',
  collects k (PAttached (Some i) (Mount d ps ss)) max s w p' o w' ->
  exists w1 new r m',
    runs w w1
    /\ ch_accepted (w_mounts w1 i) = ch_accepted (w_mounts w i) ++ new
    /\ ch_queue (w_mounts w1 i) = []
    /\ collects k (PMount (Mount d (ps ++ put_processors (ch_queue (w_mounts w i) ++ new))
                             (ss ++ put_snapshooters (ch_queue (w_mounts w i) ++ new)))) max s w1 (PMount m') o w'
    /\ p' = PAttached r m'
    /\ (r = Some i \/ r = None /\ ch_senders (w_mounts w1 i) = O).
Proof. exact @attached_collected. Qed.
Print Assumptions c40_collection.

(** Afterwards it is collected like any mount. *)
Theorem c40_detached : forall X Y k (m : mount X Y) max s w p' o w',
  collects k (PAttached None m) max s w p' o w' <->
  exists m', collects k (PMount m) max s w (PMount m') o w' /\ p' = PAttached None m'.
Proof. exact @detached_collected. Qed.
Print Assumptions c40_detached.

(** Over any number of collections and snapshots each item becomes part of the
    mount exactly once, in the order of the calls, and stays there. *)
Theorem c40_exactly_once : forall X Y k (p : processor X Y) w p' w', proc_life k p w p' w' ->
  forall i d ps ss, p = PAttached (Some i) (Mount d ps ss) ->
  ~ Exists (holds (MountReceiver i)) ps -> foreign (MountReceiver i) w -> chan_ok (w_mounts w i) ->
  exists xs r d' ps' ss',
    p' = PAttached r (Mount d' ps' ss')
    /\ moved (w_mounts w i) (w_mounts w' i) xs
    /\ Forall2 (evolves k) (ps ++ put_processors xs) ps'
    /\ Forall2 (snapshooter_evolves k) (ss ++ put_snapshooters xs) ss'
    /\ (r = Some i \/ r = None /\ exhausted (w_mounts w' i)).
Proof. exact @attached_life. Qed.
Print Assumptions c40_exactly_once.

(** A processor and a snapshooter are put, then the handle is dropped; the
    collection finds all of them. *)
Definition attached_world : world toy toyp :=
  World (frozen 100) (fun _ => chan_new None)
    (fun _ => chan_run (chan_new None) [Acts (Send (MProcessor group_user)); Acts (Send (MSnapshooter (SUser (3 : user_snap toy))))])
    (fun n => match n with
              | 1%nat => [OnMount 9 (Send (MProcessor (group_tele 2))); OnMount 9 DropSender; OnQueue 2 (tell la 1)]
              | _ => []
              end).
Definition attached : processor toy toyp := PAttached (Some 9%nat) (Mount (MountData None no_descr 0 None) [group_tele 1] []).

Example c40_case :
  match processor_process 5 attached 2 ProcessAll debug attached_world with
  | Ok (PAttached r (Mount _ [PTele _; PUser u; PTele _] [SUser s]), o) w' =>
      r = None /\ o = Outcome 2 0 (oc_instruments_updated o) 0 /\ u = 8 /\ s = 3
  | _ => False
  end.
Proof. vm_compute. auto. Qed.

Example c40_case_hypotheses :
  ~ Exists (holds (MountReceiver 9)) [group_tele 1] /\ foreign (MountReceiver 9) attached_world
  /\ chan_ok (w_mounts attached_world 9).
Proof.
  split; [|split].
  - intros H. inversion H as [? ? H1|? ? H1]; subst; [discriminate H1 | inversion H1].
  - split.
    + intros j x H. cbn in H. destruct H as [<-|[<-|[]]]; cbn; auto.
    + intros [|[|n]] j x H; cbn in H; repeat match goal with
        | H : _ \/ _ |- _ => destruct H as [H|H]
        | H : False |- _ => destruct H
        | H : _ = _ |- _ => first [discriminate H | injection H as <- <-; cbn; discriminate]
        end.
  - intros _. reflexivity.
Qed.
