(** C78: what snapshooters show, up to the snapshots of a driver. *)
From Coq Require Import ZArith Bool String List Lia.
From Verif Require Import Base SpecRun MonadFacts SpecClock ModelObservation ModelLabelFilter ModelSnapshot ModelCounter ModelGauge ModelMeter
  ModelHistogram ModelConfig ModelSwitches ModelInstrument ModelTree ModelChannel ModelProcessor ModelDriver SpecWriting SpecTree SpecQueue SpecCollect SpecDriver
  SpecChronicle SpecSite SpecLife SpecLives SpecShown DriverLoopProofs ShownProofs
  Toy PropGroup PropFollow PropWriting PropChronicle PropSite PropLives.
Import ListNotations.
Open Scope string_scope.
Open Scope list_scope.
Open Scope Z_scope.

(** A snapshooter of a driver or of a mount in it lives through snapshots only, whatever
    arrives and is collected meanwhile, and is shown in every snapshot below the names on
    the way to it, unless a mount hides it. It stays where it is. *)
Theorem c78_shown : forall X Y, parts_tick X -> processors_tick Y -> parts_append X -> (forall u, appends (user_proc_put Y u)) ->
  forall k n (d : driver X Y) w d' w' path names gs s b de d'' w'',
  driver_shows d path names gs s -> iterates k n d w d' w' -> driver_command d' (call_snapshot b de) k w' = Ok d'' w'' ->
  exists s' s'' gs' added,
    leaf_life k (clock_of w) (LShown s) [] (LShown s') (clock_of w') /\ alike gs gs' /\ driver_shows d'' path names gs' s''
    /\ dw_answers w'' = dw_answers w' ++ [(b, added)]
    /\ presented k (clock_of w') names gs' (LShown s') (LShown s'') de added (clock_of w'').
Proof. intros X Y HX HY HA HB. exact (shown_in_the_end HX HY HA HB). Qed.
Print Assumptions c78_shown.

(** A constant shows the same value in every snapshot. *)
Theorem c78_constant : forall X Y, parts_tick X -> processors_tick Y -> parts_append X -> (forall u, appends (user_proc_put Y u)) ->
  forall k n (d : driver X Y) w d' w' path names gs v b de d'' w'',
  driver_shows d path names gs (SConstant v) -> iterates k n d w d' w' -> driver_command d' (call_snapshot b de) k w' = Ok d'' w'' ->
  exists gs' added, alike gs gs' /\ driver_shows d'' path names gs' (SConstant v) /\ dw_answers w'' = dw_answers w' ++ [(b, added)]
    /\ shown_unless_hidden (clock_of w') names gs' added (clock_of w'')
         (fun fields => exists texts, only_texts texts /\ fields = texts ++ [(cv_name v, cv_value v)]).
Proof. intros X Y HX HY HA HB. exact (constant_in_the_end HX HY HA HB). Qed.
Print Assumptions c78_constant.

(** A polled instrument shows what is polled at the time of the snapshot, in a group of
    its own if it was asked to. *)
Theorem c78_polled : forall X Y, parts_tick X -> processors_tick Y -> parts_append X -> (forall u, appends (user_proc_put Y u)) ->
  forall k n (d : driver X Y) w d' w' path names gs name ds g poll b de d'' w'',
  driver_shows d path names gs (SPolled name ds g poll) -> iterates k n d w d' w' -> driver_command d' (call_snapshot b de) k w' = Ok d'' w'' ->
  exists gs' added, alike gs gs' /\ dw_answers w'' = dw_answers w' ++ [(b, added)]
    /\ shown_unless_hidden (clock_of w') names gs' added (clock_of w'') (fun fields =>
         exists poll' poll'' texts level polled c1 c2,
           leaf_life k (clock_of w) (LShown poll) [] (LShown poll') (clock_of w') /\ later (clock_of w') c1
           /\ leaf_put (LShown poll') de level k c1 = Ok (LShown poll'', level ++ polled) c2 /\ later c2 (clock_of w'')
           /\ only_texts texts /\ fields = texts ++ (if g then [(name, ItemSnapshot polled)] else polled)).
Proof. intros X Y HX HY HA HB. exact (polled_in_the_end HX HY HA HB). Qed.
Print Assumptions c78_polled.

(** In a panel, a cockpit or a processor for telemetry data a snapshooter sees none of the
    observations. *)
Theorem c78_tree : forall X Y, parts_tick X -> processors_tick Y -> parts_append X -> (forall u, appends (user_proc_put Y u)) ->
  forall k n (d : driver X Y) w d' w' path t at_ names gs on b de d'' w'' s (P : snapshot -> Prop),
  followed k n d w d' w' path t at_ names gs on (LShown s) b de d'' w'' ->
  (forall s' x'' level fields c1 c2, leaf_life k (clock_of w) (LShown s) [] (LShown s') (clock_of w') -> later (clock_of w') c1 ->
     leaf_put (LShown s') de level k c1 = Ok (x'', level ++ fields) c2 -> later c1 c2 -> later c2 (clock_of w'') -> P fields) ->
  in_the_end n d w w' path t at_ names gs on b w'' (fun os fields => os = [] /\ P fields).
Proof. intros X Y HX HY HA HB. exact (tree_shown_in_the_end HX HY HA HB). Qed.
Print Assumptions c78_tree.

Theorem c78_tree_constant : forall X Y, parts_tick X -> processors_tick Y -> parts_append X -> (forall u, appends (user_proc_put Y u)) ->
  forall k n (d : driver X Y) w d' w' path t at_ names gs on b de d'' w'' v,
  followed k n d w d' w' path t at_ names gs on (LShown (SConstant v)) b de d'' w'' ->
  in_the_end n d w w' path t at_ names gs on b w'' (fun os fields =>
    os = [] /\ exists texts, only_texts texts /\ fields = texts ++ [(cv_name v, cv_value v)]).
Proof. intros X Y HX HY HA HB. exact (tree_constant_in_the_end HX HY HA HB). Qed.
Print Assumptions c78_tree_constant.

(** The snapshooter of a command is the last one then. *)
Theorem c78_added : forall X Y k (d : driver X Y) s w d' w', driver_command d (call_add_snapshooter s) k w = Ok d' w' ->
  w' = w /\ driver_shows d' [Position (List.length (dr_snapshooters d))] (opt_list (dr_name d)) [] s
  /\ (forall path names gs s0, driver_shows d path names gs s0 -> driver_shows d' path names gs s0).
Proof. exact @added_shows. Qed.
Print Assumptions c78_added.

(** A named driver with a constant of its own and a mount with a limit; in it an attached
    mount, whose handle still adds to it, with a grouped polled instrument, and a processor
    with a constant; a constant is added while the driver runs. *)
Definition shown_constant (name : string) (n : Z) : snapshooter toy := SConstant (ConstantValue name (Descr (Some "T") None) (Int n)).
Definition shown_polled : snapshooter toy := SPolled "polled" no_descr true (SUser (3 : user_snap toy)).
Definition shown_tele : tele toy := Tele (Some "tele") no_descr [] [] 1 [shown_constant "c" 3] 0 None true false.
Definition shown_mounted : list (snapshooter toy) := [shown_constant "a" 1; shown_polled].
Definition shown_inner : list (processor toy toyp) :=
  [group_tele 2; PAttached (Some 5%nat) (Mount (MountData None no_descr 0 None) [] shown_mounted); PTele shown_tele].
Definition shown_driver : driver toy toyp :=
  Driver (Some "drv") no_descr
    [group_user;
     PMount (Mount (MountData (Some "outer") no_descr (100 * nanos_per_sec) (Some (60 * nanos_per_sec))) shown_inner [])]
    [shown_constant "b" 2] ProcessAll false None 0 0.
Definition shown_world : dworld toy toyp :=
  new_world
    (World lives_start
       (fun i => chan_run (chan_new None) (Acts (lives_says (ObservedOneValue la (BoolValue true) 1)) :: if Nat.eqb i 1 then [] else [Acts DropSender]))
       (fun _ => chan_new None)
       (fun n => if Nat.eqb n 3 then [OnMount 5 (Send (MSnapshooter (shown_constant "e" 5)))] else []))
    (fun n => if Nat.eqb n 2 then [Call (call_add_snapshooter (shown_constant "d" 4))] else []).

Example c78_case_hypotheses :
  parts_tick toy /\ processors_tick toyp /\ parts_append toy /\ (forall u, appends (user_proc_put toyp u))
  /\ driver_shows shown_driver [Position 0] ["drv"] [] (shown_constant "b" 2)
  /\ driver_shows shown_driver [Position 1; Level (Some "outer") (Some (60 * nanos_per_sec)); Position 1; Level None None; Position 1] ["drv"; "outer"]
       [Guard (Some (60 * nanos_per_sec)) true (100 * nanos_per_sec); Guard None true 0] shown_polled
  /\ exists d' w' d'' w'',
       iterates debug 3 shown_driver shown_world d' w' /\ driver_command d' (call_snapshot 7 true) debug w' = Ok d'' w''
       /\ followed debug 3 shown_driver shown_world d' w' [Position 1; Level (Some "outer") (Some (60 * nanos_per_sec)); Position 2] shown_tele [2; 0]%nat ["tele"]
            [Guard None true 0] (fun _ => false) (LShown (shown_constant "c" 3)) 7 true d'' w''.
Proof.
  refine (conj drift_ticks (conj toyp_ticks (conj toy_appends (conj toyp_appends (conj _ (conj _ _)))))).
  - apply (sh_own shown_driver 0). reflexivity.
  - eapply (sh_processor shown_driver 1 _ [Level (Some "outer") (Some (60 * nanos_per_sec)); Position 1; Level None None; Position 1] ["outer"]); [reflexivity|].
    constructor.
    refine (sh_below (MountData (Some "outer") no_descr (100 * nanos_per_sec) (Some (60 * nanos_per_sec))) shown_inner [] 1 _ [Level None None; Position 1] []
              [Guard None true 0] _ eq_refl _).
    constructor. exact (sh_here (MountData None no_descr 0 None) [] shown_mounted 1 _ eq_refl).
  - assert (R : exists d' w' d'' w'', iterates debug 3 shown_driver shown_world d' w' /\ driver_command d' (call_snapshot 7 true) debug w' = Ok d'' w'')
      by (apply lives_ran; vm_compute; reflexivity).
    destruct R as (d' & w' & d'' & w'' & R & C). exists d', w', d'', w''. split; [exact R|]. split; [exact C|]. constructor.
    + exact R.
    + unfold driver_ok; cbn; repeat split; auto; discriminate.
    + split; [|split; [constructor|]].
      * split; [intros j x []|]. intros n j x H. cbn [shown_world new_world dw_world w_sched] in H.
        destruct (Nat.eqb n 3); destruct H as [[H|[]]|[H|[]]] || destruct H as [[]|[]]; try discriminate H. injection H as <- <-. intros [].
      * intros n. unfold shown_world, new_world, dw_sched. destruct (Nat.eqb n 2); repeat constructor.
    + apply (am_at _ [group_user] _ [] [Level (Some "outer") (Some (60 * nanos_per_sec)); Position 2]); [repeat constructor; intros []| |constructor].
      apply lo_mount.
      apply (am_at _ [group_tele 2; PAttached (Some 5%nat) (Mount (MountData None no_descr 0 None) [] shown_mounted)] _ [] []);
        [constructor; [discriminate|constructor; [intros [H|[]]; discriminate H|constructor]]| |constructor]. constructor. reflexivity.
    + refine (si_tele_shown shown_tele 0 _ _ eq_refl _). reflexivity.
    + exact C.
Qed.

Example c78_case :
  match run_iterations 3 shown_driver debug shown_world with
  | Ok (Some d1) w1 =>
      match driver_command d1 (call_snapshot 7 true) debug w1 with
      | Ok _ w2 =>
          match skipn (List.length (dw_answers w1)) (dw_answers w2) with
          | [(7%nat, s)] =>
              site_below ["drv"; "outer"; "tele"] s = [[("_title_c", Text "T"); ("c", Int 3)]]
              /\ map (skipn 2) (site_below ["drv"] s) = [[("_title_b", Text "T"); ("b", Int 2); ("_title_d", Text "T"); ("d", Int 4)]]
              /\ map (fun l => firstn 5 (skipn 3 l)) (site_below ["drv"; "outer"] s)
                 = [[("_title_a", Text "T"); ("a", Int 1); ("polled", ItemSnapshot [("user_snapshooter", Int 3)]); ("_title_e", Text "T"); ("e", Int 5)]]
          | _ => False
          end
      | _ => False
      end
  | _ => False
  end.
Proof. vm_compute. repeat split. Qed.
