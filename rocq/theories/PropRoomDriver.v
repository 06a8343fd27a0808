(** C95. *)
From Coq Require Import ZArith Bool String List Lia.
From Verif Require Import Base SpecRun SpecClock ModelObservation ModelLabelFilter ModelSnapshot ModelCounter ModelBuckets
  ModelGauge ModelMeter ModelHistogram ModelSwitches ModelInstrument ModelTree SpecTree SpecSafe SpecRoom ModelChannel ModelProcessor ModelDriver
  SpecRoomWorld SpecRoomDriver SpecDriver WorldClockProofs
  SafeProofs RoomProofs RoomTreeProofs RoomWorldProofs RoomDriverProofs Toy PropSafe PropFollow PropSite PropRoom PropRoomWorld.
Import ListNotations.
Open Scope string_scope.
Open Scope list_scope.
Open Scope Z_scope.

(** Any number of iterations of the driver's thread while other threads send
    messages and give commands, in a build with or without overflow checks. *)
Theorem c95_driver : forall X Y k lo hi V N S P Q T R W C m (d : driver X Y) w,
  plenty V N S P Q T R W -> manageable k lo hi 0 -> hi - lo <= i64_max -> parts_calm (X := X) k lo hi V -> processors_safe k lo hi Y ->
  parts_tick X -> processors_tick Y ->
  Z.of_nat m <= R -> driver_room k lo hi V N S P T W 0 C d -> dworld_room k lo hi V N S P Q C w ->
  match run_iterations m d k w with
  | Ok r w' => exists C', dworld_room k lo hi V N S P Q C' w'
               /\ match r with Some d' => driver_room k lo hi V N S P T W (Z.of_nat m) C' d' | None => True end
  | Panic => False
  | NoFuel => True
  end.
Proof. exact driver_lives. Qed.
Print Assumptions c95_driver.

(** New drivers have room for all processors that come later. *)
Theorem c95_start : forall X Y k lo hi W, parts_safe k lo hi X ->
  manageable k lo hi (5 * nanos_per_sec) -> manageable k lo hi (60 * nanos_per_sec) ->
  forall V N S P T C name ds s b, C <= T -> strategy_sound k lo hi s ->
  safe k lo hi (driver_start (X := X) (Y := Y) name ds s b) (driver_room k lo hi V N S P T W 0 C).
Proof. exact @start_room. Qed.
Print Assumptions c95_start.

(** ** Cases *)

(** A thousand iterations of a driver with its own metrics and a mount with two processors *)
Lemma roomy_plenty : plenty 1000 1000000 4 4000004 100 2 1000 9000000000000.
Proof. constructor; [constructor|..]; lia. Qed.

Definition roomy_start : M (driver toy toyp) := driver_start (Some "d") no_descr (DropOlderThan room_start true) true.
Definition roomy_dworld (v : Z) : dworld toy toyp :=
  DWorld (roomy_world v) (chan_new None) 1 true [] []
    (fun n => match n with
              | O => [Call (CAddProcessor roomy_mount); Call (CGetSnapshotSync [] 0 true)]
              | _ => []
              end).

Lemma roomy_dworld_room : forall V N P v, 0 <= v <= V -> 1 <= V <= 2 ^ 62 -> 4 + N * 4 <= P ->
  dworld_room debug room_start room_start V N 4 P 100 2 (roomy_dworld v).
Proof.
  intros V N P v Hv HV HP. constructor.
  - apply c94_world_case; assumption.
  - intros n. apply Z.le_refl.
  - intros c [].
  - intros [|n] c Hc; cbn in Hc; [|destruct Hc]. destruct Hc as [Hc|[Hc|[]]]; injection Hc as <-; [|exact I].
    apply roomy_mount_room; lia.
  - assert (E : forall m a, flat_map (dw_sched (roomy_dworld v)) (seq (Datatypes.S a) m) = []).
    { induction m as [|m IH]; intros a; [reflexivity|]. cbn [seq flat_map]. rewrite IH. reflexivity. }
    intros [|n]; [cbn; lia|]. cbn [seq flat_map]. rewrite E, app_nil_r. vm_compute. discriminate.
Qed.

Example c95_start_case : safe debug room_start room_start roomy_start
  (driver_room debug room_start room_start 1000 1000000 4 4000004 2 9000000000000 0 2).
Proof.
  apply (c95_start toy toyp); try (vm_compute; split; discriminate); try lia.
  apply toy_safe.
Qed.

Example c95_driver_case : forall m v d c, Z.of_nat m <= 1000 -> 0 <= v <= 1000 ->
  roomy_start debug (frozen room_start) = Ok d c -> run_iterations m d debug (roomy_dworld v) <> Panic.
Proof.
  intros m v d c Hm Hv Hd.
  assert (Hf : clock_within room_start room_start (frozen room_start)) by (intros n; split; apply Z.le_refl).
  destruct (c95_start_case (frozen room_start) Hf) as (d' & c' & E & _ & Hd'). rewrite Hd in E. injection E as <- <-.
  pose proof (c95_driver toy toyp debug room_start room_start 1000 1000000 4 4000004 100 2 1000 9000000000000 2 m d (roomy_dworld v) roomy_plenty) as H.
  specialize (H ltac:(vm_compute; split; discriminate) ltac:(lia) (toy_calm debug room_start room_start 1000 ltac:(lia)) (toyp_safe _ _ _) drift_ticks toyp_ticks Hm Hd'
    (roomy_dworld_room 1000 1000000 4000004 v Hv ltac:(lia) ltac:(lia))).
  intros E. rewrite E in H. exact H.
Qed.

Example c95_run :
  match roomy_start debug (frozen room_start) with
  | Ok d _ =>
      match run_iterations 2 d debug (roomy_dworld 1000) with
      | Ok (Some d') w => length (dr_processors d') = 1%nat /\ length (dw_answers w) = 1%nat
      | _ => False
      end
  | _ => False
  end.
Proof. vm_compute. split; reflexivity. Qed.

(** The room is needed: two observations from other threads end the thread of
    the driver in a build that checks. *)
Theorem c95_any_numbers_refuted : exists (d : driver toy toyp) w,
  driver_room debug room_start room_start (2 ^ 62) 10 4 100 2 (2 ^ 62) 0 2 d
  /\ dworld_room debug room_start room_start (2 ^ 62) 10 4 100 100 2 w
  /\ run_iterations 2 d debug w = Panic
  /\ match run_iterations 2 d release w with Ok _ _ => True | _ => False end.
Proof.
  exists (Driver (Some "d") no_descr [] [] ProcessAll false None room_start 0), (roomy_dworld (2 ^ 62)).
  split; [constructor; cbn; try constructor; lia|].
  split; [apply roomy_dworld_room; lia|].
  split; [vm_compute; reflexivity|]. vm_compute. exact I.
Qed.
Print Assumptions c95_any_numbers_refuted.
