(** C94. *)
From Coq Require Import ZArith Bool String List Lia.
From Verif Require Import Base SpecRun ModelObservation ModelLabelFilter ModelSnapshot ModelCounter ModelBuckets
  ModelGauge ModelMeter ModelHistogram ModelSwitches ModelInstrument ModelTree SpecTree SpecSafe SpecRoom ModelChannel ModelProcessor SpecRoomWorld
  SafeProofs RoomProofs RoomTreeProofs RoomWorldProofs Toy PropSafe PropRoom.
Import ListNotations.
Open Scope string_scope.
Open Scope list_scope.
Open Scope Z_scope.

(** Any number of collections and snapshots of a processor while other threads
    send messages, in a build with or without overflow checks. *)
Theorem c94_life : forall X Y k lo hi V N S P Q depth (p : processor X Y) l w,
  enough V N S P Q (Z.of_nat (length (processor_teles p))) ->
  manageable k lo hi 0 -> hi - lo <= u64_max -> parts_calm (X := X) k lo hi V -> processors_safe k lo hi Y ->
  handles l <= N -> processor_room k lo hi V N S P 0 p -> Forall (request_sound k lo hi) l -> world_room k lo hi V S Q w ->
  match serve depth p l k w with
  | Ok p' w' => world_room k lo hi V S Q w' /\ processor_room k lo hi V N S P (handles l) p'
  | Panic => False
  | NoFuel => True
  end.
Proof.
  intros X Y k lo hi V N S P Q depth p l w HE H1 H2 H3 H4 H5 H6 H7.
  exact (serve_room k lo hi V N S P Q _ HE (Z.le_trans _ _ _ (handles_nonneg l) H5) H1 H2 H3 H4 depth l 0 p (Z.le_refl 0) H5 (Z.le_refl _) H6 H7 w).
Qed.
Print Assumptions c94_life.

(** One collection: what it reports is exact, no count has wrapped around. *)
Theorem c94_outcome : forall X Y k lo hi V N S P Q depth n (p : processor X Y) max s w,
  let c := Z.of_nat (length (processor_teles p)) in
  enough V N S P Q c -> manageable k lo hi 0 -> parts_calm (X := X) k lo hi V ->
  0 <= n -> n + Z.of_nat max <= N -> processor_room k lo hi V N S P n p -> strategy_sound k lo hi s -> world_room k lo hi V S Q w ->
  match processor_process depth p max s k w with
  | Ok (p', o) w' =>
      world_room k lo hi V S Q w' /\ processor_room k lo hi V N S P (n + Z.of_nat max) p'
      /\ 0 <= oc_processed o <= c * Z.of_nat max /\ 0 <= oc_dropped o <= c * Z.of_nat max
      /\ 0 <= oc_instruments_updated o <= c * (Z.of_nat max * (P * V)) /\ 0 <= oc_enqueued o <= c * Q
  | Panic => False
  | NoFuel => True
  end.
Proof. exact process_bounded. Qed.
Print Assumptions c94_outcome.

(** New processors have room. *)
Theorem c94_new : forall X Y k lo hi V N S P name mname i, N * S <= P ->
  safe k lo hi (tele_new (X := X) name i) (fun t => processor_room (X := X) (Y := Y) k lo hi V N S P 0 (PTele t))
  /\ safe k lo hi (mount_new (X := X) (Y := Y) mname) (fun m => processor_room k lo hi V N S P 0 (PMount m)).
Proof. exact new_room. Qed.
Print Assumptions c94_new.

(** ** Cases *)

Definition roomy_tele (i : nat) : processor toy toyp :=
  PTele (Tele (Some "tele") no_descr [] [roomy_panel] i [] 0 None true false).
Definition roomy_mount : processor toy toyp :=
  PMount (Mount (MountData (Some "outer") no_descr 0 None) [roomy_tele 1; PMount (Mount (MountData None no_descr 0 None) [roomy_tele 2] [])] []).

Lemma roomy_enough : enough (2 ^ 19) (2 ^ 20) 4 (2 ^ 23) 100 (Z.of_nat (length (processor_teles roomy_mount))).
Proof. change (Z.of_nat (length (processor_teles roomy_mount))) with 2. constructor; lia. Qed.

Lemma roomy_mount_room : forall V N P, 1 <= V -> 4 + N * 4 <= P -> processor_room debug room_start room_start V N 4 P 0 roomy_mount.
Proof.
  intros V N P HV HP.
  assert (H : forall i, processor_room (X := toy) (Y := toyp) debug room_start room_start V N 4 P 0 (roomy_tele i)).
  { intros i. constructor. split.
    - exact (roomy_calm V HV).
    - change (Z.of_nat (length (tele_leaves _))) with 4. lia. }
  constructor; [|constructor]. constructor; [apply H|]. constructor; [|constructor]. constructor; [|constructor]. constructor; [apply H | constructor].
Qed.

(** A million messages for each of two processors in a mount, among them any
    observations of numbers up to half a million. *)
Example c94_life_case : forall depth l w, handles l <= 2 ^ 20 -> Forall (request_sound debug room_start room_start) l ->
  world_room debug room_start room_start (2 ^ 19) 4 100 w ->
  serve depth roomy_mount l debug w <> Panic.
Proof.
  intros depth l w Hl Hr Hw.
  pose proof (c94_life toy toyp debug room_start room_start (2 ^ 19) (2 ^ 20) 4 (2 ^ 23) 100 depth roomy_mount l w roomy_enough) as H.
  specialize (H ltac:(vm_compute; split; discriminate) ltac:(lia) (toy_calm debug room_start room_start (2 ^ 19) ltac:(lia)) (toyp_safe _ _ _) Hl (roomy_mount_room (2 ^ 19) (2 ^ 20) (2 ^ 23) ltac:(lia) ltac:(lia)) Hr Hw).
  intros E. rewrite E in H. exact H.
Qed.

(** Such a world *)
Definition large (v : Z) : message toy := MObservation (ObservedOneValue la (SignedInteger v) 1).
Definition roomy_world (v : Z) : world toy toyp :=
  World (frozen room_start) (fun _ => chan_new None) (fun _ => chan_new None)
    (fun n => match n with
              | O => [OnQueue 1 (Send (large v)); OnQueue 2 (Send (large v)); OnQueue 1 (Send (MAddHandler roomy_panel)); OnQueue 1 (Send (large v))]
              | _ => []
              end).

Example c94_world_case : forall V v, 0 <= v <= V -> 1 <= V <= 2 ^ 62 -> world_room debug room_start room_start V 4 100 (roomy_world v).
Proof.
  intros V v Hv HV.
  assert (F : message_calm debug room_start room_start V 4 (large v)).
  { intros z E. cbn [convert_to_i64] in E. injection E as <-. lia. }
  assert (G : message_calm debug room_start room_start V 4 (MAddHandler roomy_panel)).
  { split; [apply roomy_calm; lia | vm_compute; discriminate]. }
  constructor.
  - intros n. split; apply Z.le_refl.
  - intros i. constructor.
  - intros i [|n]; [|constructor]. cbn [roomy_world w_sched flat_map sent_to].
    destruct (Nat.eqb 1 i); destruct (Nat.eqb 2 i); cbn [action_messages app]; repeat (apply Forall_cons; [first [exact F | exact G]|]); apply Forall_nil.
  - intros i n. assert (E : forall m a, flat_map (w_sched (roomy_world v)) (seq (Datatypes.S a) m) = []).
    { induction m as [|m IH]; intros a; [reflexivity|]. cbn [seq flat_map]. rewrite IH. reflexivity. }
    destruct n as [|n]; [cbn; lia|]. cbn [seq flat_map]. rewrite E, app_nil_r. cbn [roomy_world w_sched w_queues flat_map sent_to].
    destruct (Nat.eqb 1 i); destruct (Nat.eqb 2 i); cbn; lia.
Qed.

Example c94_run :
  match serve 5 roomy_mount [Collect 2 ProcessAll; Write true []; Collect 3 ProcessAll] debug (roomy_world 500000) with
  | Ok p' _ => length (flat_map tele_leaves (processor_teles p')) = 12%nat
  | _ => False
  end.
Proof. vm_compute. reflexivity. Qed.

Example c94_outcome_case :
  match processor_process 5 roomy_mount 2 ProcessAll debug (roomy_world 500000) with
  | Ok (_, o) _ => o = Outcome 3 0 (oc_instruments_updated o) 1
  | _ => False
  end.
Proof. vm_compute. reflexivity. Qed.

(** The room is needed: two observations from other threads end the processing
    in a build that checks. *)
Theorem c94_any_numbers_refuted : exists (p : processor toy toyp) l w,
  processor_room debug room_start room_start (2 ^ 62) 10 4 100 0 p
  /\ Forall (request_sound debug room_start room_start) l
  /\ world_room debug room_start room_start (2 ^ 62) 4 100 w
  /\ serve 5 p l debug w = Panic
  /\ exists p' w', serve 5 p l release w = Ok p' w'.
Proof.
  exists roomy_mount, [Collect 5 ProcessAll], (roomy_world (2 ^ 62)). split; [apply roomy_mount_room; lia|].
  split; [repeat constructor|]. split; [apply c94_world_case; lia|]. split; [vm_compute; reflexivity|]. eexists. eexists. vm_compute. reflexivity.
Qed.
Print Assumptions c94_any_numbers_refuted.
