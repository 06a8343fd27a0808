(** C87. *)
From Coq Require Import ZArith Bool String List Lia.
From Verif Require Import Base SpecRun ModelObservation ModelLabelFilter ModelSnapshot ModelCounter ModelBuckets
  ModelGauge ModelMeter ModelHistogram ModelSwitches ModelInstrument ModelTree ModelChannel ModelProcessor ModelDriver
  SpecDriver SpecSafe SpecProfile ProfileProofs Toy PropCollect PropGroup PropSafe.
Import ListNotations.
Open Scope string_scope.
Open Scope list_scope.
Open Scope Z_scope.

(** What an instrument makes of an update and of a request for a snapshot. *)
Theorem c87_instruments : forall X k k', laxer k k' -> parts_robust k k' X ->
  forall (i : instrument X),
  (forall u, robust k k' (instrument_update i u)) /\ (forall de into, robust k k' (instrument_put i de into)).
Proof.
  intros X k k' H1 H2 i. split; intros; [exact (instrument_update_robust k k' H1 H2 i u)|].
  exact (instrument_put_robust k k' H1 H2 i de into).
Qed.
Print Assumptions c87_instruments.

(** What panels, handlers and cockpits make of an observation. *)
Theorem c87_handling : forall X k k', laxer k k' -> parts_robust k k' X ->
  forall o : observation (lab X),
  (forall p, robust k k' (panel_handle p o)) /\ (forall h, robust k k' (handler_handle h o))
  /\ (forall c, robust k k' (cockpit_handle c o)).
Proof. intros X k k' H1 H2 o. destruct (tree_handle_robust k k' H1 H2 o) as (Hp & Hh & Hc & _). auto. Qed.
Print Assumptions c87_handling.

(** What they, snapshooters and processors write into a snapshot. *)
Theorem c87_snapshots : forall X Y k k', laxer k k' -> parts_robust k k' X -> processors_robust k k' Y ->
  forall de into,
  (forall p : panel X, robust k k' (panel_put p de into)) /\ (forall h : handler X, robust k k' (handler_put h de into))
  /\ (forall c : cockpit X, robust k k' (cockpit_put c de into))
  /\ (forall s : snapshooter X, robust k k' (snapshooter_put s de into))
  /\ (forall p : processor X Y, robust k k' (processor_put p de into)).
Proof.
  intros X Y k k' H1 H2 H3 de into. destruct (tree_put_robust k k' H1 H2) as (Hp & Hh & Hc & Hs).
  destruct (processor_put_robust k k' H1 H2 H3) as (Hpr & _). repeat split; auto.
Qed.
Print Assumptions c87_snapshots.

(** Any number of collections and snapshots of a processor while other threads
    send any messages: the same processor, the same queues and the same time, or a
    panic of the stricter build. Mounts nested [depth] deep are followed. *)
Theorem c87_processing : forall X Y k k' depth (p : processor X Y) l w,
  laxer k k' -> parts_robust k k' X -> processors_robust k k' Y ->
  match serve depth p l k w with
  | Ok p' w' => serve depth p l k' w = Ok p' w'
  | Panic => True
  | NoFuel => fuel k = fuel k' -> serve depth p l k' w = NoFuel
  end.
Proof.
  intros X Y k k' n p l w H1 H2 H3.
  exact (serve_carries k k' H1 H2 H3 n n l p (conj (le_n n) (fun _ => eq_refl)) w).
Qed.
Print Assumptions c87_processing.

(** Any number of iterations of a driver while other threads send any commands. *)
Theorem c87_driver : forall X Y k k' n (d : driver X Y) w,
  laxer k k' -> parts_robust k k' X -> processors_robust k k' Y ->
  match run_iterations n d k w with
  | Ok r w' => run_iterations n d k' w = Ok r w'
  | Panic => True
  | NoFuel => fuel k = fuel k' -> run_iterations n d k' w = NoFuel
  end.
Proof. intros X Y k k' n d w H1 H2 H3. exact (run_iterations_robust k k' H1 H2 H3 n d w). Qed.
Print Assumptions c87_driver.

(** A driver starts in the same state. *)
Theorem c87_start : forall X Y k k' name ds s with_metrics,
  laxer k k' -> parts_robust k k' X ->
  robust k k' (driver_start (X := X) (Y := Y) name ds s with_metrics).
Proof. intros X Y k k' name ds s b H1 H2. exact (driver_start_robust k k' H1 H2 name ds s b). Qed.
Print Assumptions c87_start.

(** A build with overflow checks does exactly what the one without does, unless it
    panics. *)
Theorem c87_checks_only_panic : forall X Y lo hi f n (d : driver X Y) w,
  let checked := Cfg true lo hi f in
  let unchecked := Cfg false lo hi f in
  parts_robust checked unchecked X -> processors_robust checked unchecked Y ->
  run_iterations n d checked w = Panic \/ run_iterations n d checked w = run_iterations n d unchecked w.
Proof.
  intros X Y lo hi f n d w checked unchecked H2 H3.
  assert (H1 : laxer checked unchecked) by (constructor; cbn; auto using Z.le_refl).
  pose proof (run_iterations_robust checked unchecked H1 H2 H3 n d w) as H.
  destruct (run_iterations n d checked w) as [r w'| |]; [right; symmetry; exact H | left; reflexivity | right].
  symmetry. exact (H eq_refl).
Qed.
Print Assumptions c87_checks_only_panic.

(** A driver whose loops were followed to their ends does the same if they may be
    followed longer: the bound is none of the result. *)
Theorem c87_bound_is_no_result : forall X Y c lo hi f f' n (d : driver X Y) w r w', (f <= f')%nat ->
  let short := Cfg c lo hi f in
  let long := Cfg c lo hi f' in
  parts_robust short long X -> processors_robust short long Y ->
  run_iterations n d short w = Ok r w' -> run_iterations n d long w = Ok r w'.
Proof.
  intros X Y c lo hi f f' n d w r w' Hf short long H2 H3 E.
  assert (H1 : laxer short long) by (constructor; cbn; auto using Z.le_refl).
  pose proof (run_iterations_robust short long H1 H2 H3 n d w) as H. rewrite E in H. exact H.
Qed.
Print Assumptions c87_bound_is_no_result.

(** ** Cases *)

Lemma toy_robust : forall k k', parts_robust k k' toy.
Proof. intros k k'. constructor; intros; intros w; reflexivity. Qed.
Lemma toyp_robust : forall k k', processors_robust k k' toyp.
Proof. intros k k'. constructor; intros; intros w; reflexivity. Qed.
Lemma debug_release : laxer debug release.
Proof. constructor; vm_compute; auto; discriminate. Qed.

(** The counter of the panel overflows. *)
Example c87_handling_case :
  laxer debug release /\ parts_robust debug release toy
  /\ panel_handle risky_panel (ObservedOne la a_century) debug (frozen a_century) = Panic
  /\ match panel_handle risky_panel (ObservedOne la a_century) release (frozen a_century) with Ok _ _ => True | _ => False end
  /\ match panel_handle toy_panel (ObservedOne la a_century) debug (frozen a_century) with
     | Ok p c => panel_handle toy_panel (ObservedOne la a_century) release (frozen a_century) = Ok p c
     | _ => False
     end.
Proof.
  split; [exact debug_release|]. split; [apply toy_robust|]. vm_compute. auto.
Qed.

(** A stricter machine: instants start at 50. *)
Definition strict : cfg := Cfg true 50 (2 ^ 62) 100.
Example c87_processing_case :
  laxer strict release /\ parts_robust strict release toy /\ processors_robust strict release toyp
  /\ match serve 5 group_mount [Collect 2 (DropOlderThan 50 true); Write true []; Collect 3 ProcessAll] strict group_world with
     | Ok _ _ => True
     | _ => False
     end
  /\ serve 5 group_mount [Collect 2 (DropOlderThan 51 true)] strict group_world = Panic
  /\ match serve 5 group_mount [Collect 2 (DropOlderThan 51 true)] release group_world with Ok _ _ => True | _ => False end.
Proof.
  split; [constructor; vm_compute; auto; discriminate|].
  split; [apply toy_robust|]. split; [apply toyp_robust|]. vm_compute. auto.
Qed.

(** The driver of the case of C59 in both builds, and with a bound of three. *)
Example c87_driver_case :
  let short := Cfg true 0 (2 ^ 62) 3 in
  laxer short release
  /\ match safe_start short (frozen safe_time) with
     | Ok d _ => match run_iterations 2 d short safe_dworld with Ok (Some _) w => List.length (dw_answers w) = 1%nat | _ => False end
     | _ => False
     end.
Proof. split; [constructor; vm_compute; auto; try discriminate; lia|]. vm_compute. reflexivity. Qed.
