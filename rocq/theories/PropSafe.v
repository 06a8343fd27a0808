(** C59. *)
From Coq Require Import ZArith Bool String List Lia.
From Verif Require Import Base SpecRun ModelObservation ModelLabelFilter ModelSnapshot ModelCounter ModelBuckets
  ModelGauge ModelMeter ModelHistogram ModelSwitches ModelInstrument ModelTree ModelChannel ModelProcessor ModelDriver
  SpecDriver SpecTree SpecSafe SafeProofs SafeTreeProofs SafeWorldProofs SafeDriverProofs Toy PropCollect PropGroup.
Import ListNotations.
Open Scope string_scope.
Open Scope list_scope.
Open Scope Z_scope.

(** A panel, a handler or a cockpit handles any observation; what comes out can
    handle the next one. *)
Theorem c59_handling : forall X k lo hi,
  overflow_checks k = false -> manageable k lo hi 0 -> parts_safe k lo hi X ->
  forall o : observation (lab X),
  (forall p, Forall (sound k lo hi) (panel_instruments p) ->
     safe k lo hi (panel_handle p o) (fun r => Forall (sound k lo hi) (panel_instruments (fst r))))
  /\ (forall h, Forall (sound k lo hi) (handler_instruments h) ->
     safe k lo hi (handler_handle h o) (fun r => Forall (sound k lo hi) (handler_instruments (fst r))))
  /\ (forall c, Forall (sound k lo hi) (cockpit_instruments c) ->
     safe k lo hi (cockpit_handle c o) (fun r => Forall (sound k lo hi) (cockpit_instruments (fst r)))).
Proof.
  intros X k lo hi H1 H2 H3 o. destruct (tree_handle_safe k lo hi H1 H2 H3) as (Hp & Hh & Hc & _). auto.
Qed.
Print Assumptions c59_handling.

(** Any snapshot of a panel, a handler, a cockpit, a snapshooter or a processor. *)
Theorem c59_snapshots : forall X Y k lo hi,
  overflow_checks k = false -> manageable k lo hi 0 -> parts_safe k lo hi X -> processors_safe k lo hi Y ->
  forall de into,
  (forall p : panel X, Forall (sound k lo hi) (panel_instruments p) ->
     safe k lo hi (panel_put p de into) (fun r => Forall (sound k lo hi) (panel_instruments (fst r))))
  /\ (forall h : handler X, Forall (sound k lo hi) (handler_instruments h) ->
     safe k lo hi (handler_put h de into) (fun r => Forall (sound k lo hi) (handler_instruments (fst r))))
  /\ (forall c : cockpit X, Forall (sound k lo hi) (cockpit_instruments c) ->
     safe k lo hi (cockpit_put c de into) (fun r => Forall (sound k lo hi) (cockpit_instruments (fst r))))
  /\ (forall s : snapshooter X, Forall (sound k lo hi) (snapshooter_instruments s) ->
     safe k lo hi (snapshooter_put s de into) (fun r => Forall (sound k lo hi) (snapshooter_instruments (fst r))))
  /\ (forall p : processor X Y, Forall (sound k lo hi) (processor_instruments p) ->
     safe k lo hi (processor_put p de into) (fun r => Forall (sound k lo hi) (processor_instruments (fst r)))).
Proof.
  intros X Y k lo hi H1 H2 H3 H4 de into. destruct (tree_put_safe k lo hi H1 H2 H3) as (Hp & Hh & Hc & Hs).
  destruct (processor_put_safe k lo hi H1 H2 H3 H4) as (Hpr & _). repeat split; auto.
Qed.
Print Assumptions c59_snapshots.

(** Any number of collections and snapshots of a processor while other threads
    send any messages. *)
Theorem c59_processing : forall X Y k lo hi depth (p : processor X Y) l w,
  overflow_checks k = false -> manageable k lo hi 0 -> parts_safe k lo hi X -> processors_safe k lo hi Y ->
  Forall (sound k lo hi) (processor_instruments p) -> Forall (request_sound k lo hi) l -> world_sound k lo hi w ->
  match serve depth p l k w with
  | Ok p' w' => world_sound k lo hi w' /\ Forall (sound k lo hi) (processor_instruments p')
  | Panic => False
  | NoFuel => True
  end.
Proof. intros X Y k lo hi n p l w H1 H2 H3 H4 Hp Hl. exact (serve_safe k lo hi H1 H2 H3 H4 n l p Hp Hl w). Qed.
Print Assumptions c59_processing.

(** Any number of iterations of a driver while other threads send any commands. *)
Theorem c59_driver : forall X Y k lo hi n (d : driver X Y) w,
  overflow_checks k = false -> manageable k lo hi 0 -> parts_safe k lo hi X -> processors_safe k lo hi Y ->
  driver_sound k lo hi d -> dworld_sound k lo hi w ->
  match run_iterations n d k w with
  | Ok r w' => dworld_sound k lo hi w' /\ match r with Some d' => driver_sound k lo hi d' | None => True end
  | Panic => False
  | NoFuel => True
  end.
Proof. intros X Y k lo hi n d w H1 H2 H3 H4 Hd. exact (run_iterations_safe k lo hi H1 H2 H3 H4 n d Hd w). Qed.
Print Assumptions c59_driver.

(** A driver starts without a panic and is such that it goes on without one. *)
Theorem c59_start : forall X Y k lo hi name ds s with_metrics,
  parts_safe k lo hi X -> strategy_sound k lo hi s ->
  manageable k lo hi (5 * nanos_per_sec) -> manageable k lo hi (60 * nanos_per_sec) ->
  safe k lo hi (driver_start (X := X) (Y := Y) name ds s with_metrics) (driver_sound k lo hi).
Proof. intros X Y k lo hi name ds s b H1 H2 H3 H4. exact (driver_start_safe k lo hi H1 H3 H4 name ds s b H2). Qed.
Print Assumptions c59_start.

(** Tracking for any number of seconds leaves the position in bounds. *)
Theorem c59_tracking : forall (X : ext) k lo hi g n, tracking_in_bounds g ->
  safe k lo hi (gauge_set_tracking g n) tracking_in_bounds.
Proof.
  intros X k lo hi g n H. eapply safe_weak; [apply (set_tracking_safe (X := X) k lo hi g n)|]; [|intros a Ha; apply Ha].
  split; [constructor|exact H].
Qed.
Print Assumptions c59_tracking.

(** ** Cases *)

Lemma toy_safe : forall k lo hi, parts_safe k lo hi toy.
Proof.
  intros k lo hi. constructor; intros; cbn; try apply safe_done;
    (eapply safe_bind; [apply safe_now|]; intros; apply safe_done).
Qed.
Lemma toyp_safe : forall k lo hi, processors_safe k lo hi toyp.
Proof. intros k lo hi. constructor; intros; cbn; apply safe_done. Qed.

(** Times up to 2^61 ns, almost the whole range of instants. *)
Definition a_century : Z := 2 ^ 61.

Definition risky_panel : panel toy :=
  Panel (PanelData (AcceptAll : label_filter (lab toy)) (Some "risky") no_descr 0 None true)
    (Slots (Some (adapter_new (Counter "count" no_descr u64_max))) None None None) []
    [HInstrument (adapter_accept (AcceptAll : label_filter (lab toy))
       (IStaircase (staircase_set_switch_off_after (staircase_new "timer") (2 ^ 61))));
     HGauge (ga_inc_dec_on (One la) (One lb) (Gauge "gauge" no_descr (Some i64_max) None time_unit_default false))] [].

(** The counter and the gauge overflow. *)
Example c59_handling_case :
  manageable release a_century a_century 0
  /\ Forall (sound (X := toy) release a_century a_century) (panel_instruments risky_panel)
  /\ match panel_handle risky_panel (ObservedOne la 3) release (frozen a_century) with
     | Ok (Panel _ sl _ _ _, n) _ => option_map (fun a => c_count (ad_instrument a)) (sl_counter sl) = Some 0 /\ n = 3
     | _ => False
     end
  /\ panel_handle risky_panel (ObservedOne la 3) debug (frozen a_century) = Panic
  /\ panel_handle risky_panel (ObservedOne la 3) release (frozen (a_century + 1)) = Panic.
Proof.
  split; [vm_compute; split; discriminate|].
  split; [repeat constructor; vm_compute; discriminate|].
  vm_compute. auto.
Qed.

(** The world of the case of C39, in a release build. *)
Example c59_processing_case :
  Forall (sound release 100 100) (processor_instruments group_mount)
  /\ Forall (request_sound release 100 100) [Collect 2 (DropOlderThan 100 true); Write true []; Collect 3 ProcessAll]
  /\ world_sound release 100 100 group_world
  /\ match serve 5 group_mount [Collect 2 (DropOlderThan 100 true); Write true []; Collect 3 ProcessAll]
             release group_world with
     | Ok _ _ => True
     | _ => False
     end
  /\ serve 5 group_mount [Collect 2 (DropOlderThan 101 true)] release group_world = Panic.
Proof.
  split; [repeat constructor|].
  split; [repeat constructor; vm_compute; discriminate|].
  split; [|vm_compute; auto].
  constructor.
  - intros n. split; apply Z.le_refl.
  - cbn. intros i m [].
  - cbn. intros i m [].
  - intros [|n] i a m Hi Hm; cbn in Hi; [|destruct Hi].
    repeat (destruct Hi as [Hi|Hi]; [injection Hi as <- <-; cbn in Hm; destruct Hm as [<-|[]]; constructor|]). destruct Hi.
  - intros [|n] i a m Hi Hm; cbn in Hi; [|destruct Hi].
    repeat (destruct Hi as [Hi|Hi]; [discriminate|]). destruct Hi.
Qed.

(** A driver with its own metrics, a processor and a request for a snapshot. *)
Definition safe_time : Z := 100 * nanos_per_sec.
Definition safe_dworld : dworld toy toyp :=
  DWorld (World (frozen safe_time) (fun _ => chan_new None) (fun _ => chan_new None) (fun _ => []))
    (chan_new None) 1 true [] []
    (fun n => match n with
              | 0%nat => [Call (CAddProcessor (group_tele 1)); Call (CGetSnapshotSync [] 0 true)]
              | _ => []
              end).
Definition safe_start : M (driver toy toyp) :=
  driver_start (Some "d") no_descr (DropOlderThan safe_time true) true.
Example c59_driver_case :
  safe release safe_time safe_time safe_start (driver_sound release safe_time safe_time)
  /\ dworld_sound release safe_time safe_time safe_dworld
  /\ match safe_start release (frozen safe_time) with
     | Ok d _ =>
         match run_iterations 2 d release safe_dworld with
         | Ok (Some _) w => List.length (dw_answers w) = 1%nat
         | _ => False
         end
     | _ => False
     end.
Proof.
  split; [|split].
  - apply c59_start; [apply toy_safe|..]; vm_compute; split; discriminate.
  - constructor.
    + constructor; cbn; try tauto. intros n. split; apply Z.le_refl.
    + cbn. tauto.
    + intros [|n] c0 H; cbn in H; [|destruct H]. destruct H as [H|[H|[]]]; injection H as <-; [|exact I].
      repeat constructor.
  - vm_compute. reflexivity.
Qed.
