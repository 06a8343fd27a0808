(** C82: the driver's own metrics are told about every collection and every snapshot. *)
From Coq Require Import ZArith Bool String List Lia.
From Verif Require Import Base SpecRun MonadFacts SpecClock ModelObservation ModelLabelFilter ModelSnapshot ModelGauge ModelMeter ModelHistogram
  ModelSwitches ModelInstrument ModelTree ModelChannel ModelProcessor ModelDriver SpecWriting SpecTree SpecQueue SpecCollect SpecDriver
  SpecSite SpecHistogram DriverProofs DriverLoopProofs DriverShapeProofs SpecMetrix MetrixProofs MetrixFigures
  Toy PropGroup PropFollow PropSite PropDriver.
Import ListNotations.
Open Scope string_scope.
Open Scope list_scope.
Open Scope Z_scope.

(** Each of the fourteen lives through exactly what it is told: the collections of
    the driver and the snapshots it answers with, in their order. *)
Theorem c82_life : forall (X : ext) (Y : pext), parts_tick X -> processors_tick Y ->
  forall k n (d : driver X Y) w log d' w',
  history k n d w log d' w' -> monotone (w_clock (dw_world w)) ->
  later (w_clock (dw_world w)) (w_clock (dw_world w'))
  /\ forall i, dr_metrics d = Some i -> exists i' rs ss ans, dr_metrics d' = Some i'
       /\ live X k (w_clock (dw_world w)) (w_clock (dw_world w')) (metrics_of X i) (told rs ss) (metrics_of X i')
       /\ timeline (w_clock (dw_world w') O) (w_clock (dw_world w) O) rs log
       /\ dw_answers w' = dw_answers w ++ ans /\ List.length ss = List.length ans
       /\ shots (w_clock (dw_world w') O) (w_clock (dw_world w) O) ss.
Proof. intros X Y HX HY. exact (history_live HX HY). Qed.
Print Assumptions c82_life.

(** The next snapshot shows all of them; it is itself one of the snapshots they
    are told about. *)
Theorem c82_shown : forall (X : ext) (Y : pext), parts_tick X -> processors_tick Y ->
  forall k n (d : driver X Y) w log d1 w1 cmd b de d2 w2,
  history k n d w log d1 w1 -> monotone (w_clock (dw_world w)) ->
  cmd = call_snapshot b de \/ cmd = call_snapshot_async b de -> driver_command d1 cmd k w1 = Ok d2 w2 ->
  forall i, dr_metrics d = Some i -> exists i1 rs ss ans x y c1 c2 snap inner,
    live X k (w_clock (dw_world w)) c1 (metrics_of X i) (told rs (ss ++ [(x, y)])) (metrics_of X i1)
    /\ timeline (w_clock (dw_world w1) O) (w_clock (dw_world w) O) rs log
    /\ shots (w_clock (dw_world w1) O) (w_clock (dw_world w) O) ss
    /\ w_clock (dw_world w1) O <= x /\ x <= y /\ y <= w_clock (dw_world w2) O
    /\ dw_answers w1 = dw_answers w ++ ans /\ List.length ss = List.length ans
    /\ dw_answers w2 = dw_answers w1 ++ [(b, snap)] /\ shows_metrix d1 [] snap inner
    /\ later (w_clock (dw_world w1)) c1 /\ display X k de c1 (metrics_of X i1) [] inner c2 /\ later c2 (w_clock (dw_world w2)).
Proof. intros X Y HX HY. exact (life_displayed HX HY). Qed.
Print Assumptions c82_shown.

(** From the start of the driver: the numbers in the snapshot. *)
Theorem c82_figures : forall (X : ext) (Y : pext), parts_tick X -> processors_tick Y ->
  forall contents, counting (ex_histo X) contents ->
  forall k name ds s c (d : driver X Y) c1 v sched n log d1 w1 cmd b de d2 w2,
  monotone c -> driver_start name ds s true k c = Ok d c1 -> later c1 (w_clock v) ->
  history k n d (new_world v sched) log d1 w1 -> modest log ->
  cmd = call_snapshot b de \/ cmd = call_snapshot_async b de -> driver_command d1 cmd k w1 = Ok d2 w2 ->
  exists snap inner rs ss,
    dw_answers w2 = dw_answers w1 ++ [(b, snap)] /\ shows_metrix d1 [] snap inner
    /\ timeline (w_clock (dw_world w1) O) (w_clock v O) rs log
    /\ shots (w_clock (dw_world w2) O) (w_clock v O) ss /\ List.length ss = List.length (dw_answers w2)
    /\ figures X contents (c O) (w_clock (dw_world w2) O) rs ss log inner.
Proof. intros X Y HX HY contents Hc. exact (start_figures HX HY contents Hc). Qed.
Print Assumptions c82_figures.

(** The two gauges of a new driver track a minute. *)
Theorem c82_gauges : forall (X : ext) (Y : pext) k name ds s c (d : driver X Y) c1, driver_start name ds s true k c = Ok d c1 ->
  exists i, dr_metrics d = Some i /\ tracks_a_minute (di_observations_enqueued i) /\ tracks_a_minute (di_per_mille_ratio i).
Proof. exact start_gauges. Qed.
Print Assumptions c82_gauges.

Example c82_gauges_case :
  match driver_start (X := toy) (Y := toyp) None no_descr ProcessAll true release (frozen (100 * nanos_per_sec)) with
  | Ok d _ => match dr_metrics d with
              | Some i => option_map (fun b => length (ModelBuckets.b_buckets b)) (g_tracking (di_per_mille_ratio i)) = Some 60%nat
              | None => False
              end
  | _ => False
  end.
Proof. vm_compute. reflexivity. Qed.

(** A driver with one processor: there is an old observation and there are two
    recent ones. A snapshot is asked for in the second iteration. *)
Definition own_sched (i : nat) : list (client_action toy toyp) :=
  match i with
  | 0%nat => [Call (call_add_processor (group_tele 1)); Call (call_snapshot 0 false)]
  | _ => []
  end.
Definition own_world (c : clock) : world toy toyp :=
  World c (fun i => match i with
                    | 1%nat => chan_run (chan_new None) [Acts (tell la 1); Acts (tell lb (1001 * nanos_per_sec)); Acts (tell la (1002 * nanos_per_sec))]
                    | _ => chan_new None
                    end) (fun _ => chan_new None) (fun _ => []).

(** The history of iterations *)
Fixpoint chronicle {X Y} (k : cfg) (n : nat) (d : driver X Y) (w : dworld X Y) : option (list (Z * outcome * Z) * driver X Y * dworld X Y) :=
  match n with
  | O => Some ([], d, w)
  | S n =>
      match load_running k w with
      | Ok true wa =>
          match timed now k wa with
          | Ok t0 wb =>
              match command_try_recv k wb with
              | Ok Disconnected _ => None
              | Ok r wc =>
                  match (match r with Message c => driver_command d c | _ => ret d end) k wc with
                  | Ok dm wd =>
                      if dr_paused dm then
                        match chronicle k n dm wd with Some (log, d2, w2) => Some (log, d2, w2) | None => None end
                      else
                        match driver_run dm t0 k wd, lift now k (dw_world wd) with
                        | Ok d1 w1, Ok _ v1 =>
                            match do_a_run (dr_processors dm) 1000 (dr_strategy dm) k v1 with
                            | Ok (_, o) v2 =>
                                match chronicle k n d1 w1 with
                                | Some (log, d2, w2) => Some ((w_clock v2 O, o, w_clock (dw_world w1) O) :: log, d2, w2)
                                | None => None
                                end
                            | _ => None
                            end
                        | _, _ => None
                        end
                  | _ => None
                  end
              | _ => None
              end
          | _ => None
          end
      | _ => None
      end
  end.

Lemma chronicle_history : forall X Y k n (d : driver X Y) w log d' w', chronicle k n d w = Some (log, d', w') -> history k n d w log d' w'.
Proof.
  intros X Y k n. induction n as [|n IH]; intros d w log d' w' E; cbn [chronicle] in E; [injection E as <- <- <-; constructor|].
  destruct (load_running k w) as [[|] wa| |] eqn:E1; try discriminate E. destruct (timed now k wa) as [t0 wb| |] eqn:E2; try discriminate E.
  destruct (command_try_recv k wb) as [r wc| |] eqn:E3; try discriminate E.
  assert (D : r <> Disconnected) by (intros ->; discriminate E).
  assert (E' : match (match r with Message c => driver_command d c | _ => ret d end) k wc with
    | Ok dm wd =>
        if dr_paused dm then
          match chronicle k n dm wd with Some (log, d2, w2) => Some (log, d2, w2) | None => None end
        else
          match driver_run dm t0 k wd, lift now k (dw_world wd) with
          | Ok d1 w1, Ok _ v1 =>
              match do_a_run (dr_processors dm) 1000 (dr_strategy dm) k v1 with
              | Ok (_, o) v2 =>
                  match chronicle k n d1 w1 with
                  | Some (log, d2, w2) => Some ((w_clock v2 O, o, w_clock (dw_world w1) O) :: log, d2, w2)
                  | None => None
                  end
              | _ => None
              end
          | _, _ => None
          end
    | _ => None
    end = Some (log, d', w')) by (destruct r; [exact E | exact E | discriminate E]).
  clear E. rename E' into E.
  destruct ((match r with Message c => driver_command d c | _ => ret d end) k wc) as [dm wd| |] eqn:E4; try discriminate E.
  destruct (dr_paused dm) eqn:P.
  - destruct (chronicle k n dm wd) as [[[log1 d2] w2]|] eqn:E5; [|discriminate E]. injection E as <- <- <-.
    change log1 with ([] ++ log1). eapply hi_step; try eassumption; [|exact (IH _ _ _ _ _ E5)]. constructor. exact P.
  - destruct (driver_run dm t0 k wd) as [d1 w1| |] eqn:E5; try discriminate E. destruct (lift now k (dw_world wd)) as [t v1| |] eqn:E6; try discriminate E.
    destruct (do_a_run (dr_processors dm) 1000 (dr_strategy dm) k v1) as [[ps o] v2| |] eqn:E7; try discriminate E.
    destruct (chronicle k n d1 w1) as [[[log1 d2] w2]|] eqn:E8; [|discriminate E]. injection E as <- <- <-.
    change ((w_clock v2 O, o, w_clock (dw_world w1) O) :: log1) with ([(w_clock v2 O, o, w_clock (dw_world w1) O)] ++ log1).
    eapply hi_step; try eassumption; [|exact (IH _ _ _ _ _ E8)]. eapply co_collects; eassumption.
Qed.

Example own_counts : counting (ex_histo toy) (fun l => l).
Proof.
  constructor.
  - intros k c x c' E. cbn in E. injection E as <- <-. split; [reflexivity|]. exists 1%nat. reflexivity.
  - intros x v k c x' c' E. cbn in E. injection E as <- <-. split; [reflexivity|]. exists 1%nat. reflexivity.
  - reflexivity.
Qed.

(** What happened and the counts in both snapshots: collections, processed, dropped,
    updated, snapshots and the collections and snapshots with a time. *)
Definition own_run : option (list (Z * outcome * Z) * list (nat * list find_result)) :=
  match quiet_start (Some "drv") with
  | Ok d c1 =>
      match chronicle debug 2 d (new_world (own_world c1) own_sched) with
      | Some (log, d1, w1) =>
          match driver_command d1 (call_snapshot_async 5 false) debug w1 with
          | Ok _ w2 =>
              let counts s := map (fun n => find_item (ItemSnapshot s) ["drv"; "_metrix"; n; "count"])
                ["collections_per_second"; "observations_processed_per_second"; "observations_dropped_per_second"; "instruments_updated_per_second";
                 "snapshots_per_second"; "collection_times_us"; "snapshots_times_us"] in
              Some (log, map (fun a => (fst a, counts (snd a))) (dw_answers w2))
          | _ => None
          end
      | None => None
      end
  | _ => None
  end.
Example c82_case :
  match own_run with
  | Some (log, l) => map (fun e => snd (fst e)) log = [Outcome 2 1 15 0; Outcome 0 0 0 0]
      /\ l = [(0%nat, map (fun n => Found (UInt n)) [1; 2; 1; 15; 1; 1; 1]); (5%nat, map (fun n => Found (UInt n)) [2; 2; 1; 15; 2; 2; 2])]
  | None => False
  end.
Proof. vm_compute. auto. Qed.

Lemma own_found : forall (q : res clock (driver toy toyp)) (sched : nat -> list (client_action toy toyp)) (v : clock -> world toy toyp) k n cmd outs,
  match q with
  | Ok d c1 =>
      match chronicle k n d (new_world (v c1) sched) with
      | Some (log, d1, w1) => match driver_command d1 cmd k w1 with Ok _ _ => map (fun e => snd (fst e)) log = outs | _ => False end
      | None => False
      end
  | _ => False
  end ->
  exists d c1 log d1 w1 d2 w2, q = Ok d c1 /\ history k n d (new_world (v c1) sched) log d1 w1
    /\ map (fun e => snd (fst e)) log = outs /\ driver_command d1 cmd k w1 = Ok d2 w2.
Proof.
  intros q sched v k n cmd outs G. destruct q as [d c1| |]; try contradiction.
  destruct (chronicle k n d (new_world (v c1) sched)) as [[[log d1] w1]|] eqn:E; [|contradiction].
  destruct (driver_command d1 cmd k w1) as [d2 w2| |] eqn:E2; try contradiction.
  exists d, c1, log, d1, w1, d2, w2. split; [reflexivity|]. split; [exact (chronicle_history _ _ _ _ _ _ _ _ _ E)|]. auto.
Qed.

Example c82_hypotheses : exists (d : driver toy toyp) c1 log d1 w1 d2 w2,
  monotone quiet_clock /\ quiet_start (Some "drv") = Ok d c1 /\ later c1 (w_clock (own_world c1))
  /\ history debug 2 d (new_world (own_world c1) own_sched) log d1 w1 /\ modest log
  /\ driver_command d1 (call_snapshot_async 5 false) debug w1 = Ok d2 w2.
Proof.
  assert (G : exists d c1 log d1 w1 d2 w2, quiet_start (Some "drv") = Ok d c1 /\ history debug 2 d (new_world (own_world c1) own_sched) log d1 w1
    /\ map (fun e => snd (fst e)) log = [Outcome 2 1 15 0; Outcome 0 0 0 0] /\ driver_command d1 (call_snapshot_async 5 false) debug w1 = Ok d2 w2)
    by (apply own_found; vm_compute; reflexivity).
  destruct G as (d & c1 & log & d1 & w1 & d2 & w2 & E & H & O & C).
  exists d, c1, log, d1, w1, d2, w2. split. { intros i. unfold quiet_clock. lia. }
  split; [exact E|]. split; [exists 0%nat; reflexivity|]. split; [exact H|]. split; [|exact C].
  clear - O. destruct log as [|[[? o1] ?] [|[[? o2] ?] [|? ?]]]; try discriminate O. cbn [map fst snd] in O. injection O as -> ->.
  unfold modest. repeat (apply Forall_cons; [cbn [fst snd oc_processed oc_dropped oc_instruments_updated oc_enqueued]; lia|]). apply Forall_nil.
Qed.
