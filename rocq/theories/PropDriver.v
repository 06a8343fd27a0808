(** C49 to C55 and the part of C39 about drivers. *)
From Coq Require Import ZArith Bool String List Lia.
From Verif Require Import Base SpecRun MonadFacts ModelObservation ModelLabelFilter ModelSnapshot ModelCounter
  ModelGauge ModelHistogram ModelSwitches ModelInstrument ModelTree ModelChannel ModelProcessor ModelTransmitter ModelDriver
  SpecClock SpecWriting SpecQueue SpecCollect SpecDriver QueueProofs DriverProofs DriverLoopProofs DriverShapeProofs DriverAlarmProofs
  Toy PropGroup.
Import ListNotations.
Open Scope string_scope.
Open Scope list_scope.
Open Scope Z_scope.

(** ** C39 *)

(** One run of a driver. *)
Theorem c39_driver : forall X Y k (ps : list (processor X Y)) max s w ps' o w',
  do_a_run ps max s k w = Ok (ps', o) w' ->
  exists os, collect_each k max s ps w ps' os w' /\ o = wrapped os.
Proof. intros X Y k ps max s w ps' o w'. apply do_a_run_sums. Qed.
Print Assumptions c39_driver.

Example c39_driver_case :
  match do_a_run [group_tele 1; group_user; group_tele 2] 2 ProcessAll debug group_world with
  | Ok (_, o) _ => o = Outcome 4 0 (oc_instruments_updated o) 1
  | _ => False
  end.
Proof. vm_compute. reflexivity. Qed.

(** ** C49 *)

(** [n] iterations: they take at most [n] commands from the front of the queue,
    and all that were queued when they began (up to [n]). The driver is as the
    commands say, in this order, and each request among them is answered with
    the snapshot of the driver after the commands before the request. *)
Theorem c49_in_order : forall X Y k n (d : driver X Y) w d' w',
  iterates k n d w d' w' -> driver_ok w ->
  exists cs ans,
    moved (dw_commands w) (dw_commands w') cs
    /\ (length cs <= n)%nat
    /\ (exists rest, cs = firstn n (ch_queue (dw_commands w)) ++ rest)
    /\ grown k d cs d'
    /\ dw_answers w' = dw_answers w ++ ans
    /\ Forall2 (answered k d) (requests_in [] cs) ans.
Proof.
  intros X Y k n d w d' w' H Hok. destruct (iterates_spec _ _ _ _ _ _ H Hok) as (cs & ans & [I1 I2 I3 I4 I5 I6] & L & P & _).
  exists cs, ans. auto 7.
Qed.
Print Assumptions c49_in_order.

(** What is in the queue are the commands sent by the threads with handles, in
    the order in which they were sent. *)
Theorem c49_sent : forall X Y k n (d : driver X Y) w d' w',
  iterates k n d w d' w' -> driver_ok w ->
  ch_accepted (dw_commands w') = ch_accepted (dw_commands w) ++ called (dw_guards w) (meanwhile w (2 * n))
  /\ dw_guards w' = guards_after (dw_guards w) (meanwhile w (2 * n))
  /\ driver_ok w'.
Proof.
  intros X Y k n d w d' w' H Hok. destruct (iterates_spec _ _ _ _ _ _ H Hok) as (cs & ans & [I1 I2 I3 I4 I5 I6] & L & P & A & G & _).
  auto.
Qed.
Print Assumptions c49_sent.

(** Commands that meet the driver before, while and after it is paused; the last
    handle goes at the end. *)
Definition talk_sched (i : nat) : list (client_action toy toyp) :=
  match i with
  | 0%nat => [Call (call_add_processor (group_tele 1)); Call (call_snapshot 0 false)]
  | 1%nat => [Call call_pause; CloneHandle]
  | 5%nat => [DropHandleGuard; Call (call_add_processor group_user); Call (call_snapshot_async 1 false); DropHandleSender]
  | 8%nat => [Call call_resume; Call (call_change_processing_strategy ProcessAll)]
  | 13%nat => [Call (call_snapshot 2 false); Call call_pause; DropHandleGuard]
  | _ => []
  end.
(** Observations arrive before the first collection and at the end of the second
    one, just before the driver is paused. *)
Definition talk_world : world toy toyp :=
  World (frozen 100) (fun _ => chan_run (chan_new None) [Acts (tell la 1)]) (fun _ => chan_new None)
    (fun n => if Nat.eqb n (1 + 2 * 1000) then [OnQueue 1 (tell la 2); OnQueue 1 (tell lb 3)] else []).
Definition talk_driver : driver toy toyp := Driver (Some "drv") no_descr [] [] (DropOlderThan 10 true) false None 0 0.

Definition names_in (s : snapshot) : list (list string) :=
  map (fun e => fst e :: match snd e with ItemSnapshot inner => keys inner | _ => [] end) s.

Example c49_case :
  match run_iterations 5 talk_driver debug (new_world talk_world talk_sched) with
  | Ok (Some d1) w1 =>
      dr_paused d1 = true /\ length (dr_processors d1) = 2%nat
      /\ map (fun a => (fst a, names_in (snd a))) (dw_answers w1)
         = [(0%nat, [["drv"; "cockpit"]]); (1%nat, [["drv"; "cockpit"; "user_processor"]])]
      /\ ch_queue (dw_commands w1) = [CResume; CSetProcessingStrategy ProcessAll]
  | _ => False
  end.
Proof. vm_compute. auto. Qed.

(** ** C50 *)

(** As long as no [resume] is executed, a paused driver leaves all queues alone
    and its processors only write snapshots. *)
Theorem c50_paused : forall X Y k n (d : driver X Y) w d' w',
  iterates k n d w d' w' -> driver_ok w -> dr_paused d = true ->
  exists cs,
    moved (dw_commands w) (dw_commands w') cs
    /\ (exists rest, cs = firstn n (ch_queue (dw_commands w)) ++ rest)
    /\ grown k d cs d'
    /\ (~ In CResume cs ->
          resting (dw_world w) (dw_world w')
          /\ Forall2 (asked k) (dr_processors d ++ added_processors cs) (dr_processors d')
          /\ dr_paused d' = true).
Proof.
  intros X Y k n d w d' w' H Hok P. destruct (iterates_spec _ _ _ _ _ _ H Hok) as (cs & ans & [I1 I2 I3 I4 I5 I6] & L & Q & _ & _ & R).
  exists cs. auto 7.
Qed.
Print Assumptions c50_paused.

(** One iteration: the command, if there is one, comes first and decides whether
    everything is collected afterwards, each processor with at most 1000 messages. *)
Theorem c50_iteration : forall X Y k (d : driver X Y) w d1 w1,
  driver_ok w -> driver_iteration d k w = Ok (d1, true) w1 ->
  exists cs,
    moved (dw_commands w) (dw_commands w1) cs /\ (length cs <= 1)%nat
    /\ (exists rest, cs = firstn 1 (ch_queue (dw_commands w)) ++ rest)
    /\ if paused_after (dr_paused d) cs
       then resting (dw_world w) (dw_world w1)
            /\ Forall2 (asked k) (dr_processors d ++ added_processors cs) (dr_processors d1)
       else exists ps v1 os v2,
              Forall2 (asked k) (dr_processors d ++ added_processors cs) ps
              /\ resting (dw_world w) v1
              /\ collect_each k 1000 (strategy_after (dr_strategy d) cs) ps v1 (dr_processors d1) os v2
              /\ resting v2 (dw_world w1).
Proof.
  intros X Y k d w d1 w1 Hok E. destruct (iteration_true _ _ _ _ _ Hok E) as (cs & ans & [I1 I2 I3 I4 I5 I6] & L & P & R & _).
  exists cs. auto.
Qed.
Print Assumptions c50_iteration.

(** Two iterations collect, three are paused, then the driver resumes. *)
Example c50_case :
  match run_iterations 2 talk_driver debug (new_world talk_world talk_sched) with
  | Ok (Some d1) w1 =>
      match run_iterations 3 d1 debug w1 with
      | Ok (Some d2) w2 =>
          match run_iterations 1 d2 debug w2 with
          | Ok (Some d3) w3 =>
              let queued w := length (ch_queue (w_queues (dw_world w) 1)) in
              (dr_paused d1, queued w1) = (false, 2%nat) /\ (dr_paused d2, queued w2) = (true, 2%nat)
              /\ (dr_paused d3, queued w3) = (false, 0%nat)
          | _ => False
          end
      | _ => False
      end
  | _ => False
  end.
Proof. vm_compute. auto. Qed.

(** ** C51 *)

(** The requests sent to a driver are those that were answered, in this order,
    followed by those still queued. *)
Theorem c51_once : forall X Y k n (d : driver X Y) v sched d' w',
  iterates k n d (new_world v sched) d' w' ->
  requested (ch_accepted (dw_commands w')) = map fst (dw_answers w') ++ requested (ch_queue (dw_commands w'))
  /\ dw_unanswered w' = [].
Proof.
  intros X Y k n d v sched d' w' H. destruct (answered_once _ _ _ _ _ _ _ H) as (H1 & H2 & _). auto.
Qed.
Print Assumptions c51_once.

(** When the thread ends, all others get an error. *)
Theorem c51_at_the_end : forall X Y k n (d : driver X Y) v sched d' w1 w',
  iterates k n d (new_world v sched) d' w1 ->
  driver_iteration d' k w1 = Ok (d', false) w' ->
  requested (ch_accepted (dw_commands w')) = map fst (dw_answers w') ++ dw_unanswered w'.
Proof. exact @answered_or_told. Qed.
Print Assumptions c51_at_the_end.

(** A request waits for one iteration for each command before it. *)
Theorem c51_soon : forall X Y k n (d : driver X Y) w d' w',
  iterates k n d w d' w' -> driver_ok w ->
  exists ans, dw_answers w' = dw_answers w ++ ans
    /\ exists rest, map fst ans = requested (firstn n (ch_queue (dw_commands w))) ++ rest.
Proof. exact @answered_soon. Qed.
Print Assumptions c51_soon.

Example c51_case :
  match run_iterations 7 talk_driver debug (new_world talk_world talk_sched) with
  | Ok (Some d1) w1 =>
      match driver_iteration d1 debug w1 with
      | Ok (_, more) w2 =>
          more = false /\ map fst (dw_answers w2) = [0%nat; 1%nat] /\ dw_unanswered w2 = [2%nat]
      | _ => False
      end
  | _ => False
  end.
Proof. vm_compute. auto. Qed.

(** ** C52 *)

(** Without handles the next look at the flag ends the thread: nothing is
    collected or answered any more. *)
Theorem c52_stops : forall X Y k (d : driver X Y) w,
  driver_ok w -> guards_after (dw_guards w) (dw_sched w O) = O ->
  exists w1, driver_iteration d k w = Ok (d, false) w1 /\ dw_world w1 = dw_world w /\ dw_answers w1 = dw_answers w
    /\ dw_guards w1 = O.
Proof. exact @iteration_gone. Qed.
Print Assumptions c52_stops.

(** If the last handle goes during iteration [m + 1] or before the flag is read
    in the next one, there are no more than that many iterations. *)
Theorem c52_at_most : forall X Y k n (d : driver X Y) w d' w',
  iterates k n d w d' w' -> driver_ok w ->
  forall m, guards_after (dw_guards w) (meanwhile w (2 * m + 1)) = O -> (n <= m)%nat.
Proof. exact @iterates_gone. Qed.
Print Assumptions c52_at_most.

(** The thread does not end while there is a handle. *)
Theorem c52_not_before : forall X Y k (d : driver X Y) w d1 w1,
  driver_ok w -> driver_iteration d k w = Ok (d1, false) w1 -> dw_guards w1 = O /\ d1 = d.
Proof.
  intros X Y k d w d1 w1 Hok E. destruct (iteration_false _ _ _ _ _ Hok E) as (H1 & _ & _ & H2 & _). auto.
Qed.
Print Assumptions c52_not_before.

(** There are two handles for a while; the second one goes at operation 13,
    i.e. in iteration 7. *)
Example c52_case :
  guards_after 1 (meanwhile (new_world talk_world talk_sched) 13) = 1%nat
  /\ guards_after 1 (meanwhile (new_world talk_world talk_sched) (2 * 7 + 1)) = 0%nat
  /\ match run_iterations 7 talk_driver debug (new_world talk_world talk_sched) with
     | Ok (Some _) w1 => dw_guards w1 = 0%nat /\ dw_running w1 = false
     | _ => False
     end.
Proof. vm_compute. auto. Qed.

(** ** C53 *)

(** What is true: the alarm is on iff there was no collection within the last
    minute, whatever the collections found. [started]: when the driver's metrics
    were created; [runs]: when the collections were recorded; [at_]: when the
    alarm was asked. *)
Theorem c53_no_collection_partial : forall X Y, parts_tick X -> processors_tick Y ->
  forall k name ds s c (d : driver X Y) c1 v sched n log d1 w1 c2 de into d2 snap c3,
  monotone c -> driver_start name ds s true k c = Ok d c1 ->
  later c1 (w_clock v) -> history k n d (new_world v sched) log d1 w1 ->
  later (w_clock (dw_world w1)) c2 -> put_values_into_snapshot d1 de into k c2 = Ok (d2, snap) c3 ->
  exists inner, shows_metrix d1 into snap inner
    /\ exists started runs at_ b,
         c O <= started <= c1 O /\ Forall2 within runs log /\ c2 O <= at_ <= c3 O
         /\ lookup "inactivity_alarm" inner = Some (Boolean b)
         /\ (b = true <-> Forall (fun t => t + 60 * nanos_per_sec <= at_) (started :: runs)).
Proof.
  intros X Y HX HY k name ds s c d c1 v sched n log d1 w1 c2 de into d2 snap c3 H1 H2 H3 H4 H5 H6.
  destruct (alarms_shown HX HY _ _ _ _ _ _ _ _ _ _ _ _ _ _ _ _ _ _ _ H1 H2 H3 H4 H5 H6) as (inner & A & _ & _ & B). eauto.
Qed.
Print Assumptions c53_no_collection_partial.

(** In particular, as long as the driver collects, it is off even if there are no
    observations. *)
Theorem c53_off_while_collecting : forall X Y, parts_tick X -> processors_tick Y ->
  forall k name ds s c (d : driver X Y) c1 v sched n log d1 w1 c2 de into d2 snap c3 a o e,
  monotone c -> driver_start name ds s true k c = Ok d c1 ->
  later c1 (w_clock v) -> history k n d (new_world v sched) log d1 w1 ->
  later (w_clock (dw_world w1)) c2 -> put_values_into_snapshot d1 de into k c2 = Ok (d2, snap) c3 ->
  In (a, o, e) log -> c3 O < a + 60 * nanos_per_sec ->
  exists inner, shows_metrix d1 into snap inner /\ lookup "inactivity_alarm" inner = Some (Boolean false).
Proof. intros X Y HX HY. apply inactivity_off; assumption. Qed.
Print Assumptions c53_off_while_collecting.

Theorem c53_on_without_collections : forall X Y, parts_tick X -> processors_tick Y ->
  forall k name ds s c (d : driver X Y) c1 v sched n log d1 w1 c2 de into d2 snap c3,
  monotone c -> driver_start name ds s true k c = Ok d c1 ->
  later c1 (w_clock v) -> history k n d (new_world v sched) log d1 w1 ->
  later (w_clock (dw_world w1)) c2 -> put_values_into_snapshot d1 de into k c2 = Ok (d2, snap) c3 ->
  c1 O + 60 * nanos_per_sec <= c2 O ->
  (forall a o e, In (a, o, e) log -> e + 60 * nanos_per_sec <= c2 O) ->
  exists inner, shows_metrix d1 into snap inner /\ lookup "inactivity_alarm" inner = Some (Boolean true).
Proof. intros X Y HX HY. apply inactivity_on; assumption. Qed.
Print Assumptions c53_on_without_collections.

(** Every sequence of iterations has exactly one such history. *)
Theorem c53_histories : forall X Y k n (d : driver X Y) w d' w',
  iterates k n d w d' w' <-> exists! log, history k n d w log d' w'.
Proof.
  intros X Y k n d w d' w'. rewrite iterates_history. split.
  - intros (log & H). exists log. split; [exact H|]. intros log' H'. symmetry. apply (history_definite _ _ _ _ _ _ _ H _ _ _ H').
  - intros (log & H & _). exists log. exact H.
Qed.
Print Assumptions c53_histories.

(** A driver without processors. The clock shows half a second more each time it
    is read. *)
Definition quiet_clock : clock := fun i => 1000 * nanos_per_sec + Z.of_nat i * 500000000.
Definition quiet_world (c : clock) : world toy toyp :=
  World c (fun _ => chan_new None) (fun _ => chan_new None) (fun _ => []).

Definition quiet_start (name : option string) : res clock (driver toy toyp) :=
  driver_start name no_descr (DropOlderThan (30 * nanos_per_sec) false) true debug quiet_clock.

(** The snapshot after [n] iterations: the time when the driver had started, the
    time before and the time after taking the snapshot, the content of [_metrix]. *)
Definition metrix_after (name : option string) (n : nat) (sched : nat -> list (client_action toy toyp))
  (v : clock -> world toy toyp) : option (Z * Z * Z * nat * snapshot) :=
  match quiet_start name with
  | Ok d c1 =>
      match run_iterations n d debug (new_world (v c1) sched) with
      | Ok (Some d1) w1 =>
          match put_values_into_snapshot d1 false [] debug (w_clock (dw_world w1)) with
          | Ok (_, s) c3 =>
              match last s ("", Text "") with
              | (_, ItemSnapshot inner) =>
                  Some (c1 O, w_clock (dw_world w1) O, c3 O, length (dr_processors d1),
                        match name with
                        | Some _ => match last inner ("", Text "") with (_, ItemSnapshot inner) => inner | _ => [] end
                        | None => inner
                        end)
              | _ => None
              end
          | _ => None
          end
      | _ => None
      end
  | _ => None
  end.

(** The documentation is wrong: the driver has no processors, so there were no
    observations in the 90 seconds since it was started. Nevertheless the alarm
    is off. *)
Theorem c53_refuted : exists k c (d : driver toy toyp) c1 v n d1 w1 d2 snap c3 inner,
  monotone c
  /\ driver_start None no_descr (DropOlderThan (30 * nanos_per_sec) false) true k c = Ok d c1
  /\ w_clock v = c1
  /\ iterates k n d (new_world v (fun _ => [])) d1 w1
  /\ dr_processors d1 = []
  /\ c1 O + 60 * nanos_per_sec <= w_clock (dw_world w1) O
  /\ put_values_into_snapshot d1 false [] k (w_clock (dw_world w1)) = Ok (d2, snap) c3
  /\ shows_metrix d1 [] snap inner
  /\ lookup "inactivity_alarm" inner = Some (Boolean false).
Proof.
  assert (F : match quiet_start None with
    | Ok d c1 =>
        match run_iterations 10 d debug (new_world (quiet_world c1) (fun _ => [])) with
        | Ok (Some d1) w1 =>
            match put_values_into_snapshot d1 false [] debug (w_clock (dw_world w1)) with
            | Ok (_, s) c3 =>
                match s with
                | [(n, ItemSnapshot inner)] =>
                    n = "_metrix" /\ dr_name d1 = None /\ dr_processors d1 = []
                    /\ (c1 O + 60 * nanos_per_sec <=? w_clock (dw_world w1) O) = true
                    /\ lookup "inactivity_alarm" inner = Some (Boolean false)
                | _ => False
                end
            | _ => False
            end
        | _ => False
        end
    | _ => False
    end) by (vm_compute; auto 6).
  destruct (quiet_start None) as [d c1| |] eqn:E1; [|destruct F..].
  destruct (run_iterations 10 d debug (new_world (quiet_world c1) (fun _ => []))) as [[d1|] w1| |] eqn:E2; [|destruct F..].
  destruct (put_values_into_snapshot d1 false [] debug (w_clock (dw_world w1))) as [[d2 s] c3| |] eqn:E3; [|destruct F..].
  destruct s as [|[n [| | | | | inner]] [|]]; try (destruct F; fail). destruct F as (-> & F1 & F2 & F3 & F4).
  exists debug, quiet_clock, d, c1, (quiet_world c1), 10%nat, d1, w1, d2, [("_metrix", ItemSnapshot inner)], c3, inner.
  split; [intros i; unfold quiet_clock; rewrite Nat2Z.inj_succ; generalize (1000 * nanos_per_sec); intro; lia|].
  split; [exact E1|]. split; [reflexivity|]. split; [apply run_iterates; exact E2|]. split; [exact F2|].
  split; [apply Z.leb_le; exact F3|]. split; [exact E3|]. split; [|exact F4].
  exists []. rewrite F1. reflexivity.
Qed.
Print Assumptions c53_refuted.

(** ** C54 *)

(** The alarm in a snapshot taken at any time after any number of iterations.
    [taps]: when the collections with losses were recorded; [at_]: when the alarm
    was asked. *)
Theorem c54_alarm : forall X Y, parts_tick X -> processors_tick Y ->
  forall k name ds s c (d : driver X Y) c1 v sched n log d1 w1 c2 de into d2 snap c3,
  monotone c -> driver_start name ds s true k c = Ok d c1 ->
  later c1 (w_clock v) -> history k n d (new_world v sched) log d1 w1 ->
  later (w_clock (dw_world w1)) c2 -> put_values_into_snapshot d1 de into k c2 = Ok (d2, snap) c3 ->
  exists inner, shows_metrix d1 into snap inner
    /\ exists taps at_ b,
         Forall2 within taps (dropping log) /\ c2 O <= at_ <= c3 O
         /\ lookup "dropped_observations_alarm" inner = Some (Boolean b)
         /\ (b = true <-> Exists (fun t => at_ <= t + 60 * nanos_per_sec) taps).
Proof.
  intros X Y HX HY k name ds s c d c1 v sched n log d1 w1 c2 de into d2 snap c3 H1 H2 H3 H4 H5 H6.
  destruct (alarms_shown HX HY _ _ _ _ _ _ _ _ _ _ _ _ _ _ _ _ _ _ _ H1 H2 H3 H4 H5 H6) as (inner & A & _ & B & _). eauto.
Qed.
Print Assumptions c54_alarm.

(** The same without the unknown times. *)
Theorem c54_on : forall X Y, parts_tick X -> processors_tick Y ->
  forall k name ds s c (d : driver X Y) c1 v sched n log d1 w1 c2 de into d2 snap c3 a o e,
  monotone c -> driver_start name ds s true k c = Ok d c1 ->
  later c1 (w_clock v) -> history k n d (new_world v sched) log d1 w1 ->
  later (w_clock (dw_world w1)) c2 -> put_values_into_snapshot d1 de into k c2 = Ok (d2, snap) c3 ->
  In (a, o, e) log -> 0 < oc_dropped o -> c3 O <= a + 60 * nanos_per_sec ->
  exists inner, shows_metrix d1 into snap inner /\ lookup "dropped_observations_alarm" inner = Some (Boolean true).
Proof. intros X Y HX HY. apply dropped_alarm_on; assumption. Qed.
Print Assumptions c54_on.

Theorem c54_off : forall X Y, parts_tick X -> processors_tick Y ->
  forall k name ds s c (d : driver X Y) c1 v sched n log d1 w1 c2 de into d2 snap c3,
  monotone c -> driver_start name ds s true k c = Ok d c1 ->
  later c1 (w_clock v) -> history k n d (new_world v sched) log d1 w1 ->
  later (w_clock (dw_world w1)) c2 -> put_values_into_snapshot d1 de into k c2 = Ok (d2, snap) c3 ->
  (forall a o e, In (a, o, e) log -> 0 < oc_dropped o -> e + 60 * nanos_per_sec < c2 O) ->
  exists inner, shows_metrix d1 into snap inner /\ lookup "dropped_observations_alarm" inner = Some (Boolean false).
Proof. intros X Y HX HY. apply dropped_alarm_off; assumption. Qed.
Print Assumptions c54_off.

(** Old observations are dropped in the first collection. The alarm is on in the
    snapshot taken 21 to 38 seconds after the start and off in the one taken 87 to
    105 seconds after the start. *)
Definition late_sched (i : nat) : list (client_action toy toyp) :=
  match i with 0%nat => [Call (call_add_processor (group_tele 1))] | _ => [] end.
Definition late_world (c : clock) : world toy toyp :=
  World c (fun _ => chan_run (chan_new None) [Acts (tell la 1); Acts (tell lb 2)]) (fun _ => chan_new None) (fun _ => []).
Definition alarm_after (n : nat) : option (Z * Z * option item_kind) :=
  match metrix_after (Some "drv") n late_sched late_world with
  | Some (started, before, after, _, inner) =>
      Some ((before - started) / nanos_per_sec, (after - started) / nanos_per_sec, lookup "dropped_observations_alarm" inner)
  | None => None
  end.
Example c54_case :
  map alarm_after [2%nat; 9%nat] = [Some (21, 38, Some (Boolean true)); Some (87, 105, Some (Boolean false))].
Proof. vm_compute. reflexivity. Qed.

(** ** C55 *)

Theorem c55_shape : forall X Y, parts_append X -> (forall u, appends (user_proc_put Y u)) ->
  forall (d : driver X Y) de into k c d' s c',
  put_values_into_snapshot d de into k c = Ok (d', s) c' ->
  exists body, shows_on_level d into body s /\ consists_of k d de (level_of d into) (clock_tail c) d' body.
Proof. intros X Y HX HY. apply snapshot_shape; assumption. Qed.
Print Assumptions c55_shape.

(** The driver's own metrics. *)
Theorem c55_metrix : forall X Y, parts_tick X -> processors_tick Y ->
  forall k name ds s c (d : driver X Y) c1 v sched n log d1 w1 c2 de into d2 snap c3,
  monotone c -> driver_start name ds s true k c = Ok d c1 ->
  later c1 (w_clock v) -> history k n d (new_world v sched) log d1 w1 ->
  later (w_clock (dw_world w1)) c2 -> put_values_into_snapshot d1 de into k c2 = Ok (d2, snap) c3 ->
  exists inner, shows_metrix d1 into snap inner /\ keys inner = metrix_names.
Proof.
  intros X Y HX HY k name ds s c d c1 v sched n log d1 w1 c2 de into d2 snap c3 H1 H2 H3 H4 H5 H6.
  destruct (alarms_shown HX HY _ _ _ _ _ _ _ _ _ _ _ _ _ _ _ _ _ _ _ H1 H2 H3 H4 H5 H6) as (inner & A & B & _). eauto.
Qed.
Print Assumptions c55_metrix.

Example c55_case :
  match metrix_after (Some "drv") 2 late_sched late_world with
  | Some (_, _, _, n, inner) => n = 1%nat /\ keys inner = metrix_names
  | None => False
  end.
Proof. vm_compute. auto. Qed.

(** Descriptions, two processors and a snapshooter behind what is there already. *)
Definition wide_driver (name : option string) : driver toy toyp :=
  Driver name (Descr (Some "title") None) [group_tele 1; group_user] [SUser (3 : user_snap toy)] ProcessAll false None 0 0.

Example c55_shape_case :
  match put_values_into_snapshot (wide_driver None) true [("x", Int 1)] debug quiet_clock,
        put_values_into_snapshot (wide_driver (Some "drv")) false [("x", Int 1)] debug quiet_clock with
  | Ok (_, s) _, Ok (_, s') _ =>
      keys s = ["x"; "_title"; "cockpit"; "user_processor"; "user_snapshooter"]
      /\ names_in s' = [["x"]; ["drv"; "cockpit"; "user_processor"; "user_snapshooter"]]
  | _, _ => False
  end.
Proof. vm_compute. auto. Qed.
