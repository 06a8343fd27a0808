(** C83: the share of the collections in the iterations of a driver. *)
From Coq Require Import ZArith Bool String List Lia.
From Verif Require Import Base SpecRun MonadFacts SpecClock ModelObservation ModelLabelFilter ModelSnapshot ModelGauge ModelMeter ModelHistogram
  ModelSwitches ModelInstrument ModelTree ModelChannel ModelProcessor ModelDriver SpecWriting SpecTree SpecQueue SpecCollect SpecDriver
  SpecSite SpecHistogram DriverProofs DriverLoopProofs SpecMetrix SpecRatio RatioFigures
  Toy PropGroup PropFollow PropSite PropDriver PropMetrix.
Import ListNotations.
Open Scope string_scope.
Open Scope list_scope.
Open Scope Z_scope.

(** For each collection with a ratio there is a number of thousandths, never more than
    1000; the snapshot shows the last one and the statistics of all of them. *)
Theorem c83_ratios : forall (X : ext) (Y : pext), parts_tick X -> processors_tick Y ->
  forall contents, counting (ex_histo X) contents ->
  forall k name ds s c (d : driver X Y) c1 v sched n log d1 w1 cmd b de d2 w2,
  monotone c -> driver_start name ds s true k c = Ok d c1 -> later c1 (w_clock v) ->
  history k n d (new_world v sched) log d1 w1 -> w_clock (dw_world w1) O < w_clock v O + 2 ^ 53 * nanos_per_sec ->
  cmd = call_snapshot b de \/ cmd = call_snapshot_async b de -> driver_command d1 cmd k w1 = Ok d2 w2 ->
  exists snap inner rs,
    dw_answers w2 = dw_answers w1 ++ [(b, snap)] /\ shows_metrix d1 [] snap inner
    /\ timeline (w_clock (dw_world w1) O) (w_clock v O) rs log /\ ratio_figures X contents rs inner.
Proof. intros X Y HX HY contents Hc. exact (start_ratios HX HY contents Hc). Qed.
Print Assumptions c83_ratios.

(** It is not always the exact number: 70 of 10000 microseconds are 7 thousandths but
    6 are recorded. *)
Theorem c83_inexact : exists k (i : driver_instruments toy) c c' i' run_time iteration_time,
  0 <= run_time <= iteration_time /\ (1000 * run_time) mod iteration_time = 0
  /\ report_elapsed_stats (c O - iteration_time) run_time (Some i) k c = Ok (Some i') c'
  /\ g_value (di_per_mille_ratio i') = Some 6 /\ 1000 * run_time / iteration_time = 7.
Proof.
  assert (G : match driver_instruments_default (X := toy) debug (frozen (100 * nanos_per_sec)) with
    | Ok i c =>
        match report_elapsed_stats (c O - 10000000) 70000 (Some i) debug c with
        | Ok (Some i') _ => g_value (di_per_mille_ratio i') = Some 6
        | _ => False
        end
    | _ => False
    end) by (vm_compute; reflexivity).
  destruct (driver_instruments_default (X := toy) debug (frozen (100 * nanos_per_sec))) as [i c| |]; try contradiction.
  destruct (report_elapsed_stats (c O - 10000000) 70000 (Some i) debug c) as [[i'|] c'| |] eqn:E; try contradiction.
  exists debug, i, c, c', i', 70000, 10000000. split; [lia|]. split; [reflexivity|]. split; [exact E|]. split; [exact G|]. reflexivity.
Qed.
Print Assumptions c83_inexact.

(** In the first iteration something was dropped, so there is no ratio; the second one
    took 4 % of the time. *)
Definition ratio_run : option (list find_result) :=
  match quiet_start (Some "drv") with
  | Ok d c1 =>
      match chronicle debug 2 d (new_world (own_world c1) own_sched) with
      | Some (log, d1, w1) =>
          if w_clock (dw_world w1) O <? w_clock (own_world c1) O + 2 ^ 53 * nanos_per_sec then
            match driver_command d1 (call_snapshot 6 false) debug w1 with
            | Ok _ w2 =>
                Some (flat_map (fun a => [find_item (ItemSnapshot (snd a)) ["drv"; "_metrix"; "iteration_update_ratio_per_mille"; "current"];
                                          find_item (ItemSnapshot (snd a)) ["drv"; "_metrix"; "iteration_update_ratio_per_mille_histo"; "count"]]) (dw_answers w2))
            | _ => None
            end
          else None
      | None => None
      end
  | _ => None
  end.
Example c83_case : ratio_run = Some [NotFound; Found (UInt 0); Found (Int 40); Found (UInt 1)].
Proof. vm_compute. reflexivity. Qed.

Lemma ratio_found : forall (q : res clock (driver toy toyp)) (sched : nat -> list (client_action toy toyp)) (v : clock -> world toy toyp) k n cmd,
  match q with
  | Ok d c1 =>
      match chronicle k n d (new_world (v c1) sched) with
      | Some (log, d1, w1) =>
          if w_clock (dw_world w1) O <? w_clock (v c1) O + 2 ^ 53 * nanos_per_sec then
            match driver_command d1 cmd k w1 with Ok _ _ => true | _ => false end
          else false
      | None => false
      end
  | _ => false
  end = true ->
  exists d c1 log d1 w1 d2 w2, q = Ok d c1 /\ history k n d (new_world (v c1) sched) log d1 w1
    /\ w_clock (dw_world w1) O < w_clock (v c1) O + 2 ^ 53 * nanos_per_sec /\ driver_command d1 cmd k w1 = Ok d2 w2.
Proof.
  intros q sched v k n cmd G. destruct q as [d c1| |]; try discriminate G.
  destruct (chronicle k n d (new_world (v c1) sched)) as [[[log d1] w1]|] eqn:E; [|discriminate G].
  destruct (Z.ltb_spec (w_clock (dw_world w1) O) (w_clock (v c1) O + 2 ^ 53 * nanos_per_sec)) as [L|]; [|discriminate G].
  destruct (driver_command d1 cmd k w1) as [d2 w2| |] eqn:E2; try discriminate G.
  exists d, c1, log, d1, w1, d2, w2. split; [reflexivity|]. split; [exact (chronicle_history _ _ _ _ _ _ _ _ _ E)|]. auto.
Qed.
Example c83_hypotheses : exists (d : driver toy toyp) c1 log d1 w1 d2 w2,
  quiet_start (Some "drv") = Ok d c1 /\ history debug 2 d (new_world (own_world c1) own_sched) log d1 w1
  /\ w_clock (dw_world w1) O < w_clock (own_world c1) O + 2 ^ 53 * nanos_per_sec /\ driver_command d1 (call_snapshot 6 false) debug w1 = Ok d2 w2.
Proof. apply ratio_found. vm_compute. reflexivity. Qed.
