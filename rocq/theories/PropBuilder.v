(** C66: drivers that were configured with a builder. *)
From Coq Require Import ZArith Bool String List.
From Verif Require Import Base SpecRun ModelObservation ModelSnapshot ModelInstrument ModelTree ModelChannel ModelProcessor
  ModelDriver ModelConfig SpecConfig SpecBuilder SpecQueue SpecWriting SpecDriver AppendProofs BuilderProofs Toy PropGroup PropDriver.
Import ListNotations.
Open Scope string_scope.
Open Scope list_scope.
Open Scope Z_scope.

(** C66. A driver is built after any calls of the functions of a builder. After any
    number of iterations, in which it received the commands [cs], it still has the
    name and the texts that were asked for last. Its strategy and whether it is paused
    only depend on the commands and on the strategy that was asked for. Unless
    something else was asked for, it drops observations older than 30 seconds, but no
    deltas, and has metrics of its own. *)
Theorem c66_configured : forall (X : ext) (Y : pext) n0 b0 calls k c (d : driver X Y) c1 v sched n d' w',
  new_builder n0 b0 ->
  builder_build (fold_left builder_config calls b0) k c = Ok d c1 ->
  iterates k n d (new_world v sched) d' w' ->
  exists cs,
    moved (dw_commands (new_world v sched)) (dw_commands w') cs
    /\ dr_name d' = latest b_name n0 calls
    /\ dr_descr d' = Descr (latest b_title None calls) (latest b_description None calls)
    /\ dr_strategy d' = strategy_after (latest b_strategy (DropOlderThan 30000000000 false) calls) cs
    /\ dr_paused d' = paused_after false cs
    /\ (dr_metrics d' = None <-> latest b_metrics true calls = false).
Proof. exact @built_configured. Qed.
Print Assumptions c66_configured.

(** Its snapshots *)
Theorem c66_shown : forall (X : ext) (Y : pext), parts_append X -> (forall u, appends (user_proc_put Y u)) ->
  forall n0 b0 calls k c (d : driver X Y) c1 v sched n d' w',
  new_builder n0 b0 ->
  builder_build (fold_left builder_config calls b0) k c = Ok d c1 ->
  iterates k n d (new_world v sched) d' w' ->
  forall de k2 c2 d2 s c3, put_values_into_snapshot d' de [] k2 c2 = Ok (d2, s) c3 ->
  exists body metrix,
    let level :=
      (if de then text_field "_title" (latest b_title None calls)
                  ++ text_field "_description" (latest b_description None calls) else [])
      ++ body ++ metrix in
    s = match latest b_name n0 calls with Some name => [(name, ItemSnapshot level)] | None => level end
    /\ if latest b_metrics true calls
       then exists inner, metrix = [("_metrix", ItemSnapshot inner)] else metrix = [].
Proof. exact @built_shown. Qed.
Print Assumptions c66_shown.

(** Titles are given twice, a name once, the metrics are switched off and on. *)
Definition c66_calls : list builder_call :=
  [BTitle "old"; BMetrics false; BName "drv"; BStrategy (DropOlderThan 10 true); BTitle "Driver"; BMetrics true].

Definition c66_seen (calls : list builder_call) : option (strategy * bool * string * list string) :=
  match builder_build (fold_left builder_config calls (builder_new "first")) debug quiet_clock with
  | Ok d c =>
      match run_iterations 2 d debug (new_world (late_world c) late_sched) with
      | Ok (Some d') w =>
          match put_values_into_snapshot d' true [] debug (w_clock (dw_world w)) with
          | Ok (_, [(n, ItemSnapshot s)]) _ => Some (dr_strategy d', dr_paused d', n, keys s)
          | _ => None
          end
      | _ => None
      end
  | _ => None
  end.

Example c66_case :
  c66_seen c66_calls = Some (DropOlderThan 10 true, false, "drv", ["_title"; "cockpit"; "_metrix"])
  /\ c66_seen [BMetrics false; BDescription "text"]
     = Some (DropOlderThan 30000000000 false, false, "first", ["_description"; "cockpit"]).
Proof. vm_compute. auto. Qed.
