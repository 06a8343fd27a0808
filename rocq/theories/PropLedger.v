(** C96. *)
From Coq Require Import ZArith Bool String List Lia.
From Verif Require Import Base SpecRun MonadFacts ModelObservation ModelLabelFilter ModelSnapshot ModelCounter
  ModelGauge ModelHistogram ModelSwitches ModelInstrument ModelTree ModelChannel ModelProcessor ModelTransmitter ModelDriver
  SpecClock SpecDriver DriverProofs DriverLoopProofs DriverShapeProofs SpecLedger LedgerProofs
  Toy PropGroup PropFollow PropSite.
Import ListNotations.
Open Scope string_scope.
Open Scope list_scope.
Open Scope Z_scope.

(** Any number of iterations with all their collections: the warnings about
    dropped messages. Each is written in the bookkeeping of a collection, more than
    five seconds after the one before, with the number of all messages dropped
    since; none is written only if nothing was dropped or less time has passed.
    The numbers add up. *)
Theorem c96_warnings : forall X Y, parts_tick X -> processors_tick Y ->
  forall k n (d : driver X Y) w log d' w', monotone (w_clock (dw_world w)) -> history k n d w log d' w' ->
  0 <= dr_dropped_since_last_logged d -> dr_dropped_since_last_logged d + dropped_total log <= u64_max ->
  exists ws, ledger (dr_last_outcome_logged d) (dr_dropped_since_last_logged d) log ws (dr_last_outcome_logged d') (dr_dropped_since_last_logged d')
    /\ sum (map snd ws) + dr_dropped_since_last_logged d' = dr_dropped_since_last_logged d + dropped_total log
    /\ apart (dr_last_outcome_logged d) ws /\ Forall (fun x => 0 < snd x) ws.
Proof. exact @history_ledger. Qed.
Print Assumptions c96_warnings.

(** If a collection ends more than five seconds after the last warning, everything
    is reported afterwards. *)
Theorem c96_prompt : forall X Y, parts_tick X -> processors_tick Y ->
  forall k n (d : driver X Y) w l e d' w', monotone (w_clock (dw_world w)) -> history k n d w (l ++ [e]) d' w' ->
  0 <= dr_dropped_since_last_logged d -> dr_dropped_since_last_logged d + dropped_total (l ++ [e]) <= u64_max ->
  dr_last_outcome_logged d' + 5 * nanos_per_sec < fst (fst e) -> dr_dropped_since_last_logged d' = 0.
Proof. exact history_prompt. Qed.
Print Assumptions c96_prompt.

(** A new driver is ready to warn. *)
Theorem c96_start : forall X Y, parts_tick X -> forall name ds s b k c (d : driver X Y) c1, monotone c ->
  driver_start name ds s b k c = Ok d c1 ->
  dr_dropped_since_last_logged d = 0 /\ c O <= dr_last_outcome_logged d + 60 * nanos_per_sec <= c1 O.
Proof. exact start_ledger. Qed.
Print Assumptions c96_start.

(** ** Cases *)

(** The clock goes on by half a second with each reading. *)
Definition ledger_clock : clock := fun i => 1000 * nanos_per_sec + 500000000 * Z.of_nat i.
Definition ledger_world (c : clock) : world toy toyp :=
  World c (fun _ => chan_new None) (fun _ => chan_new None)
    (fun n => if (Z.of_nat n mod 400 =? 0) && (Z.of_nat n <? 2000) then [OnQueue 1 (Send (MObservation (Observed la 1 0)))] else []).
Definition ledger_sched (i : nat) : list (client_action toy toyp) :=
  match i with 0%nat => [Call (CAddProcessor (group_tele 1))] | _ => [] end.
Definition ledger_after (n : nat) : option (Z * Z) :=
  match driver_start None no_descr (DropOlderThan (30 * nanos_per_sec) false) false debug ledger_clock with
  | Ok d c =>
      match run_iterations n d debug (new_world (ledger_world c) ledger_sched) with
      | Ok (Some d) _ => Some (dr_last_outcome_logged d / 1000000, dr_dropped_since_last_logged d)
      | _ => None
      end
  | _ => None
  end.

(** Two messages that came while the first warning was recent are reported by the
    next one although no other is dropped. Time and number of messages not yet reported after the start and each iteration *)
Example c96_case : map ledger_after [0; 1; 2; 3; 4]%nat
  = [Some (940000, 0); Some (1003500, 0); Some (1003500, 2); Some (1009500, 0); Some (1009500, 0)].
Proof. vm_compute. reflexivity. Qed.

Example c96_hypotheses : exists d d' w' log,
  driver_start None no_descr (DropOlderThan (30 * nanos_per_sec) false) false debug ledger_clock = Ok d (clock_tail ledger_clock)
  /\ monotone (clock_tail ledger_clock)
  /\ history debug 4 d (new_world (ledger_world (clock_tail ledger_clock)) ledger_sched) log d' w'
  /\ 0 <= dr_dropped_since_last_logged d.
Proof.
  set (d := Driver (X := toy) (Y := toyp) None no_descr [] [] (DropOlderThan (30 * nanos_per_sec) false) false None (940 * nanos_per_sec) 0).
  assert (F : match run_iterations 4 d debug (new_world (ledger_world (clock_tail ledger_clock)) ledger_sched) with Ok (Some _) _ => True | _ => False end)
    by (vm_compute; exact I).
  destruct (run_iterations 4 d debug (new_world (ledger_world (clock_tail ledger_clock)) ledger_sched)) as [[d'|] w'| |] eqn:E; [|destruct F..].
  apply run_iterates, iterates_history in E. destruct E as (log & H). exists d, d', w', log.
  split; [reflexivity|]. split; [intros i; unfold clock_tail, ledger_clock; lia|]. split; [exact H | apply Z.le_refl].
Qed.
