(** C56. *)
From Coq Require Import ZArith Bool String List Lia.
From Verif Require Import Base SpecRun MonadFacts ModelObservation ModelLabelFilter ModelSnapshot ModelCounter ModelBuckets
  ModelGauge ModelMeter ModelHistogram ModelSwitches ModelInstrument ModelTree ModelChannel ModelProcessor
  ModelDriver SpecSafe SpecReads ReadsWorldProofs ReadsDriverProofs Toy PropCollect.
Import ListNotations.
Open Scope string_scope.
Open Scope list_scope.
Open Scope Z_scope.

(** Snapshots inserted into the history of an instrument, a panel, a handler or a
    cockpit change neither a later snapshot nor the number of updates of a
    later observation. *)
Theorem c56_instruments : forall X k (i : instrument X), parts_quiet X ->
  insertions_do_not_matter (handling instrument_update instrument_put k) operation_reads i.
Proof. intros X k i HX. exact (instrument_reads HX k i). Qed.
Print Assumptions c56_instruments.

Theorem c56_panels : forall X k (p : panel X), parts_quiet X ->
  insertions_do_not_matter (handling panel_handle panel_put k) operation_reads p.
Proof. intros X k p HX. exact (panel_reads HX k p). Qed.
Print Assumptions c56_panels.

Theorem c56_handlers : forall X k (h : handler X), parts_quiet X ->
  insertions_do_not_matter (handling handler_handle handler_put k) operation_reads h.
Proof. intros X k h HX. exact (handler_reads HX k h). Qed.
Print Assumptions c56_handlers.

Theorem c56_cockpits : forall X k (c : cockpit X), parts_quiet X ->
  insertions_do_not_matter (handling cockpit_handle cockpit_put k) operation_reads c.
Proof. intros X k c HX. exact (cockpit_reads HX k c). Qed.
Print Assumptions c56_cockpits.

(** Snapshots inserted between the collections and snapshots of a processor, with
    whatever the senders do, change neither a later snapshot nor the outcome of
    a later collection. *)
Theorem c56_processors : forall X Y k depth (p : processor X Y) w, parts_quiet X -> processors_quiet Y ->
  insertions_do_not_matter (serving k depth) request_reads (p, w).
Proof. intros X Y k depth p w HX HY. exact (processor_reads HX HY k depth p w). Qed.
Print Assumptions c56_processors.

(** Snapshots inserted between the commands and collections of a driver without
    metrics of its own change no later answer. *)
Theorem c56_drivers : forall X Y k (d : driver X Y) w, parts_quiet X -> processors_quiet Y -> dr_metrics d = None ->
  insertions_do_not_matter (driving k) driver_operation_reads (d, w).
Proof. intros X Y k d w HX HY. exact (driver_reads HX HY k d w). Qed.
Print Assumptions c56_drivers.

(** ** Cases *)

Lemma toy_quiet : parts_quiet toy.
Proof.
  constructor; intros; unfold stays, unchanged; intros; cbn in *;
    match goal with E : _ = Ok _ _ |- _ => inversion E; reflexivity end.
Qed.
Lemma toyp_quiet : processors_quiet toyp.
Proof.
  constructor; intros; unfold stays, unchanged; intros; cbn in *;
    match goal with E : _ = Ok _ _ |- _ => inversion E; reflexivity end.
Qed.

(** A gauge that tracks for three seconds and a meter. Both keep their numbers in
    fields that change when a snapshot is taken. *)
Definition s_ (n : Z) : Z := n * nanos_per_sec.
Definition watched : option (panel toy) :=
  at_clock debug (frozen (s_ 10))
    (let* g := gauge_set_tracking (gauge_new "gauge") 3 in
     let* m := meter_new (ex_alphas toy) "meter" in
     ret (Panel (PanelData (AcceptAll : label_filter (lab toy)) (Some "watched") no_descr 0 None true)
            (Slots None (Some (ga_new g)) (Some (adapter_new m)) None) [] [] [])).
Definition tellv (v t : Z) : operation (observation (lab toy)) := Handle (ObservedOneValue la (SignedInteger v) t).
Definition watched_history : list (bool * (Z * operation (observation (lab toy)))) :=
  [(false, (s_ 11, tellv 5 0));
   (true, (s_ 12, Read false []));
   (true, (s_ 13, Read true []));
   (false, (s_ 13, tellv 3 0));
   (false, (s_ 13, Read false []));
   (true, (s_ 16, Read false []));
   (false, (s_ 16, Read false []));
   (true, (s_ 20, Read false []));
   (false, (s_ 40, Read false []))].

(** A snapshot changes the panel, the results stay the same. *)
Example c56_case :
  in_order 0 (whole watched_history)
  /\ Forall (fun e => fst e = true -> operation_reads (snd (snd e)) = true) watched_history
  /\ match watched with
     | Some p =>
         match answers (handling panel_handle panel_put debug) p (without_marked watched_history),
               answers (handling panel_handle panel_put debug) p (whole watched_history),
               panel_handle p (ObservedOneValue la (SignedInteger 5) 0) debug (frozen (s_ 11)) with
         | Some rs1, Some rs2, Ok (p', _) _ =>
             match panel_put p' false [] debug (frozen (s_ 20)) with Ok (p'', _) _ => p'' <> p' | _ => False end
             /\ rs1 = unmarked watched_history rs2
             /\ match rs1 with
                | [Updated 2; Updated 2; Written s1; Written s2; Written s3] =>
                    find s1 "watched/gauge_peak" <> find s2 "watched/gauge_peak" /\ s1 <> s3
                | _ => False
                end
         | _, _, _ => False
         end
     | None => False
     end.
Proof.
  split; [vm_compute; repeat split; discriminate|].
  split; [repeat (apply Forall_cons; [cbn; auto|]); apply Forall_nil|].
  vm_compute. split; [intros E; inversion E|]. split; [reflexivity|]. repeat split; intros E; inversion E.
Qed.

(** Two collections of the processor of C35, with snapshots before, between and
    after them. *)
Definition busy_requests : list (bool * (Z * request)) :=
  [(true, (100, Write true [])); (false, (101, Collect 2 ProcessAll)); (true, (102, Write false []));
   (false, (102, Collect 5 (DropOlderThan 10 true))); (false, (103, Write false []))].
Example c56_processors_case :
  in_order 0 (whole busy_requests)
  /\ Forall (fun e => fst e = true -> request_reads (snd (snd e)) = true) busy_requests
  /\ match answers (serving debug 3) (PTele busy_tele, busy_world) (without_marked busy_requests),
           answers (serving debug 3) (PTele busy_tele, busy_world) (whole busy_requests) with
     | Some rs1, Some rs2 =>
         rs1 = unmarked busy_requests rs2
         /\ match rs1 with
            | [Collected (Outcome 2 0 _ _); Collected (Outcome 1 1 _ _); Written (_ :: _)] => True
            | _ => False
            end
     | _, _ => False
     end.
Proof.
  split; [vm_compute; repeat split; discriminate|].
  split; [repeat (apply Forall_cons; [cbn; auto|]); apply Forall_nil|].
  vm_compute. auto.
Qed.

(** A driver with the processor of C35. *)
Definition asked_dworld : dworld toy toyp :=
  DWorld busy_world (chan_new None) 1 true [] [] (fun _ => []).
Definition asked_driver (m : bool) : option (driver toy toyp) :=
  at_clock debug (frozen (s_ 100)) (let* d := driver_start (Some "driver") no_descr ProcessAll m in
                                    ret (driver_add_processor d (PTele busy_tele))).
Definition asked_history : list (bool * (Z * driver_operation toy toyp)) :=
  [(true, (s_ 100, Execute (call_snapshot 1 true))); (false, (s_ 101, Run)); (true, (s_ 101, Execute (call_snapshot_async 2 false)));
   (false, (s_ 102, Execute (CAddProcessor (PTele busy_tele)))); (false, (s_ 103, Execute (call_snapshot 3 false)))].
Example c56_drivers_case :
  in_order 0 (whole asked_history)
  /\ Forall (fun e => fst e = true -> driver_operation_reads (snd (snd e)) = true) asked_history
  /\ match asked_driver false with
     | Some d =>
         dr_metrics d = None
         /\ match answers (driving debug) (d, asked_dworld) (without_marked asked_history),
                  answers (driving debug) (d, asked_dworld) (whole asked_history) with
            | Some rs1, Some rs2 =>
                rs1 = unmarked asked_history rs2
                /\ match rs1 with [[]; []; [(3%nat, _ :: _)]] => True | _ => False end
                /\ match rs2 with [[(1%nat, s1)]; []; [(2%nat, s2)]; []; [(3%nat, s3)]] => s1 <> s2 | _ => False end
            | _, _ => False
            end
     | None => False
     end.
Proof.
  split; [vm_compute; repeat split; discriminate|].
  split; [repeat (apply Forall_cons; [cbn; auto|]); apply Forall_nil|].
  vm_compute. split; [reflexivity|]. split; [reflexivity|]. split; [exact I|]. intros E. inversion E.
Qed.

(** The metrics of a driver are different: they count the snapshots. *)
Theorem c56_driver_metrics_refuted : exists k (d : driver toy toyp) w,
  ~ insertions_do_not_matter (driving k) driver_operation_reads (d, w).
Proof.
  exists debug.
  destruct (asked_driver true) as [d|] eqn:Ed; [|discriminate Ed].
  exists d, asked_dworld. intros H.
  assert (F : match asked_driver true with
              | Some d =>
                  match answers (driving debug) (d, asked_dworld) (without_marked asked_history),
                        answers (driving debug) (d, asked_dworld) (whole asked_history) with
                  | Some rs1, Some rs2 => rs1 <> unmarked asked_history rs2
                  | _, _ => False
                  end
              | None => False
              end) by (vm_compute; intros E; inversion E).
  rewrite Ed in F.
  destruct (answers (driving debug) (d, asked_dworld) (without_marked asked_history)) as [rs1|] eqn:E1; [|exact F].
  destruct (answers (driving debug) (d, asked_dworld) (whole asked_history)) as [rs2|] eqn:E2; [|exact F].
  destruct c56_drivers_case as (Ho & Hm & _). exact (F (H _ _ _ _ Ho Hm E1 E2)).
Qed.
Print Assumptions c56_driver_metrics_refuted.
