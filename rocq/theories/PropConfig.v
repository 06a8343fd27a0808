(** C64: configuring components. *)
From Coq Require Import ZArith Bool String List Floats.SpecFloat.
From Verif Require Import Base SpecRun ModelObservation ModelLabelFilter ModelSnapshot ModelCounter ModelGauge ModelMeter
  ModelHistogram ModelSwitches ModelInstrument ModelTree ModelProcessor ModelValues ModelConfig SpecConfig ConfigProofs
  ConfigTreeProofs Toy.
Import ListNotations.
Open Scope string_scope.
Open Scope list_scope.
Open Scope Z_scope.

(** C64. A component lives through a history [h] of setter calls and
    observations in any order. Each option then has the value it was given last
    ([asked]). The settings that only concern the presentation have no influence on
    what is measured: a component [y] that lived through the same history without
    them has measured the same. The snapshot is given exactly. *)

Theorem c64_counter : forall name h k c x ns c',
  run_all (live counter_config counter_update) (counter_new name) h k c = Ok (x, ns) c' ->
  exists y ns',
    run_all (live counter_config counter_update) (counter_new name) (unadorned h) k c = Ok (y, ns') c' /\
    forall b, counter_put x b [] =
              descriptive_fields b (asked a_name name h) h ++
              [(asked a_name name h, UInt (counter_get y))].
Proof. exact @counter_life. Qed.
Print Assumptions c64_counter.

Definition c64_history : list (event update) :=
  [Sets (SetTitle "old"); Arrives (Observations 3 0); Sets (SetName "requests"); Sets (SetTitle "Requests");
   Arrives (OneObservation 1); Sets (SetDescription "all of them")].

Example c64_counter_case :
  match run_all (live counter_config counter_update) (counter_new "c") c64_history release (frozen 0) with
  | Ok (x, _) _ =>
      counter_put x true [] =
      [("_title_requests", Text "Requests"); ("_description_requests", Text "all of them"); ("requests", UInt 4)]
  | _ => False
  end.
Proof. reflexivity. Qed.

(** [tracked]: what a gauge that remembers values shows in addition *)
Theorem c64_gauge : forall name h k c x ns c',
  run_all (live gauge_config gauge_update) (gauge_new name) h k c = Ok (x, ns) c' ->
  g_display_time_unit x = asked a_unit Microseconds h /\
  exists y ns',
    run_all (live gauge_config gauge_update) (gauge_new name) (unadorned h) k c = Ok (y, ns') c' /\
    gauge_get x = gauge_get y /\
    forall k2 c2 y' s c3, gauge_put y false [] k2 c2 = Ok (y', s) c3 ->
      exists tracked,
        map fst tracked = (if asked a_tracking false h
                           then match gauge_get y with Some _ => tracked_labels | None => [] end else []) /\
        s = gauge_fields false name (gauge_get y) tracked /\
        forall b, exists x', gauge_put x b [] k2 c2 =
          Ok (x', descriptive_fields b (asked a_name name h) h ++
                    gauge_fields (asked a_group false h) (asked a_name name h) (gauge_get y) tracked) c3.
Proof. exact @gauge_life. Qed.
Print Assumptions c64_gauge.

Example c64_gauge_case :
  match run_all (live gauge_config gauge_update) (gauge_new "g")
          [Sets (SetTracking 60); Arrives (ObservationWithValue (SignedInteger 7) 0); Sets (SetGroup true);
           Sets (SetName "open"); Arrives (ObservationWithValue (ChangedBy (-3)) 0); Sets (SetUnit Seconds);
           Arrives (ObservationWithValue (DurationValue 5000 Milliseconds) 0)] release (frozen 100000000000) with
  | Ok (x, _) _ =>
      match gauge_put x false [] release (frozen 100000000000) with
      | Ok (_, [(n, ItemSnapshot ((l, Int v) :: tracked))]) _ =>
          n = "open" /\ l = "current" /\ v = 5 /\ map fst tracked = tracked_labels
          /\ lookup "peak" tracked = Some (Int 7) /\ lookup "bottom" tracked = Some (Int 4)
      | _ => False
      end
  | _ => False
  end.
Proof. repeat split; reflexivity. Qed.

(** Rates below the cutoff are shown as 0. *)
Theorem c64_meter : forall al name k0 c0 x0 h k c x ns c',
  meter_new al name k0 c0 = Ok x0 c ->
  run_all (live meter_config meter_update) x0 h k c = Ok (x, ns) c' ->
  exists y ns',
    run_all (live meter_config meter_update) x0 (unadorned h) k c = Ok (y, ns') c' /\
    forall k2 c2 y' s c3,
      (let* all := configured meter_config y show_everything in meter_put all false []) k2 c2 = Ok (y', s) c3 ->
      exists n r1 r5 r15,
        s = meter_fields name n (plain_rate "one_minute" r1) (plain_rate "five_minutes" r5)
              (plain_rate "fifteen_minutes" r15) /\
        forall b, exists x', meter_put x b [] k2 c2 =
          Ok (x', descriptive_fields b (asked a_name name h) h ++
                  let cutoff := asked a_cutoff one_thousandth h in
                  meter_fields (asked a_name name h) n
                    (rate_field (asked a_one true h) "one_minute" cutoff r1)
                    (rate_field (asked a_five false h) "five_minutes" cutoff r5)
                    (rate_field (asked a_fifteen false h) "fifteen_minutes" cutoff r15)) c3.
Proof. exact @meter_life. Qed.
Print Assumptions c64_meter.

Example c64_meter_case :
  match (let* x := meter_new (Alphas f64_zero f64_zero f64_zero) "m" in
         let* '(x, _) := run_all (live meter_config meter_update) x
           [Arrives (Observations 4 0); Sets (SetFiveMinutes true); Sets (SetOneMinute false); Sets (SetName "hits");
            Arrives (OneObservation 0)] in
         meter_put x false []) release (frozen 100000000000) with
  | Ok (_, s) _ =>
      s = [("hits", ItemSnapshot [("count", UInt 5); ("five_minutes", ItemSnapshot [("rate", Float f64_zero)])])]
  | _ => False
  end.
Proof. reflexivity. Qed.

Theorem c64_value_meter : forall al name k0 c0 x0 h k c x ns c',
  value_meter_new al name k0 c0 = Ok x0 c ->
  run_all (live value_meter_config value_meter_update) x0 h k c = Ok (x, ns) c' ->
  vm_display_time_unit x = asked a_unit Microseconds h /\
  exists y ns',
    run_all (live value_meter_config value_meter_update) x0 (unadorned h) k c = Ok (y, ns') c' /\
    forall k2 c2 y' s c3,
      (let* all := configured value_meter_config y show_everything in value_meter_put all false []) k2 c2 = Ok (y', s) c3 ->
      exists n r1 r5 r15,
        s = meter_fields name n (plain_rate "one_minute" r1) (plain_rate "five_minutes" r5)
              (plain_rate "fifteen_minutes" r15) /\
        forall b, exists x', value_meter_put x b [] k2 c2 =
          Ok (x', descriptive_fields b (asked a_name name h) h ++
                  let cutoff := asked a_cutoff one_thousandth h in
                  meter_fields (asked a_name name h) n
                    (rate_field (asked a_one true h) "one_minute" cutoff r1)
                    (rate_field (asked a_five false h) "five_minutes" cutoff r5)
                    (rate_field (asked a_fifteen false h) "fifteen_minutes" cutoff r15)) c3.
Proof. exact @value_meter_life. Qed.
Print Assumptions c64_value_meter.

Example c64_value_meter_case :
  match (let* x := value_meter_new (Alphas f64_zero f64_zero f64_zero) "m" in
         let* '(x, _) := run_all (live value_meter_config value_meter_update) x
           [Sets (SetUnit Milliseconds); Arrives (ObservationWithValue (DurationValue 4 Seconds) 0);
            Sets (SetOneMinute false); Sets (SetName "ms")] in
         value_meter_put x false []) release (frozen 100000000000) with
  | Ok (_, s) _ => s = [("ms", ItemSnapshot [("count", UInt 4000)])]
  | _ => False
  end.
Proof. reflexivity. Qed.

Theorem c64_histogram : forall (H : histo_ops) name k0 c0 x0 h k c x ns c',
  histogram_new H name k0 c0 = Ok x0 c ->
  run_all (live histogram_config histogram_update) x0 h k c = Ok (x, ns) c' ->
  (h_display_time_unit x = asked a_unit Microseconds h /\
   h_max_inactivity x = asked a_limit None h /\
   h_reset_after_inactivity x = asked a_reset true h) /\
  exists y ns',
    run_all (live histogram_config histogram_update) x0 (unadorned h) k c = Ok (y, ns') c' /\
    forall k2 c2 s c3, histogram_put y false [] k2 c2 = Ok s c3 ->
      exists activity values,
        map fst activity =
          match asked a_limit None h with Some _ => ["_inactive"; "_active"]%string | None => [] end /\
        histogram_labels (map fst values) /\
        s = [(name, ItemSnapshot (activity ++ values))] /\
        forall b, histogram_put x b [] k2 c2 =
          Ok (descriptive_fields b (asked a_name name h) h ++
              [(asked a_name name h,
                ItemSnapshot ((if asked a_show_activity true h then activity else []) ++ values))]) c3.
Proof. exact @histogram_life. Qed.
Print Assumptions c64_histogram.

Example c64_histogram_case :
  match (let* x := histogram_new toy_histo "h" in
         let* '(x, _) := run_all (live histogram_config histogram_update) x
           [Sets (SetLimit 5000000000); Arrives (ObservationWithValue (SignedInteger 4) 0); Sets (SetName "sizes")] in
         let* '(y, _) := run_all (live histogram_config histogram_update) x [Sets (SetShowActivity false)] in
         let* s := histogram_put x false [] in
         let* s2 := histogram_put y false [] in
         ret (s, s2)) release (frozen 100000000000) with
  | Ok ([(n, ItemSnapshot l)], [(n2, ItemSnapshot l2)]) _ =>
      n = "sizes" /\ map fst l = ["_inactive"; "_active"; "count"; "max"; "min"; "mean"; "stddev"; "quantiles"]
      /\ n2 = "sizes" /\ map fst l2 = ["count"; "max"; "min"; "mean"; "stddev"; "quantiles"]
  | _ => False
  end.
Proof. repeat split; reflexivity. Qed.

Theorem c64_flag : forall name h k c x ns c',
  run_all (live flag_config (fun x u => ret (flag_update x u))) (flag_new name) h k c = Ok (x, ns) c' ->
  exists y ns',
    run_all (live flag_config (fun x u => ret (flag_update x u))) (flag_new name) (unadorned h) k c = Ok (y, ns') c' /\
    forall b, flag_put x b [] =
      descriptive_fields b (asked a_name name h) h ++
      match flag_get_state y with
      | None => []
      | Some s =>
          (asked a_name name h, Boolean s) ::
          match asked a_show_inverted None h with
          | None => []
          | Some a => [(inverted_name a (asked a_name name h), Boolean (negb s))]
          end
      end.
Proof. exact @flag_life. Qed.
Print Assumptions c64_flag.

Example c64_flag_case :
  match run_all (live flag_config (fun x u => ret (flag_update x u))) (flag_new "f")
          [Sets (show_inverted_prefixed "not_"); Arrives (ObservationWithValue (BoolValue true) 0);
           Sets (show_inverted_postfixed "_off"); Sets (SetState false); Sets (SetName "on")] release (frozen 0) with
  | Ok (x, _) _ => flag_put x false [] = [("on", Boolean false); ("on_off", Boolean true)]
  | _ => False
  end.
Proof. reflexivity. Qed.

Theorem c64_staircase_timer : forall name  h k c x ns c',
  run_all (live staircase_config staircase_update) (staircase_new name) h k c = Ok (x, ns) c' ->
  st_switch_off_after x = asked a_off_after (60 * nanos_per_sec) h /\
  exists y ns',
    run_all (live staircase_config staircase_update) (staircase_new name) (unadorned h) k c = Ok (y, ns') c' /\
    forall b k2 c2,
      staircase_put x b [] k2 c2 =
      switch_fields (staircase_state y) (descriptive_fields b (asked a_name name h) h) (asked a_name name h)
        (asked a_invert false h) (asked a_show_inverted None h) k2 c2.
Proof. exact @staircase_life. Qed.
Print Assumptions c64_staircase_timer.

Example c64_staircase_timer_case :
  match (let* '(x, _) := run_all (live staircase_config staircase_update) (staircase_new "s")
           [Sets (inverted); Sets (SetSwitchOffAfter 10); Arrives (OneObservation 0); Sets (SetShowInverted (Rename "light"))] in
         staircase_put x false []) release (frozen 5) with
  | Ok s _ => s = [("s", Boolean false); ("light", Boolean true)]
  | _ => False
  end.
Proof. reflexivity. Qed.

Theorem c64_occurrence_indicator : forall name k0 c0 x0 h k c x ns c',
  occurrence_new name k0 c0 = Ok x0 c ->
  run_all (live occurrence_config occurrence_update) x0 h k c = Ok (x, ns) c' ->
  oi_if_happened_within x = asked a_within (60 * nanos_per_sec) h /\
  exists y ns',
    run_all (live occurrence_config occurrence_update) x0 (unadorned h) k c = Ok (y, ns') c' /\
    forall b k2 c2,
      occurrence_put x b [] k2 c2 =
      switch_fields (occurrence_state y) (descriptive_fields b (asked a_name name h) h) (asked a_name name h)
        (asked a_invert false h) (asked a_show_inverted None h) k2 c2.
Proof. exact @occurrence_life. Qed.
Print Assumptions c64_occurrence_indicator.

Example c64_occurrence_indicator_case :
  match (let* x := occurrence_new "o" in
         let* '(x, _) := run_all (live occurrence_config occurrence_update) x
           [Sets (SetWithin 10); Arrives (OneObservation 0); Sets (SetTitle "t")] in
         occurrence_put x true []) release (frozen 100000000000) with
  | Ok s _ => s = [("_title_o", Text "t"); ("o", Boolean true)]
  | _ => False
  end.
Proof. reflexivity. Qed.

Theorem c64_non_occurrence_indicator : forall name k0 c0 x0 h k c x ns c',
  non_occurrence_new name k0 c0 = Ok x0 c ->
  run_all (live non_occurrence_config non_occurrence_update) x0 h k c = Ok (x, ns) c' ->
  ni_if_not_happened_within x = asked a_within (60 * nanos_per_sec) h /\
  exists y ns',
    run_all (live non_occurrence_config non_occurrence_update) x0 (unadorned h) k c = Ok (y, ns') c' /\
    forall b k2 c2,
      non_occurrence_put x b [] k2 c2 =
      switch_fields (non_occurrence_state y) (descriptive_fields b (asked a_name name h) h) (asked a_name name h)
        (asked a_invert false h) (asked a_show_inverted None h) k2 c2.
Proof. exact @non_occurrence_life. Qed.
Print Assumptions c64_non_occurrence_indicator.

Example c64_non_occurrence_indicator_case :
  match (let* x := non_occurrence_new "o" in
         let* '(x, _) := run_all (live non_occurrence_config non_occurrence_update) x
           [Arrives (OneObservation 0); Sets (SetWithin 10); Sets (SetName "silent"); Sets inverted] in
         non_occurrence_put x true []) release (frozen 100000000000) with
  | Ok s _ => s = [("silent", Boolean true)]
  | _ => False
  end.
Proof. reflexivity. Qed.

(** [set_invert] has no effect. *)
Theorem c64_last_occurrence_tracker : forall name h k c x ns c',
  run_all (live last_occurrence_config last_occurrence_update) (last_occurrence_new name) h k c = Ok (x, ns) c' ->
  exists y ns',
    run_all (live last_occurrence_config last_occurrence_update) (last_occurrence_new name) (unadorned h) k c =
      Ok (y, ns') c' /\
    forall b k2 c2, exists c3,
      (last_occurrence_put y false [] k2 c2 = Ok [] c3 /\
       last_occurrence_put x b [] k2 c2 =
         Ok (descriptive_fields b (asked a_name name h) h ++
             (if asked a_none_zero false h then [(asked a_name name h, Int 0)] else [])) c3) \/
      exists v,
        last_occurrence_put y false [] k2 c2 = Ok [(name, UInt v)] c3 /\
        last_occurrence_put x b [] k2 c2 =
          Ok (descriptive_fields b (asked a_name name h) h ++ [(asked a_name name h, UInt v)]) c3.
Proof. exact @last_occurrence_life. Qed.
Print Assumptions c64_last_occurrence_tracker.

Example c64_last_occurrence_tracker_case :
  match (let* '(x, _) := run_all (live last_occurrence_config last_occurrence_update) (last_occurrence_new "l")
           [Sets (SetNoneZero true); Sets (SetName "ago")] in
         let* s := last_occurrence_put x true [] in
         let* '(x, _) := run_all (live last_occurrence_config last_occurrence_update) x [Arrives (OneObservation 0); Sets inverted] in
         let* s2 := last_occurrence_put x true [] in
         ret (s, s2)) release (fun i => Z.of_nat i * 7000000000) with
  | Ok (s, s2) _ => s = [("ago", Int 0)] /\ s2 = [("ago", UInt 7)]
  | _ => False
  end.
Proof. split; reflexivity. Qed.

Theorem c64_data_display : forall name h k c x ns c',
  run_all (live display_config display_update) (display_new name) h k c = Ok (x, ns) c' ->
  (dd_reset_after x = asked a_reset_after None h /\ dd_reset_value x = asked a_reset_value None h) /\
  exists y ns',
    run_all (live display_config display_update) (display_new name) (unadorned h) k c = Ok (y, ns') c' /\
    forall b k2 c2, exists shown c3,
      display_put y false [] k2 c2 =
        Ok (match shown with Some v => [(name, v)] | None => [] end) c3 /\
      display_put x b [] k2 c2 =
        Ok (descriptive_fields b (asked a_name name h) h ++
            match shown with Some v => [(asked a_name name h, v)] | None => [] end) c3.
Proof. exact @display_life. Qed.
Print Assumptions c64_data_display.

Example c64_data_display_case :
  match (let* '(x, _) := run_all (live display_config display_update) (display_new "d")
           [Sets (SetResetAfter 10); Sets (SetResetValue (Text "none")); Arrives (ObservationWithValue (SignedInteger (-4)) 0);
            Sets (SetDescription "last value")] in
         display_put x true []) release (frozen 100000000000) with
  | Ok s _ => s = [("_description_d", Text "last value"); ("d", Int (-4))]
  | _ => False
  end.
Proof. reflexivity. Qed.

Theorem c64_constant_value : forall name v h k c x ns c',
  run_all (live constant_value_config nothing_arrives) (constant_value_new name v) h k c = Ok (x, ns) c' ->
  forall b, constant_value_put x b [] =
    descriptive_fields b (asked a_name name h) h ++ [(asked a_name name h, item_of_source v)].
Proof. exact @constant_value_life. Qed.
Print Assumptions c64_constant_value.

Example c64_constant_value_case :
  match run_all (live constant_value_config nothing_arrives) (constant_value_new "v" (FromString "1.0"))
          [Sets (SetName "version"); Sets (SetTitle "Version")] release (frozen 0) with
  | Ok (x, _) _ => constant_value_put x true [] = [("_title_version", Text "Version"); ("version", Text "1.0")]
  | _ => False
  end.
Proof. reflexivity. Qed.

Theorem c64_polling_instrument : forall name h k c x ns c',
  run_all (live polling_config nothing_arrives) (polling_new name) h k c = Ok (x, ns) c' ->
  forall P (poll : bool -> snapshot -> M (P * snapshot)) b k2 c2,
    polling_put poll x b [] k2 c2 =
    (let fields := descriptive_fields b (asked a_name name h) h in
     if asked a_group false h then
       let* '(p, level) := poll b [] in ret (p, fields ++ [(asked a_name name h, ItemSnapshot level)])
     else poll b fields) k2 c2.
Proof. exact @polling_life. Qed.
Print Assumptions c64_polling_instrument.

Example c64_polling_instrument_case :
  match (let* '(x, _) := run_all (live polling_config nothing_arrives) (polling_new "p")
           [Sets (SetGroup true); Sets (SetName "heap")] in
         polling_put (fun _ s => ret (tt, push s "bytes" (UInt 9))) x true []) release (frozen 0) with
  | Ok (_, s) _ => s = [("heap", ItemSnapshot [("bytes", UInt 9)])]
  | _ => False
  end.
Proof. reflexivity. Qed.

(** A panel that was just created and given its contents *)
Theorem c64_panel : forall (X : ext) (x0 : panel X) h k c x ns c',
  panel_name x0 = None -> pd_descr (p_data x0) = no_descr -> pd_limit (p_data x0) = None ->
  pd_show_activity (p_data x0) = true ->
  run_all (live panel_config panel_handle) x0 h k c = Ok (x, ns) c' ->
  panel_name x = asked a_opt_name None h /\
  (forall l, panel_accepts_label x l = panel_accepts_label x0 l) /\
  exists y ns',
    run_all (live panel_config panel_handle) x0 (arrivals h) k c = Ok (y, ns') c' /\
    forall b k2 c2,
      written (panel_put x b []) k2 c2 =
      group_fields (asked a_opt_name None h) (asked a_title None h) (asked a_description None h)
        (asked a_limit None h) (asked a_show_activity true h) b (pd_last_update (p_data x0))
        (fun into => written (panel_put y b into)) k2 c2.
Proof. exact @panel_life. Qed.
Print Assumptions c64_panel.

Example c64_panel_case :
  match (let* x := panel_new (X := toy) (One la) in
         let x := panel_add_counter x (adapter_new (counter_new "count")) in
         let* '(x, _) := run_all (live panel_config panel_handle) x
           [Sets (SetLimit 5); Arrives (ObservedOne la 0); Sets (SetName "old"); Sets (SetTitle "Panel");
            Arrives (ObservedOne lb 0); Sets (SetName "panel"); Arrives (Observed la 2 0)] in
         panel_put x true []) release (frozen 100000000000) with
  | Ok (_, s) _ =>
      s = [("panel", ItemSnapshot [("_title", Text "Panel"); ("_inactive", Boolean false); ("_active", Boolean true);
                                   ("count", UInt 3)])]
  | _ => False
  end.
Proof. reflexivity. Qed.

Theorem c64_cockpit : forall (X : ext) (x0 : cockpit X) h k c x ns c',
  cockpit_name x0 = None -> cd_descr (c_data x0) = no_descr -> cd_limit (c_data x0) = None ->
  cd_show_activity (c_data x0) = true ->
  run_all (live cockpit_config cockpit_handle) x0 h k c = Ok (x, ns) c' ->
  cockpit_name x = asked a_opt_name None h /\
  exists y ns',
    run_all (live cockpit_config cockpit_handle) x0 (arrivals h) k c = Ok (y, ns') c' /\
    forall b k2 c2,
      written (cockpit_put x b []) k2 c2 =
      group_fields (asked a_opt_name None h) (asked a_title None h) (asked a_description None h)
        (asked a_limit None h) (asked a_show_activity true h) b (cd_last_activity (c_data y))
        (fun into => written (cockpit_put y b into)) k2 c2.
Proof. exact @cockpit_life. Qed.
Print Assumptions c64_cockpit.

Example c64_cockpit_case :
  match (let* x := cockpit_default (X := toy) in
         let x := cockpit_add_panel x toy_inner in
         let* '(x, _) := run_all (live cockpit_config cockpit_handle) x
           [Sets (SetLimit 5); Arrives (ObservedOne lb 0); Sets (SetShowActivity false); Sets (SetName "all")] in
         cockpit_put x false []) release (frozen 100000000000) with
  | Ok (_, s) _ => s = [("all", ItemSnapshot [("inner_count", UInt 1)])]
  | _ => False
  end.
Proof. reflexivity. Qed.

(** A processor and a mount have no setters for title and description. *)
Theorem c64_telemetry_processor : forall (X : ext) (x0 : tele X) l k c x c',
  tp_name x0 = None -> tp_descr x0 = no_descr -> tp_limit x0 = None -> tp_show_activity x0 = true ->
  configured tele_config x0 l k c = Ok x c' ->
  tp_name x = latest a_opt_name None l /\ tp_receiver x = tp_receiver x0 /\ tp_disconnected x = tp_disconnected x0 /\
  forall b k2 c2,
    written (tele_put x b []) k2 c2 =
    group_fields (latest a_opt_name None l) None None
      (latest a_limit None l) (latest a_show_activity true l) b (tp_last_activity x0)
      (fun into => written (tele_put x0 b into)) k2 c2.
Proof. exact @tele_life. Qed.
Print Assumptions c64_telemetry_processor.

Example c64_telemetry_processor_case :
  match (let* x := tele_new (X := toy) None 0 in
         let x := tele_add_cockpit x toy_cockpit in
         let* x := configured tele_config x [SetName "p"; SetLimit 5; SetName "q"] in
         tele_put x false []) release (frozen 100000000000) with
  | Ok (_, [(n, ItemSnapshot (a :: b :: _))]) _ =>
      n = "q" /\ a = ("_inactive", Boolean false) /\ b = ("_active", Boolean true)
  | _ => False
  end.
Proof. repeat split; reflexivity. Qed.

Theorem c64_processor_mount : forall (X : ext) (Y : pext) d ps ss l k c x c',
  md_name d = None -> md_descr d = no_descr -> md_limit d = None ->
  configured (mount_config (X := X) (Y := Y)) (Mount d ps ss) l k c = Ok x c' ->
  forall b k2 c2,
    written (mount_put x b []) k2 c2 =
    group_fields (latest a_opt_name None l) None None (latest a_limit None l) true b (md_last_activity d)
      (fun into => written (mount_put (Mount d ps ss) b into)) k2 c2.
Proof. exact @mount_life. Qed.
Print Assumptions c64_processor_mount.

Example c64_processor_mount_case :
  match (let* x := mount_default (X := toy) (Y := toyp) in
         let x := mount_add_snapshooter_dyn x (SConstant (ConstantValue "v" no_descr (Int 1))) in
         let* x := configured mount_config x [SetLimit 5; SetName "m"; SetLimit 7] in
         mount_put x true []) release (fun i => Z.of_nat i * 8) with
  | Ok (_, s) _ => s = [("m", ItemSnapshot [("_inactive", Boolean true); ("_active", Boolean false)])]
  | _ => False
  end.
Proof. reflexivity. Qed.

