(** C97: asking instruments for their options. *)
From Coq Require Import ZArith Bool String List Floats.SpecFloat.
From Verif Require Import Base SpecRun ModelObservation ModelLabelFilter ModelSnapshot ModelSwitches ModelInstrument
  ModelValues ModelConfig ModelGetters SpecConfig GettersProofs Toy.
Import ListNotations.
Open Scope string_scope.
Open Scope list_scope.
Open Scope Z_scope.

(** C97. An instrument lives through a history [h] of setter calls and
    observations in any order. Asked for an option, it then answers with the
    value it was given last, or with the documented default. *)
Theorem c97_staircase_timer : forall name h k c x ns c',
  run_all (live staircase_config staircase_update) (staircase_new name) h k c = Ok (x, ns) c' ->
  staircase_get_name x = asked a_name name h /\
  staircase_get_invert x = asked a_invert false h /\
  staircase_get_switch_off_after x = asked a_off_after (60 * nanos_per_sec) h.
Proof. exact staircase_getters. Qed.
Print Assumptions c97_staircase_timer.

Example c97_staircase_timer_case :
  match run_all (live staircase_config staircase_update) (staircase_new "s")
          [Sets inverted; Arrives (OneObservation 0); Sets (SetSwitchOffAfter 5); Sets (SetName "t"); Sets (SetSwitchOffAfter 7)]
          release (frozen 0) with
  | Ok (x, _) _ => (staircase_get_name x, staircase_get_invert x, staircase_get_switch_off_after x) = ("t", true, 7)
  | _ => False
  end.
Proof. reflexivity. Qed.

Theorem c97_occurrence_indicator : forall name k0 c0 x0 h k c x ns c',
  occurrence_new name k0 c0 = Ok x0 c ->
  run_all (live occurrence_config occurrence_update) x0 h k c = Ok (x, ns) c' ->
  occurrence_get_name x = asked a_name name h /\
  occurrence_is_inverted x = asked a_invert false h /\
  occurrence_get_if_happened_within x = asked a_within (60 * nanos_per_sec) h.
Proof. exact occurrence_getters. Qed.
Print Assumptions c97_occurrence_indicator.

Example c97_occurrence_indicator_case :
  match (let* x := occurrence_new "o" in
         run_all (live occurrence_config occurrence_update) x
           [Sets (SetWithin 10); Sets inverted; Arrives (OneObservation 0); Sets (SetInvert false)])
        release (frozen 100000000000) with
  | Ok (x, _) _ => (occurrence_get_name x, occurrence_is_inverted x, occurrence_get_if_happened_within x) = ("o", false, 10)
  | _ => False
  end.
Proof. reflexivity. Qed.

Theorem c97_non_occurrence_indicator : forall name k0 c0 x0 h k c x ns c',
  non_occurrence_new name k0 c0 = Ok x0 c ->
  run_all (live non_occurrence_config non_occurrence_update) x0 h k c = Ok (x, ns) c' ->
  non_occurrence_get_name x = asked a_name name h /\
  non_occurrence_is_inverted x = asked a_invert false h /\
  non_occurrence_get_if_not_happened_within x = asked a_within (60 * nanos_per_sec) h.
Proof. exact non_occurrence_getters. Qed.
Print Assumptions c97_non_occurrence_indicator.

Example c97_non_occurrence_indicator_case :
  match (let* x := non_occurrence_new "o" in
         run_all (live non_occurrence_config non_occurrence_update) x
           [Arrives (OneObservation 0); Sets (SetName "silent"); Sets inverted])
        release (frozen 100000000000) with
  | Ok (x, _) _ =>
      (non_occurrence_get_name x, non_occurrence_is_inverted x, non_occurrence_get_if_not_happened_within x)
      = ("silent", true, 60000000000)
  | _ => False
  end.
Proof. reflexivity. Qed.

(** [is_inverted] is the only function on which [set_invert_enabled] has an
    effect, see [c64_last_occurrence_tracker]. *)
Theorem c97_last_occurrence_tracker : forall name h k c x ns c',
  run_all (live last_occurrence_config last_occurrence_update) (last_occurrence_new name) h k c = Ok (x, ns) c' ->
  last_occurrence_get_name x = asked a_name name h /\
  last_occurrence_is_inverted x = asked a_invert false h /\
  last_occurrence_get_make_none_zero x = asked a_none_zero false h.
Proof. exact last_occurrence_getters. Qed.
Print Assumptions c97_last_occurrence_tracker.

Example c97_last_occurrence_tracker_case :
  match run_all (live last_occurrence_config last_occurrence_update) (last_occurrence_new "l")
          [Sets (SetNoneZero true); Sets inverted; Arrives (OneObservation 0); Sets (SetName "ago")]
          release (frozen 0) with
  | Ok (x, _) _ =>
      (last_occurrence_get_name x, last_occurrence_is_inverted x, last_occurrence_get_make_none_zero x)
      = ("ago", true, true)
  | _ => False
  end.
Proof. reflexivity. Qed.

Theorem c97_data_display : forall name h k c x ns c',
  run_all (live display_config display_update) (display_new name) h k c = Ok (x, ns) c' ->
  display_get_name x = asked a_name name h /\
  display_get_reset_after x = asked a_reset_after None h /\
  display_get_reset_value x = asked a_reset_value None h.
Proof. exact display_getters. Qed.
Print Assumptions c97_data_display.

Example c97_data_display_case :
  match run_all (live display_config display_update) (display_new "d")
          [Sets (SetResetAfter 9); Arrives (OneObservation 0); Sets (SetResetValue (Boolean true))]
          release (frozen 0) with
  | Ok (x, _) _ =>
      (display_get_name x, display_get_reset_after x, display_get_reset_value x) = ("d", Some 9, Some (Boolean true))
  | _ => False
  end.
Proof. reflexivity. Qed.

Theorem c97_polling_instrument : forall name h k c x ns c',
  run_all (live polling_config nothing_arrives) (polling_new name) h k c = Ok (x, ns) c' ->
  polling_get_name x = asked a_name name h /\
  polling_create_group_with_name x = asked a_group false h.
Proof. exact polling_getters. Qed.
Print Assumptions c97_polling_instrument.

Example c97_polling_instrument_case :
  match run_all (live polling_config nothing_arrives) (polling_new "p")
          [Sets (SetGroup true); Sets (SetName "q")] release (frozen 0) with
  | Ok (x, _) _ => (polling_get_name x, polling_create_group_with_name x) = ("q", true)
  | _ => False
  end.
Proof. reflexivity. Qed.
