(** Proofs about asking instruments for their options. *)
From Coq Require Import ZArith Bool String List Lia Floats.SpecFloat.
From Verif Require Import Base SpecRun MonadFacts ModelObservation ModelLabelFilter ModelSnapshot ModelSwitches
  ModelInstrument ModelValues ModelConfig ModelGetters SpecConfig ConfigProofs.
Import ListNotations.
Open Scope Z_scope.

Ltac upd_field f := let H := fresh in intros until 1; match goal with R : f _ _ _ _ = Ok _ _ |- _ => rename R into H end; unfold f in H; steps; reflexivity.

Lemma staircase_getters name h k c x ns c' :
  run_all (live staircase_config staircase_update) (staircase_new name) h k c = Ok (x, ns) c' ->
  staircase_get_name x = asked a_name name h /\
  staircase_get_invert x = asked a_invert false h /\
  staircase_get_switch_off_after x = asked a_off_after (60 * nanos_per_sec) h.
Proof.
  intros R. split; [|split].
  - exact (run_field staircase_config staircase_update st_name a_name ltac:(set_field)
             ltac:(upd_field staircase_update) _ _ _ _ _ _ _ R).
  - exact (run_field staircase_config staircase_update st_invert a_invert ltac:(set_field)
             ltac:(upd_field staircase_update) _ _ _ _ _ _ _ R).
  - exact (run_field staircase_config staircase_update st_switch_off_after a_off_after ltac:(set_field)
             ltac:(upd_field staircase_update) _ _ _ _ _ _ _ R).
Qed.

Ltac set_within := set_field; unfold occurrence_set_if_happened_within in *; steps; reflexivity.

Lemma occurrence_getters name k0 c0 x0 h k c x ns c' :
  occurrence_new name k0 c0 = Ok x0 c ->
  run_all (live occurrence_config occurrence_update) x0 h k c = Ok (x, ns) c' ->
  occurrence_get_name x = asked a_name name h /\
  occurrence_is_inverted x = asked a_invert false h /\
  occurrence_get_if_happened_within x = asked a_within (60 * nanos_per_sec) h.
Proof.
  intros N R.
  pose proof (run_field occurrence_config occurrence_update oi_name a_name ltac:(set_within)
             ltac:(upd_field occurrence_update) _ _ _ _ _ _ _ R) as E1.
  pose proof (run_field occurrence_config occurrence_update oi_invert a_invert ltac:(set_within)
             ltac:(upd_field occurrence_update) _ _ _ _ _ _ _ R) as E2.
  pose proof (run_field occurrence_config occurrence_update oi_if_happened_within a_within ltac:(set_within)
             ltac:(upd_field occurrence_update) _ _ _ _ _ _ _ R) as E3.
  unfold occurrence_new in N. steps. split; [exact E1|]. split; [exact E2|exact E3].
Qed.

Lemma non_occurrence_getters name k0 c0 x0 h k c x ns c' :
  non_occurrence_new name k0 c0 = Ok x0 c ->
  run_all (live non_occurrence_config non_occurrence_update) x0 h k c = Ok (x, ns) c' ->
  non_occurrence_get_name x = asked a_name name h /\
  non_occurrence_is_inverted x = asked a_invert false h /\
  non_occurrence_get_if_not_happened_within x = asked a_within (60 * nanos_per_sec) h.
Proof.
  intros N R.
  pose proof (run_field non_occurrence_config non_occurrence_update ni_name a_name ltac:(set_field)
             ltac:(upd_field non_occurrence_update) _ _ _ _ _ _ _ R) as E1.
  pose proof (run_field non_occurrence_config non_occurrence_update ni_invert a_invert ltac:(set_field)
             ltac:(upd_field non_occurrence_update) _ _ _ _ _ _ _ R) as E2.
  pose proof (run_field non_occurrence_config non_occurrence_update ni_if_not_happened_within a_within ltac:(set_field)
             ltac:(upd_field non_occurrence_update) _ _ _ _ _ _ _ R) as E3.
  unfold non_occurrence_new in N. steps. split; [exact E1|]. split; [exact E2|exact E3].
Qed.

Lemma last_occurrence_getters name h k c x ns c' :
  run_all (live last_occurrence_config last_occurrence_update) (last_occurrence_new name) h k c = Ok (x, ns) c' ->
  last_occurrence_get_name x = asked a_name name h /\
  last_occurrence_is_inverted x = asked a_invert false h /\
  last_occurrence_get_make_none_zero x = asked a_none_zero false h.
Proof.
  intros R. split; [|split].
  - exact (run_field last_occurrence_config last_occurrence_update lt_name a_name ltac:(set_field)
             ltac:(upd_field last_occurrence_update) _ _ _ _ _ _ _ R).
  - exact (run_field last_occurrence_config last_occurrence_update lt_invert a_invert ltac:(set_field)
             ltac:(upd_field last_occurrence_update) _ _ _ _ _ _ _ R).
  - exact (run_field last_occurrence_config last_occurrence_update lt_make_none_zero a_none_zero ltac:(set_field)
             ltac:(upd_field last_occurrence_update) _ _ _ _ _ _ _ R).
Qed.

Lemma display_getters name h k c x ns c' :
  run_all (live display_config display_update) (display_new name) h k c = Ok (x, ns) c' ->
  display_get_name x = asked a_name name h /\
  display_get_reset_after x = asked a_reset_after None h /\
  display_get_reset_value x = asked a_reset_value None h.
Proof.
  intros R. destruct (display_life name h k c x ns c' R) as [[E2 E3] _]. split; [|split; assumption].
  exact (run_option display_config display_update display_options (fun '(n, _, _, _) => n) a_name
           ltac:(set_field) display_update_keeps _ _ _ _ _ _ _ R).
Qed.

Lemma polling_getters name h k c x ns c' :
  run_all (live polling_config nothing_arrives) (polling_new name) h k c = Ok (x, ns) c' ->
  polling_get_name x = asked a_name name h /\
  polling_create_group_with_name x = asked a_group false h.
Proof.
  intros R. split.
  - exact (run_field polling_config nothing_arrives pl_name a_name ltac:(set_field) (nothing_keeps _) _ _ _ _ _ _ _ R).
  - exact (run_field polling_config nothing_arrives pl_group a_group ltac:(set_field) (nothing_keeps _) _ _ _ _ _ _ _ R).
Qed.
