(** The functions by which an instrument is asked for its options. *)
From Coq Require Import ZArith Bool String List.
From Verif Require Import Base ModelObservation ModelSnapshot ModelSwitches ModelConfig.
Open Scope Z_scope.

(** staircase_timer.rs 51-53, 96-98, 116-118 *)
Definition staircase_get_name (t : staircase_timer) : string := st_name t.
Definition staircase_get_invert (t : staircase_timer) : bool := st_invert t.
Definition staircase_get_switch_off_after (t : staircase_timer) : Z := st_switch_off_after t.

(** occurrence_indicator.rs 44-46, 99-101, 113-115 *)
Definition occurrence_get_name (o : occurrence_indicator) : string := oi_name o.
Definition occurrence_is_inverted (o : occurrence_indicator) : bool := oi_invert o.
Definition occurrence_get_if_happened_within (o : occurrence_indicator) : Z := oi_if_happened_within o.

(** non_occurrence_indicator.rs 50-52, 105-107, 118-120 *)
Definition non_occurrence_get_name (o : non_occurrence_indicator) : string := ni_name o.
Definition non_occurrence_is_inverted (o : non_occurrence_indicator) : bool := ni_invert o.
Definition non_occurrence_get_if_not_happened_within (o : non_occurrence_indicator) : Z :=
  ni_if_not_happened_within o.

(** last_occurrence_tracker.rs 36-38, 91-93, 115-117 *)
Definition last_occurrence_get_name (t : last_occurrence_tracker) : string := lt_name t.
Definition last_occurrence_is_inverted (t : last_occurrence_tracker) : bool := lt_invert t.
Definition last_occurrence_get_make_none_zero (t : last_occurrence_tracker) : bool := lt_make_none_zero t.

(** display.rs 45-47, 92-94, 117-119 *)
Definition display_get_name (d : data_display) : string := dd_name d.
Definition display_get_reset_after (d : data_display) : option Z := dd_reset_after d.
Definition display_get_reset_value (d : data_display) : option item_kind := dd_reset_value d.

(** polled.rs 40-42, 54-56 *)
Definition polling_get_name (p : polling) : string := pl_name p.
Definition polling_create_group_with_name (p : polling) : bool := pl_group p.
