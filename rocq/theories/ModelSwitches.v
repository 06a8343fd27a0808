(** Model of src/instruments/switches/{mod,flag,staircase_timer,
    occurrence_indicator,non_occurrence_indicator}.rs and
    src/instruments/other_instruments/{display,last_occurrence_tracker}.rs. *)
From Coq Require Import ZArith Bool List String.
From Verif Require Import Base ModelObservation ModelSnapshot.
Import ListNotations.
Open Scope Z_scope.

(** switches/mod.rs 19-26 *)
Inductive name_alternation :=
| Prefix (s : string)
| Postfix (s : string)
| Rename (s : string).

(** switches/mod.rs 28-36 *)
Definition adjust_name (a : name_alternation) (original : string) : string :=
  match a with
  | Rename s => s
  | Prefix s => s ++ original
  | Postfix s => original ++ s
  end.

(** ** flag.rs *)

(** flag.rs 15-21 *)
Record flag := Flag {
  f_name : string;
  f_descr : descr;
  f_state : option bool;
  f_show_inverted : option name_alternation
}.

(** flag.rs 24-36 *)
Definition flag_new (name : string) : flag := Flag name no_descr None None.
Definition flag_new_with_state (name : string) (b : bool) : flag :=
  Flag name no_descr (Some b) None.

Definition flag_with (f : flag) (b : bool) : flag :=
  Flag (f_name f) (f_descr f) (Some b) (f_show_inverted f).

(** flag.rs 183-201 *)
Definition flag_update (f : flag) (u : update) : flag * Z :=
  match u with
  | ObservationWithValue (BoolValue v) _ => (flag_with f v, 1)
  | ObservationWithValue (SignedInteger v) _ => (flag_with f (negb (v =? 0)), 1)
  | ObservationWithValue (UnsignedInteger v) _ => (flag_with f (negb (v =? 0)), 1)
  | _ => (f, 0)
  end.

(** flag.rs 169-181 *)
Definition flag_put (f : flag) (descriptive : bool) (into : snapshot) : snapshot :=
  let into := put_postfixed_descriptives (f_descr f) (f_name f) into descriptive in
  match f_state f with
  | None => into
  | Some state =>
      let into := push into (f_name f) (Boolean state) in
      match f_show_inverted f with
      | None => into
      | Some a => push into (adjust_name a (f_name f)) (Boolean (negb state))
      end
  end.

(** ** staircase_timer.rs *)

(** staircase_timer.rs 24-32 *)
Record staircase_timer := StaircaseTimer {
  st_name : string;
  st_descr : descr;
  st_switch_off_after : Z;
  st_invert : bool;
  st_stay_on_until : option Z;
  st_show_inverted : option name_alternation
}.

(** staircase_timer.rs 35-45 *)
Definition staircase_new (name : string) : staircase_timer :=
  StaircaseTimer name no_descr (60 * nanos_per_sec) false None None.

(** staircase_timer.rs 103-105 *)
Definition staircase_set_switch_off_after (t : staircase_timer) (d : Z) : staircase_timer :=
  StaircaseTimer (st_name t) (st_descr t) d (st_invert t) (st_stay_on_until t)
    (st_show_inverted t).

(** staircase_timer.rs 84-86 *)
Definition staircase_set_invert (t : staircase_timer) (b : bool) : staircase_timer :=
  StaircaseTimer (st_name t) (st_descr t) (st_switch_off_after t) b (st_stay_on_until t)
    (st_show_inverted t).

(** staircase_timer.rs 121-123 *)
Definition staircase_set_show_inverted (t : staircase_timer) (a : name_alternation) : staircase_timer :=
  StaircaseTimer (st_name t) (st_descr t) (st_switch_off_after t) (st_invert t) (st_stay_on_until t)
    (Some a).

(** staircase_timer.rs 208-220: without a tap the clock is not read *)
Definition staircase_state (t : staircase_timer) : M bool :=
  let* value :=
    match st_stay_on_until t with
    | Some u => let* n := now in ret (n <=? u)
    | None => ret false
    end in
  ret (if st_invert t then negb value else value).

(** staircase_timer.rs 237-242 *)
Definition staircase_update (t : staircase_timer) (_ : update) : M (staircase_timer * Z) :=
  let* n := now in
  let* u := instant_add n (st_switch_off_after t) in
  ret (StaircaseTimer (st_name t) (st_descr t) (st_switch_off_after t) (st_invert t) (Some u)
         (st_show_inverted t), 1).

(** The common shape of [put_snapshot] of the timed switches: the state is
    computed once for the field and a second time for the inverted field. *)
Definition put_timed_switch (name : string) (d : descr) (state : M bool)
  (show_inverted : option name_alternation) (descriptive : bool) (into : snapshot)
  : M snapshot :=
  let into := put_postfixed_descriptives d name into descriptive in
  let* b := state in
  let into := push into name (Boolean b) in
  match show_inverted with
  | None => ret into
  | Some a =>
      let* b2 := state in
      ret (push into (adjust_name a name) (Boolean (negb b2)))
  end.

(** staircase_timer.rs 225-235 *)
Definition staircase_put (t : staircase_timer) (descriptive : bool) (into : snapshot)
  : M snapshot :=
  put_timed_switch (st_name t) (st_descr t) (staircase_state t) (st_show_inverted t)
    descriptive into.

(** ** occurrence_indicator.rs *)

(** occurrence_indicator.rs 17-25 *)
Record occurrence_indicator := OccurrenceIndicator {
  oi_name : string;
  oi_descr : descr;
  oi_if_happened_within : Z;
  oi_happened_last : Z;
  oi_invert : bool;
  oi_show_inverted : option name_alternation
}.

(** occurrence_indicator.rs 28-38 *)
Definition occurrence_new (name : string) : M occurrence_indicator :=
  let* n := now in
  let* t := instant_sub n (60 * nanos_per_sec) in
  ret (OccurrenceIndicator name no_descr (60 * nanos_per_sec) t false None).

(** occurrence_indicator.rs 103-106 *)
Definition occurrence_set_if_happened_within (o : occurrence_indicator) (d : Z)
  : M occurrence_indicator :=
  let* n := now in
  let* t := instant_sub n d in
  ret (OccurrenceIndicator (oi_name o) (oi_descr o) d t (oi_invert o) (oi_show_inverted o)).

(** occurrence_indicator.rs 78-80 *)
Definition occurrence_set_invert (o : occurrence_indicator) (b : bool) : occurrence_indicator :=
  OccurrenceIndicator (oi_name o) (oi_descr o) (oi_if_happened_within o) (oi_happened_last o) b
    (oi_show_inverted o).

(** occurrence_indicator.rs 118-120 *)
Definition occurrence_set_show_inverted (o : occurrence_indicator) (a : name_alternation)
  : occurrence_indicator :=
  OccurrenceIndicator (oi_name o) (oi_descr o) (oi_if_happened_within o) (oi_happened_last o)
    (oi_invert o) (Some a).

(** occurrence_indicator.rs 205-214 *)
Definition occurrence_state (o : occurrence_indicator) : M bool :=
  let* n := now in
  let* must_have_happened_after := instant_sub n (oi_if_happened_within o) in
  let current_state := must_have_happened_after <? oi_happened_last o in
  ret (if oi_invert o then negb current_state else current_state).

(** occurrence_indicator.rs 231-236 *)
Definition occurrence_update (o : occurrence_indicator) (_ : update)
  : M (occurrence_indicator * Z) :=
  let* n := now in
  ret (OccurrenceIndicator (oi_name o) (oi_descr o) (oi_if_happened_within o) n (oi_invert o)
         (oi_show_inverted o), 1).

(** occurrence_indicator.rs 219-229 *)
Definition occurrence_put (o : occurrence_indicator) (descriptive : bool) (into : snapshot)
  : M snapshot :=
  put_timed_switch (oi_name o) (oi_descr o) (occurrence_state o) (oi_show_inverted o)
    descriptive into.

(** ** non_occurrence_indicator.rs *)

(** non_occurrence_indicator.rs 23-31 *)
Record non_occurrence_indicator := NonOccurrenceIndicator {
  ni_name : string;
  ni_descr : descr;
  ni_if_not_happened_within : Z;
  ni_happened_last : Z;
  ni_invert : bool;
  ni_show_inverted : option name_alternation
}.

(** non_occurrence_indicator.rs 34-44 *)
Definition non_occurrence_new (name : string) : M non_occurrence_indicator :=
  let* n := now in
  ret (NonOccurrenceIndicator name no_descr (60 * nanos_per_sec) n false None).

(** non_occurrence_indicator.rs 109-111 *)
Definition non_occurrence_set_if_not_happened_within (o : non_occurrence_indicator) (d : Z)
  : non_occurrence_indicator :=
  NonOccurrenceIndicator (ni_name o) (ni_descr o) d (ni_happened_last o) (ni_invert o)
    (ni_show_inverted o).

(** non_occurrence_indicator.rs 84-86 *)
Definition non_occurrence_set_invert (o : non_occurrence_indicator) (b : bool) : non_occurrence_indicator :=
  NonOccurrenceIndicator (ni_name o) (ni_descr o) (ni_if_not_happened_within o)
    (ni_happened_last o) b (ni_show_inverted o).

(** non_occurrence_indicator.rs 123-125 *)
Definition non_occurrence_set_show_inverted (o : non_occurrence_indicator) (a : name_alternation)
  : non_occurrence_indicator :=
  NonOccurrenceIndicator (ni_name o) (ni_descr o) (ni_if_not_happened_within o)
    (ni_happened_last o) (ni_invert o) (Some a).

(** non_occurrence_indicator.rs 210-219 *)
Definition non_occurrence_state (o : non_occurrence_indicator) : M bool :=
  let* n := now in
  let* must_not_have_happened_after := instant_sub n (ni_if_not_happened_within o) in
  let current_state := ni_happened_last o <=? must_not_have_happened_after in
  ret (if ni_invert o then negb current_state else current_state).

(** non_occurrence_indicator.rs 236-241 *)
Definition non_occurrence_update (o : non_occurrence_indicator) (_ : update)
  : M (non_occurrence_indicator * Z) :=
  let* n := now in
  ret (NonOccurrenceIndicator (ni_name o) (ni_descr o) (ni_if_not_happened_within o) n
         (ni_invert o) (ni_show_inverted o), 1).

(** non_occurrence_indicator.rs 224-234 *)
Definition non_occurrence_put (o : non_occurrence_indicator) (descriptive : bool)
  (into : snapshot) : M snapshot :=
  put_timed_switch (ni_name o) (ni_descr o) (non_occurrence_state o) (ni_show_inverted o)
    descriptive into.

(** ** last_occurrence_tracker.rs *)

(** last_occurrence_tracker.rs 11-18 *)
Record last_occurrence_tracker := LastOccurrenceTracker {
  lt_name : string;
  lt_descr : descr;
  lt_happened_last : option Z;
  lt_invert : bool;
  lt_make_none_zero : bool
}.

(** last_occurrence_tracker.rs 21-30 *)
Definition last_occurrence_new (name : string) : last_occurrence_tracker :=
  LastOccurrenceTracker name no_descr None false false.

(** last_occurrence_tracker.rs 162-165; [Instant - Instant] saturates *)
Definition last_occurrence_elapsed (t : last_occurrence_tracker) : M (option Z) :=
  match lt_happened_last t with
  | None => ret None
  | Some last => let* n := now in ret (Some (as_secs (Z.max 0 (n - last))))
  end.

(** last_occurrence_tracker.rs 170-180; the literal [0] is an i32 *)
Definition last_occurrence_put (t : last_occurrence_tracker) (descriptive : bool)
  (into : snapshot) : M snapshot :=
  let into := put_postfixed_descriptives (lt_descr t) (lt_name t) into descriptive in
  let* v := last_occurrence_elapsed t in
  match v with
  | Some v => ret (push into (lt_name t) (UInt v))
  | None =>
      if lt_make_none_zero t then ret (push into (lt_name t) (Int 0)) else ret into
  end.

(** last_occurrence_tracker.rs 182-187 *)
Definition last_occurrence_update (t : last_occurrence_tracker) (_ : update)
  : M (last_occurrence_tracker * Z) :=
  let* n := now in
  ret (LastOccurrenceTracker (lt_name t) (lt_descr t) (Some n) (lt_invert t)
         (lt_make_none_zero t), 1).

(** ** display.rs *)

(** display.rs 18-26 *)
Record data_display := DataDisplay {
  dd_name : string;
  dd_descr : descr;
  dd_value : option item_kind;
  dd_reset_after : option Z;
  dd_stay_on_until : option Z;
  dd_reset_value : option item_kind
}.

(** display.rs 29-39 *)
Definition display_new (name : string) : data_display :=
  DataDisplay name no_descr None None None None.

(** display.rs 79-81 *)
Definition display_set_reset_after (t : data_display) (d : Z) : data_display :=
  DataDisplay (dd_name t) (dd_descr t) (dd_value t) (Some d) (dd_stay_on_until t)
    (dd_reset_value t).

(** display.rs 100-103 *)
Definition display_set_reset_value (t : data_display) (v : item_kind) : data_display :=
  DataDisplay (dd_name t) (dd_descr t) (Some v) (dd_reset_after t) (dd_stay_on_until t)
    (Some v).

(** display.rs 165-175 *)
Definition display_value (t : data_display) : M (option item_kind) :=
  match dd_stay_on_until t with
  | Some u =>
      let* n := now in
      ret (if n <=? u then dd_value t else dd_reset_value t)
  | None => ret (dd_value t)
  end.

(** display.rs 180-188 *)
Definition display_put (t : data_display) (descriptive : bool) (into : snapshot)
  : M snapshot :=
  let into := put_postfixed_descriptives (dd_descr t) (dd_name t) into descriptive in
  let* v := display_value t in
  match v with
  | Some v => ret (push into (dd_name t) v)
  | None => ret into
  end.

(** display.rs 190-202 *)
Definition display_update (t : data_display) (u : update) : M (data_display * Z) :=
  match upd_observed_value u with
  | None => ret (t, 0)
  | Some v =>
      match to_item_kind v with
      | None => ret (t, 0)
      | Some value =>
          let* until :=
            match dd_reset_after t with
            | Some reset_after =>
                let* n := now in
                let* u := instant_add n reset_after in
                ret (Some u)
            | None => ret (dd_stay_on_until t)
            end in
          ret (DataDisplay (dd_name t) (dd_descr t) (Some value) (dd_reset_after t) until
                 (dd_reset_value t), 1)
      end
  end.
