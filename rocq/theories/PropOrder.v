(** C67, C68: the order of setters, the labels of descriptions. *)
From Coq Require Import ZArith Bool String List Permutation.
From Verif Require Import Base SpecRun ModelObservation ModelSnapshot ModelCounter ModelGauge ModelMeter ModelHistogram ModelSwitches
  ModelInstrument ModelTree ModelProcessor ModelConfig SpecConfig SpecOrder OrderProofs Toy.
Import ListNotations.
Open Scope string_scope.
Open Scope list_scope.
Open Scope Z_scope.

(** C67. The setters of different options can be called in any order. *)
Theorem c67_instruments :
  order_irrelevant counter_config any /\ order_irrelevant meter_config any /\ order_irrelevant value_meter_config any
  /\ (forall H, order_irrelevant (@histogram_config H) any) /\ order_irrelevant flag_config any
  /\ order_irrelevant staircase_config any /\ order_irrelevant occurrence_config any
  /\ order_irrelevant non_occurrence_config any /\ order_irrelevant last_occurrence_config any
  /\ order_irrelevant display_config any /\ order_irrelevant constant_value_config any
  /\ order_irrelevant polling_config any.
Proof.
  exact (conj counter_order (conj meter_order (conj value_meter_order (conj (@histogram_order) (conj flag_order
    (conj staircase_order (conj occurrence_order (conj non_occurrence_order (conj last_occurrence_order
    (conj display_order (conj constant_value_order polling_order))))))))))).
Qed.
Print Assumptions c67_instruments.

Theorem c67_components : forall (X : ext) (Y : pext),
  order_irrelevant (@panel_config X) any /\ order_irrelevant (@cockpit_config X) any
  /\ order_irrelevant (@tele_config X) any /\ order_irrelevant (@mount_config X Y) any.
Proof. intros X Y. exact (conj (panel_order X) (conj (cockpit_order X) (conj (tele_order X) (mount_order X Y)))). Qed.
Print Assumptions c67_components.

Example c67_case :
  NoDup (map option_of [SetTitle "t"; SetWithin 5; SetName "n"; SetInvert true])
  /\ Permutation [SetTitle "t"; SetWithin 5; SetName "n"; SetInvert true] [SetInvert true; SetName "n"; SetWithin 5; SetTitle "t"]
  /\ match (let* x := occurrence_new "o" in configured occurrence_config x [SetTitle "t"; SetWithin 5; SetName "n"; SetInvert true])
             release (frozen 100000000000) with
     | Ok x _ => oi_name x = "n" /\ oi_if_happened_within x = 5
     | _ => False
     end.
Proof.
  split; [repeat constructor; cbn; intuition discriminate|]. split; [|repeat split].
  apply (Permutation_rev [SetTitle "t"; SetWithin 5; SetName "n"; SetInvert true]).
Qed.

(** Gauges, unless a value and tracking are both set. That is missing. *)
Theorem c67_gauge_partial : order_irrelevant gauge_config not_value_and_tracking.
Proof. exact gauge_order. Qed.
Print Assumptions c67_gauge_partial.

Example c67_gauge_case :
  not_value_and_tracking [SetTracking 60; SetUnit Seconds; SetGroup true]
  /\ match configured gauge_config (gauge_new "g") [SetTracking 60; SetUnit Seconds; SetGroup true] release (frozen 0) with
     | Ok x _ => g_tracking x <> None /\ g_display_time_unit x = Seconds
     | _ => False
     end.
Proof.
  split; [|split; [intros E; discriminate E | reflexivity]].
  intros (v & n & I1 & _). cbn in I1. intuition discriminate.
Qed.

(** An initial value takes part in the peaks only if tracking was switched on before
    it was given. *)
Definition c67_shown (l : list setting) : option snapshot :=
  match (let* x := configured gauge_config (gauge_new "g") l in
         let* '(x, _) := gauge_update x (ObservationWithValue (SignedInteger 3) 0) in
         gauge_put x false []) release (frozen 0) with
  | Ok (_, s) _ => Some s
  | _ => None
  end.
Theorem c67_refuted : exists l l', Permutation l l' /\ NoDup (map option_of l)
  /\ match c67_shown l, c67_shown l' with
     | Some s, Some s' => lookup "g_peak" s = Some (Int 10) /\ lookup "g_peak" s' = Some (Int 3)
     | _, _ => False
     end.
Proof.
  exists [SetTracking 60; SetValue 10], [SetValue 10; SetTracking 60].
  split; [apply perm_swap|]. split; [repeat constructor; cbn; intuition discriminate|]. split; reflexivity.
Qed.
Print Assumptions c67_refuted.

(** C68. The guidelines of [PutsSnapshot] say that an instrument adds the suffixes
    "_title" and "_description" to its name. It writes them in front of the name. (C64 has the
    exact fields of each instrument.) *)
Theorem c68_refuted : exists s,
  counter_put (counter_set_description (counter_set_title (counter_new "n") "t") "d") true [] = s
  /\ lookup "n_title" s = None /\ lookup "n_description" s = None
  /\ lookup "_title_n" s = Some (Text "t") /\ lookup "_description_n" s = Some (Text "d").
Proof. eexists. split; [reflexivity|]. repeat split. Qed.
Print Assumptions c68_refuted.

(** What does hold: all the texts of an instrument are in the level of the
    instrument, before its value, under labels made from its name. *)
Theorem c68_partial : forall x, counter_put x true [] =
  text_field ("_title_" ++ c_name x) (d_title (c_descr x)) ++ text_field ("_description_" ++ c_name x) (d_description (c_descr x))
  ++ [(c_name x, UInt (c_count x))].
Proof. exact counter_texts. Qed.
Print Assumptions c68_partial.
