(** C16: flags. C17: staircase timers. C18, C19: occurrence indicators.
    C20: non-occurrence indicators. C21: inverted fields.
    C22: last occurrence trackers. C23: data displays. *)
From Coq Require Import ZArith Bool String List Lia.
From Verif Require Import Base SpecRun SpecSwitches
  ModelObservation ModelSnapshot ModelSwitches SwitchesProofs.
Import ListNotations.
Open Scope Z_scope.

Local Ltac ordered :=
  repeat (apply ino_cons; [unfold happens, frozen; lia|]); apply ino_nil; unfold happens, frozen; lia.

(** ** C16 *)

(** The shown state is the last truth value observed (the initial state if there
    was none), an inverted field is its negation, and exactly the updates with a
    truth value are reported as used. *)
Theorem c16_flag_shows_last : forall us f f' ns k (w : clock) w' bs d,
  f_descr f = no_descr -> Forall2 truth us bs ->
  run_all (fun f u => ret (flag_update f u)) f us k w = Ok (f', ns) w' ->
  exists st, last_of (f_state f) bs st
    /\ flag_put f' d [] = match st with
                          | None => []
                          | Some b => switch_shows (f_name f) b (option_map (fun a => (a, negb b)) (f_show_inverted f))
                          end
    /\ ns = map (fun b => match b with Some _ => 1 | None => 0 end) bs.
Proof. exact flag_shows_last. Qed.
Print Assumptions c16_flag_shows_last.

Example c16_flag_shows_last_case :
  let f := Flag "f" no_descr None (Some (Prefix "not_")) in
  let us := [ObservationWithValue (SignedInteger (-7)) 0; ObservationWithValue (BoolValue false) 1;
             OneObservation 2; ObservationWithValue (UnsignedInteger 3) 3;
             ObservationWithValue (ChangedBy 0) 4] in
  Forall2 truth us [Some true; Some false; None; Some true; None]
  /\ match run_all (fun f u => ret (flag_update f u)) f us release (frozen 0) with
     | Ok (f', ns) _ => flag_put f' false [] = [("f"%string, Boolean true); ("not_f"%string, Boolean false)]
                        /\ ns = [1; 1; 0; 1; 0]
     | _ => False
     end.
Proof.
  cbv zeta. split; [|split; reflexivity].
  apply Forall2_cons; [apply truth_signed; lia|]. apply Forall2_cons; [apply truth_bool|].
  apply Forall2_cons; [apply truth_one|]. apply Forall2_cons; [apply truth_unsigned; lia|].
  apply Forall2_cons; [apply truth_change|]. constructor.
Qed.

(** ** C17 *)

(** With a fixed period the field is on iff there was an observation at most the
    period ago. *)
Theorem c17_staircase_fixed_period : forall k name p invert sh h t d start q s q',
  let t0 := staircase_with (staircase_set_switch_off_after (staircase_new name) p) invert sh in
  no_config h -> in_order start h (happens q) ->
  run_timed staircase_op k t0 h = Some t -> staircase_put t d [] k q = Ok s q' ->
  exists b i, s = switch_shows name b i /\ option_map fst i = sh
    /\ (xorb invert b = true <-> exists u, tapped_at h u /\ u <= happens q <= u + p).
Proof. exact staircase_new_fixed. Qed.
Print Assumptions c17_staircase_fixed_period.

Example c17_history : history :=
  [(frozen 10, Tap (OneObservation 3)); (frozen 25, Tap (Observations 4 20))].

Example c17_staircase_fixed_period_case :
  let t0 := staircase_with (staircase_set_switch_off_after (staircase_new "s") 10) false (Some (Postfix "_off")) in
  no_config c17_history /\ in_order 0 c17_history 35
  /\ match run_timed staircase_op release t0 c17_history with
     | Some t => staircase_put t false [] release (frozen 35)
                   = Ok [("s"%string, Boolean true); ("s_off"%string, Boolean false)] (clock_tail (clock_tail (frozen 35)))
                 /\ staircase_put t false [] release (frozen 36)
                   = Ok [("s"%string, Boolean false); ("s_off"%string, Boolean true)] (clock_tail (clock_tail (frozen 36)))
     | None => False
     end.
Proof.
  cbv zeta. split; [|split].
  - constructor; [reflexivity|]. constructor; [reflexivity|]. constructor.
  - ordered.
  - split; reflexivity.
Qed.

(** One more observation, anywhere in the history, never switches the field off. *)
Theorem c17_further_observation_never_shortens :
  forall k name p invert sh h1 c u h2 t t' d start q b i q' b' i' q'',
  let t0 := staircase_with (staircase_set_switch_off_after (staircase_new name) p) invert sh in
  no_config (h1 ++ h2) ->
  in_order start (h1 ++ (c, Tap u) :: h2) (happens q) -> in_order start (h1 ++ h2) (happens q) ->
  run_timed staircase_op k t0 (h1 ++ h2) = Some t ->
  run_timed staircase_op k t0 (h1 ++ (c, Tap u) :: h2) = Some t' ->
  staircase_put t d [] k q = Ok (switch_shows name b i) q' ->
  staircase_put t' d [] k q = Ok (switch_shows name b' i') q'' ->
  xorb invert b = true -> xorb invert b' = true.
Proof. exact staircase_extends. Qed.
Print Assumptions c17_further_observation_never_shortens.

Example c17_further_observation_never_shortens_case :
  let t0 := staircase_with (staircase_set_switch_off_after (staircase_new "s") 10) true None in
  let h1 := [(frozen 10, Tap (OneObservation 3))] in
  in_order 0 (h1 ++ (frozen 15, Tap (OneObservation 4)) :: []) 20
  /\ match run_timed staircase_op release t0 h1,
           run_timed staircase_op release t0 (h1 ++ [(frozen 15, Tap (OneObservation 4))]) with
     | Some t, Some t' =>
         staircase_put t false [] release (frozen 20)
           = Ok (switch_shows "s" false None) (clock_tail (frozen 20))
         /\ staircase_put t' false [] release (frozen 20)
           = Ok (switch_shows "s" false None) (clock_tail (frozen 20))
         /\ staircase_put t false [] release (frozen 21)
           = Ok (switch_shows "s" true None) (clock_tail (frozen 21))
         /\ staircase_put t' false [] release (frozen 21)
           = Ok (switch_shows "s" false None) (clock_tail (frozen 21))
     | _, _ => False
     end.
Proof.
  cbv zeta. split.
  - ordered.
  - repeat split; reflexivity.
Qed.

(** When the period is reconfigured, the last observation counts with the period
    in force when it arrived. *)
Theorem c17_staircase_reconfigured : forall k name p invert sh h t d q s q',
  let t0 := staircase_with (staircase_set_switch_off_after (staircase_new name) p) invert sh in
  run_timed staircase_op k t0 h = Some t -> staircase_put t d [] k q = Ok s q' ->
  exists b i, s = switch_shows name b i /\ option_map fst i = sh
    /\ (xorb invert b = true <->
        exists h1 u w, last_tap h h1 u /\ period p h1 w /\ happens q <= u + w).
Proof. exact staircase_new_on. Qed.
Print Assumptions c17_staircase_reconfigured.

(** The further observation at 20 switches the field off at 31 instead of 110. *)
Example c17_staircase_reconfigured_case :
  let t0 := staircase_with (staircase_set_switch_off_after (staircase_new "s") 100) false None in
  let h := [(frozen 10, Tap (OneObservation 3)); (frozen 11, Configure 10)] in
  match run_timed staircase_op release t0 h,
        run_timed staircase_op release t0 (h ++ [(frozen 20, Tap (OneObservation 4))]) with
  | Some t, Some t' =>
      staircase_put t false [] release (frozen 31) = Ok (switch_shows "s" true None) (clock_tail (frozen 31))
      /\ staircase_put t' false [] release (frozen 31) = Ok (switch_shows "s" false None) (clock_tail (frozen 31))
  | _, _ => False
  end.
Proof. split; reflexivity. Qed.

(** ** C18 *)

(** On iff an observation arrived since the window was last configured and less
    than the window ago. *)
Theorem c18_occurrence_iff : forall k name start x0 c1 invert sh h x d q s q',
  occurrence_new name k start = Ok x0 c1 ->
  in_order (happens start) h (happens q) ->
  run_timed occurrence_op k (occurrence_with x0 invert sh) h = Some x -> occurrence_put x d [] k q = Ok s q' ->
  exists b i r w, s = switch_shows name b i /\ option_map fst i = sh
    /\ since_config h r /\ period 60000000000 h w
    /\ (xorb invert b = true <-> exists u, tapped_at r u /\ happens q - u < w).
Proof. exact occurrence_on. Qed.
Print Assumptions c18_occurrence_iff.

Example c18_start : Z := 100 * 1000000000.

Example c18_occurrence_iff_case :
  let h := [(frozen (c18_start + 1), Configure 50); (frozen (c18_start + 2), Tap (OneObservation 3))] in
  let q := frozen (c18_start + 51) in
  in_order c18_start h (happens q)
  /\ match occurrence_new "o" release (frozen c18_start) with
     | Ok x0 _ =>
         match run_timed occurrence_op release (occurrence_with x0 false None) h with
         | Some x => occurrence_put x0 false [] release q = Ok (switch_shows "o" false None) (clock_tail q)
             /\ occurrence_put x false [] release q = Ok (switch_shows "o" true None) (clock_tail q)
             /\ occurrence_put x false [] release (frozen (c18_start + 52))
                = Ok (switch_shows "o" false None) (clock_tail (frozen (c18_start + 52)))
         | None => False
         end
     | _ => False
     end.
Proof.
  cbv zeta. split.
  - unfold c18_start. ordered.
  - repeat split; reflexivity.
Qed.

(** ** C19 *)

(** False: an observation one second ago is forgotten when the window is set to an
    hour. *)
Theorem c19_reconfiguring_keeps_occurrences_refuted :
  exists k name start x0 c1 h x q b i q' u w,
    occurrence_new name k start = Ok x0 c1 /\ in_order (happens start) h (happens q)
    /\ run_timed occurrence_op k x0 h = Some x /\ occurrence_put x false [] k q = Ok (switch_shows name b i) q'
    /\ period 60000000000 h w /\ tapped_at h u /\ happens q - u < w /\ b = false.
Proof.
  exists release, "o"%string, (frozen (5000 * 1000000000)).
  eexists. eexists.
  exists [(frozen (5001 * 1000000000), Tap (OneObservation 0)); (frozen (5002 * 1000000000), Configure (3600 * 1000000000))].
  eexists. exists (frozen (5003 * 1000000000)), false, None.
  exists (clock_tail (frozen (5003 * 1000000000))), (5001 * 1000000000), (3600 * 1000000000).
  split; [reflexivity|]. split.
  { ordered. }
  split; [reflexivity|]. split; [reflexivity|]. split.
  { apply (period_configured _ [_] _ _ []). constructor. }
  split.
  { eexists. eexists. split; [left; reflexivity|reflexivity]. }
  split; [|reflexivity]. unfold happens, frozen. lia.
Qed.
Print Assumptions c19_reconfiguring_keeps_occurrences_refuted.

(** ** C20 *)

(** On iff the creation and every observation are at least the period ago. *)
Theorem c20_non_occurrence_iff : forall k name start x0 c1 invert sh h x d q s q',
  non_occurrence_new name k start = Ok x0 c1 ->
  in_order (happens start) h (happens q) ->
  run_timed non_occurrence_op k (non_occurrence_with x0 invert sh) h = Some x ->
  non_occurrence_put x d [] k q = Ok s q' ->
  exists b i w, s = switch_shows name b i /\ option_map fst i = sh /\ period 60000000000 h w
    /\ (xorb invert b = true <->
        w <= happens q - happens start /\ forall u, tapped_at h u -> w <= happens q - u).
Proof. exact non_occurrence_on. Qed.
Print Assumptions c20_non_occurrence_iff.

(** After an observation the two indicators are opposites. *)
Theorem c20_opposite_of_occurrence :
  forall k name name' start start' x0 y0 c1 c2 invert sh sh' h1 c u x y d q bx ix by_ iy q1 q2,
  let h := h1 ++ [(c, Tap u)] in
  occurrence_new name k start = Ok x0 c1 -> non_occurrence_new name' k start' = Ok y0 c2 ->
  in_order (happens start) h (happens q) -> in_order (happens start') h (happens q) ->
  run_timed occurrence_op k (occurrence_with x0 invert sh) h = Some x ->
  run_timed non_occurrence_op k (non_occurrence_with y0 invert sh') h = Some y ->
  occurrence_put x d [] k q = Ok (switch_shows name bx ix) q1 ->
  non_occurrence_put y d [] k q = Ok (switch_shows name' by_ iy) q2 ->
  bx = negb by_.
Proof. exact indicators_opposite. Qed.
Print Assumptions c20_opposite_of_occurrence.

Example c20_case :
  let h := [(frozen (c18_start + 1), Configure 50); (frozen (c18_start + 2), Tap (OneObservation 3))] in
  let q := frozen (c18_start + 52) in
  in_order c18_start h (happens q)
  /\ match occurrence_new "o" release (frozen c18_start), non_occurrence_new "n" release (frozen c18_start) with
     | Ok x0 _, Ok y0 _ =>
         match run_timed occurrence_op release (occurrence_with x0 false None) h,
               run_timed non_occurrence_op release (non_occurrence_with y0 false (Some (Rename "i"))) h with
         | Some x, Some y =>
             occurrence_put x false [] release q = Ok (switch_shows "o" false None) (clock_tail q)
             /\ non_occurrence_put y false [] release q
                = Ok (switch_shows "n" true (Some (Rename "i", false))) (clock_tail (clock_tail q))
             /\ non_occurrence_put y false [] release (frozen (c18_start + 51))
                = Ok (switch_shows "n" false (Some (Rename "i", true))) (clock_tail (clock_tail (frozen (c18_start + 51))))
         | _, _ => False
         end
     | _, _ => False
     end.
Proof.
  cbv zeta. split.
  - unfold c18_start. ordered.
  - repeat split; reflexivity.
Qed.

(** ** C21 *)

(** False for all timed switches: the clock is read once for each field, and time
    may pass in between. *)
Theorem c21_inverted_is_negation_refuted :
  (exists t k q b a q', monotone q /\ staircase_put t false [] k q = Ok (switch_shows (st_name t) b (Some (a, b))) q')
  /\ (exists t k q b a q', monotone q /\ occurrence_put t false [] k q = Ok (switch_shows (oi_name t) b (Some (a, b))) q')
  /\ (exists t k q b a q', monotone q /\ non_occurrence_put t false [] k q = Ok (switch_shows (ni_name t) b (Some (a, b))) q').
Proof.
  assert (Hm : monotone (fun n => 1000 + Z.of_nat n)) by (intros n; lia).
  split; [|split].
  - exists (StaircaseTimer "s" no_descr 10 false (Some 1000) (Some (Prefix "not_"))), release,
      (fun n => 1000 + Z.of_nat n), true, (Prefix "not_").
    exists (clock_tail (clock_tail (fun n => 1000 + Z.of_nat n))). split; [exact Hm|reflexivity].
  - exists (OccurrenceIndicator "o" no_descr 10 991 false (Some (Prefix "not_"))), release,
      (fun n => 1000 + Z.of_nat n), true, (Prefix "not_").
    exists (clock_tail (clock_tail (fun n => 1000 + Z.of_nat n))). split; [exact Hm|reflexivity].
  - exists (NonOccurrenceIndicator "n" no_descr 10 991 false (Some (Prefix "not_"))), release,
      (fun n => 1000 + Z.of_nat n), false, (Prefix "not_").
    exists (clock_tail (clock_tail (fun n => 1000 + Z.of_nat n))). split; [exact Hm|reflexivity].
Qed.
Print Assumptions c21_inverted_is_negation_refuted.

(** True when both readings show the same time. (Flags: C16, always.) *)
Theorem c21_staircase_same_reading : forall t d k q s q' a,
  st_show_inverted t = Some a -> st_descr t = no_descr -> q 1%nat = q 0%nat ->
  staircase_put t d [] k q = Ok s q' ->
  exists b, s = switch_shows (st_name t) b (Some (a, negb b)).
Proof. exact staircase_inverted_same_reading. Qed.
Print Assumptions c21_staircase_same_reading.

Theorem c21_occurrence_same_reading : forall t d k q s q' a,
  oi_show_inverted t = Some a -> oi_descr t = no_descr -> q 1%nat = q 0%nat ->
  occurrence_put t d [] k q = Ok s q' ->
  exists b, s = switch_shows (oi_name t) b (Some (a, negb b)).
Proof. exact occurrence_inverted_same_reading. Qed.
Print Assumptions c21_occurrence_same_reading.

Theorem c21_non_occurrence_same_reading : forall t d k q s q' a,
  ni_show_inverted t = Some a -> ni_descr t = no_descr -> q 1%nat = q 0%nat ->
  non_occurrence_put t d [] k q = Ok s q' ->
  exists b, s = switch_shows (ni_name t) b (Some (a, negb b)).
Proof. exact non_occurrence_inverted_same_reading. Qed.
Print Assumptions c21_non_occurrence_same_reading.

Example c21_same_reading_case :
  staircase_put (StaircaseTimer "s" no_descr 10 true (Some 1000) (Some (Prefix "not_"))) true [] release (frozen 1000)
    = Ok (switch_shows "s" false (Some (Prefix "not_", true))) (clock_tail (clock_tail (frozen 1000)))
  /\ occurrence_put (OccurrenceIndicator "o" no_descr 10 991 false (Some (Prefix "not_"))) true [] release (frozen 1000)
    = Ok (switch_shows "o" true (Some (Prefix "not_", false))) (clock_tail (clock_tail (frozen 1000)))
  /\ non_occurrence_put (NonOccurrenceIndicator "n" no_descr 10 991 false (Some (Prefix "not_"))) true [] release (frozen 1000)
    = Ok (switch_shows "n" false (Some (Prefix "not_", true))) (clock_tail (clock_tail (frozen 1000))).
Proof. repeat split; reflexivity. Qed.

(** ** C22 *)

(** Whole seconds since the last observation, for every setting of [lt_invert]. *)
Theorem c22_whole_seconds : forall k x0 h c u x d q s q',
  lt_descr x0 = no_descr -> happens c <= happens q ->
  run_timed last_occurrence_op k x0 (h ++ [(c, u)]) = Some x -> last_occurrence_put x d [] k q = Ok s q' ->
  exists n, s = [(lt_name x0, UInt n)]
    /\ n * 1000000000 <= happens q - happens c < (n + 1) * 1000000000.
Proof. exact last_occurrence_shows. Qed.
Print Assumptions c22_whole_seconds.

Theorem c22_before_the_first : forall k x0 x d q s q',
  lt_happened_last x0 = None -> lt_descr x0 = no_descr ->
  run_timed last_occurrence_op k x0 [] = Some x -> last_occurrence_put x d [] k q = Ok s q' ->
  s = if lt_make_none_zero x0 then [(lt_name x0, Int 0)] else [].
Proof. exact last_occurrence_shows_before. Qed.
Print Assumptions c22_before_the_first.

Example c22_case :
  let x0 := LastOccurrenceTracker "l" no_descr None true true in
  let h := [(frozen 5, OneObservation 3); (frozen 10, OneObservation 1)] in
  last_occurrence_put x0 false [] release (frozen 3) = Ok [("l"%string, Int 0)] (frozen 3)
  /\ match run_timed last_occurrence_op release x0 h with
     | Some x => last_occurrence_put x false [] release (frozen 2000000009)
                 = Ok [("l"%string, UInt 1)] (clock_tail (frozen 2000000009))
     | None => False
     end.
Proof. split; reflexivity. Qed.

(** ** C23 *)

(** [v]: the last displayable observation or reset value. [r]: the last reset
    value. [e]: when the last displayed observation expires. *)
Theorem c23_display_until_expired : forall k name h x d q s q' v r,
  run_timed display_op_step k (display_new name) h = Some x ->
  display_put x d [] k q = Ok s q' ->
  last_of None (map sets_value h) v -> last_of None (map sets_reset_value h) r ->
  exists e, expires h e /\
    s = match (match e with Some t => if happens q <=? t then v else r | None => v end) with
        | Some i => [(name, i)]
        | None => []
        end.
Proof. exact display_shows. Qed.
Print Assumptions c23_display_until_expired.

Example c23_history : display_history :=
  [(frozen 1, SetResetValue (Text "none")); (frozen 2, Show (ObservationWithValue (SignedInteger 4) 0));
   (frozen 3, SetResetAfter 10); (frozen 5, Show (ObservationWithValue (BoolValue true) 0));
   (frozen 7, Show (ObservationWithValue (DurationValue 8 Seconds) 0))].

Example c23_display_until_expired_case :
  last_of None (map sets_value c23_history) (Some (Boolean true))
  /\ last_of None (map sets_reset_value c23_history) (Some (Text "none"))
  /\ expires c23_history (Some 15)
  /\ match run_timed display_op_step release (display_new "d") c23_history with
     | Some x => display_put x false [] release (frozen 15) = Ok [("d"%string, Boolean true)] (clock_tail (frozen 15))
         /\ display_put x false [] release (frozen 16) = Ok [("d"%string, Text "none")] (clock_tail (frozen 16))
     | None => False
     end.
Proof.
  split; [|split; [|split]].
  - apply (last_some _ [_; _; _] _ [_]). constructor; [reflexivity|constructor].
  - apply (last_some _ [] _ [_; _; _; _]). repeat (constructor; [reflexivity|]). constructor.
  - apply (exp_at [_; _; _] (frozen 5) _ (Boolean true) [_] 10); [reflexivity| |].
    + constructor; [intros u Hu; injection Hu as <-; reflexivity|constructor].
    + apply (last_some _ [_; _] _ []). constructor.
  - split; reflexivity.
Qed.
