(** C60, C61: what a single instrument sees of the observations that are sent to
    its processor, and gauges under the default strategy. *)
From Coq Require Import ZArith Bool String List.
From Verif Require Import Base SpecRun SpecClock ModelObservation ModelLabelFilter ModelSnapshot ModelCounter ModelGauge ModelInstrument ModelTree
  ModelChannel ModelProcessor SpecTree SpecCounting SpecGauge SpecNames SpecCollect SpecFollow FollowProofs GaugeProofs Toy.
Import ListNotations.
Open Scope string_scope.
Open Scope list_scope.
Open Scope Z_scope.

(** ** C61 *)

(** Wherever an instrument is in a processor: of the observations that are handled
    in a collection it handles exactly those that are kept by the strategy and
    whose label is accepted by all filters on the way, in their order. *)
Theorem c61_sees_exactly : forall (X : ext), parts_tick X ->
  forall s k0 c0 d c0' k os (t : tele X) n c t' n' c' i on x,
  strategy_decider s k0 c0 = Ok d c0' ->
  handles k d t n c (map (fun o => MObservation o) os) t' n' c' -> leaf_at t i on x ->
  exists os' x',
    without (fun o => ~ (kept_by s (c0 O) o /\ on (obs_label o) = true)) os os'
    /\ follows k c x os' x' c' /\ leaf_at t' i on x'.
Proof. exact @collection_leaf. Qed.
Print Assumptions c61_sees_exactly.

Definition drift_tele : tele toy :=
  Tele (Some "p") no_descr
    [Cockpit (CockpitData None no_descr 0 None true)
       [Panel (PanelData (Two la lb) None no_descr 0 None true)
          (Slots (Some (adapter_accept (One la) (counter_new "count"))) (Some (ga_deltas_only (One lb) (gauge_new "deltas")))
             None None) [] [] []] [] []]
    [HGauge (ga_inc_dec_on (One la) (One lb) (gauge_new "in_progress"));
     HGauge (ga_accept (One lc) (gauge_new "accept"))]
    0 [] 0 None true false.

(** At 100 s: something began 90 s ago and was over 10 s ago, there are old and
    new changes and values. *)
Definition drift_observations : list (observation (lab toy)) :=
  [ObservedOne la 10000000000; ObservedOneValue lb (ChangedBy 5) 11000000000;
   ObservedOneValue lb (SignedInteger 3) 20000000000; ObservedOne lb 90000000000;
   ObservedOneValue lb (ChangedBy (-2)) 12000000000; ObservedOneValue lc (ChangedBy 7) 13000000000;
   Observed la 4 99000000000].

Definition drift_decider : decider := DropBeforeDeadline 70000000000 false.

Example drift_decided :
  strategy_decider strategy_default debug (frozen 100000000000) = Ok drift_decider (clock_tail (frozen 100000000000)).
Proof. reflexivity. Qed.

Example drift_ticks : parts_tick toy.
Proof.
  split; intros; intros k c a c' E; cbn in E; injection E as <- <-; try (exists 0%nat; reflexivity); exists 1%nat; reflexivity.
Qed.

Definition drift_after : tele toy * counts :=
  match handle_all drift_decider drift_tele (Counts 0 0 0) (map (fun o => MObservation o) drift_observations) debug
          (frozen 100000000000) with
  | Ok r _ => r
  | _ => (drift_tele, Counts 0 0 0)
  end.

Example drift_handles : exists c',
  handles debug drift_decider drift_tele (Counts 0 0 0) (frozen 100000000000)
    (map (fun o => MObservation o) drift_observations) (fst drift_after) (snd drift_after) c'.
Proof. eexists. apply handle_all_handles. vm_compute. reflexivity. Qed.

(** The counter sees only the last observation. *)
Example c61_case : exists c',
  leaf_at drift_tele 1 (fun l => (((l =? "a") || (l =? "b")) && (l =? "a"))%string)
    (LInstrument (ICounter (counter_new "count")) None)
  /\ follows debug (frozen 100000000000) (LInstrument (ICounter (counter_new "count")) None : leaf toy)
       [Observed la 4 99000000000] (LInstrument (ICounter (Counter "count" no_descr 4)) None) c'
  /\ leaf_at (fst drift_after) 1 (fun l => (((l =? "a") || (l =? "b")) && (l =? "a"))%string)
       (LInstrument (ICounter (Counter "count" no_descr 4)) None)
  /\ ct_dropped (snd drift_after) = 2.
Proof.
  exists (frozen 100000000000). split; [intros l; reflexivity|]. split.
  - eapply fo_cons; [exists 0%nat; reflexivity | reflexivity |]. apply fo_nil. exists 0%nat. reflexivity.
  - split; [intros l; reflexivity | reflexivity].
Qed.

(** ** C60 *)

(** A gauge that follows changes (with a filter only, or deltas only): under the
    default strategy every change whose label reaches the gauge counts, however
    long it waited in the queue. A gauge that also takes values is covered as long
    as only changes reach it. *)
Theorem c60_every_change_counts : forall (X : ext), parts_tick X ->
  forall k0 c0 d c0' k os (t : tele X) n c t' n' c' i on f g,
  strategy_decider strategy_default k0 c0 = Ok d c0' ->
  handles k d t n c (map (fun o => MObservation o) os) t' n' c' ->
  forall a, a = ga_deltas_only f g
            \/ (a = ga_accept f g /\ Forall (fun o => on (obs_label o) = true -> delta_observation o) os) ->
  leaf_at t i on (LGauge a) ->
  opt_in_i64 (gauge_get g) -> Forall (fun o => Forall in_i64 (accepted_change on (fun _ u => u) o)) os ->
  exists g', leaf_at t' i on (LGauge (ga_with a g'))
    /\ gauge_get g' = option_map wrap_i64 (changed_by (accepted_changes on (fun _ u => u) os) (gauge_get g)).
Proof. exact @gauge_keeps_deltas. Qed.
Print Assumptions c60_every_change_counts.

Example c60_every_change_counts_case :
  leaf_at drift_tele 2 (fun l => (((l =? "a") || (l =? "b")) && (l =? "b"))%string)
    (LGauge (ga_deltas_only (One lb) (gauge_new "deltas")))
  /\ (exists g', leaf_at (fst drift_after) 2 (fun l => (((l =? "a") || (l =? "b")) && (l =? "b"))%string)
                   (LGauge (ga_deltas_only (One lb) g')) /\ gauge_get g' = Some 3)
  /\ leaf_at drift_tele 4 (fun l => (l =? "c")%string) (LGauge (ga_accept (One lc) (gauge_new "accept")))
  /\ Forall (fun o => (obs_label o =? "c")%string = true -> delta_observation (X := toy) o) drift_observations
  /\ (exists g', leaf_at (fst drift_after) 4 (fun l => (l =? "c")%string) (LGauge (ga_accept (One lc) g'))
                 /\ gauge_get g' = Some 7).
Proof.
  split; [intros l; reflexivity|]. split; [eexists; split; [intros l; reflexivity | reflexivity]|].
  split; [intros l; reflexivity|]. split.
  - repeat (apply Forall_cons; [intros E; try discriminate E; constructor|]). apply Forall_nil.
  - eexists; split; [intros l; reflexivity | reflexivity].
Qed.

(** A gauge with increments and decrements on labels counts the observations that
    are kept (missing: the ones that waited too long). *)
Theorem c60_inc_dec_partial : forall (X : ext), parts_tick X ->
  forall s k0 c0 d c0' k os (t : tele X) n c t' n' c' i on inc dec g,
  strategy_decider s k0 c0 = Ok d c0' ->
  handles k d t n c (map (fun o => MObservation o) os) t' n' c' ->
  leaf_at t i on (LGauge (ga_inc_dec_on inc dec g)) -> opt_in_i64 (gauge_get g) ->
  exists os' g', without (fun o => ~ kept_by s (c0 O) o) os os'
    /\ leaf_at t' i on (LGauge (ga_inc_dec_on inc dec g'))
    /\ let incs := how_many (fun l => on l && accepts (lab_eqb X) inc l) os' in
       let decs := how_many (fun l => on l && negb (accepts (lab_eqb X) inc l)) os' in
       gauge_get g' = option_map wrap_i64
         (match gauge_get g with
          | Some z => Some (z + (incs - decs))
          | None => if incs + decs =? 0 then None else Some (incs - decs)
          end).
Proof. exact @inc_dec_kept. Qed.
Print Assumptions c60_inc_dec_partial.

(** Such a gauge drifts: something began and was over, but the gauge shows -1,
    because the beginning waited in the queue for more than 30 s. *)
Theorem c60_inc_dec_drifts_refuted : exists (t t' : tele toy) d n' c' g',
  strategy_decider strategy_default debug (frozen 100000000000) = Ok d (clock_tail (frozen 100000000000))
  /\ leaf_at t 0 (fun l => accepts (lab_eqb toy) (One la) l || accepts (lab_eqb toy) (One lb) l)
       (LGauge (ga_inc_dec_on (One la) (One lb) (gauge_new "in_progress")))
  /\ handles debug d t (Counts 0 0 0) (frozen 100000000000)
       [MObservation (ObservedOne la 69999999999); MObservation (ObservedOne lb 80000000000)] t' n' c'
  /\ leaf_at t' 0 (fun l => accepts (lab_eqb toy) (One la) l || accepts (lab_eqb toy) (One lb) l)
       (LGauge (ga_inc_dec_on (One la) (One lb) g'))
  /\ gauge_get g' = Some (-1).
Proof.
  exists (Tele None no_descr [] [HGauge (ga_inc_dec_on (One la) (One lb) (gauge_new "in_progress"))] 0 [] 0 None true false).
  do 5 eexists. split; [reflexivity|]. split; [intros l; reflexivity|].
  split; [apply handle_all_handles; vm_compute; reflexivity|].
  split; [intros l; reflexivity | reflexivity].
Qed.
Print Assumptions c60_inc_dec_drifts_refuted.
