(** Trees of library parts do not panic without overflow checks. *)
From Coq Require Import ZArith Bool String List Lia.
From Verif Require Import Base SpecRun MonadFacts ModelObservation ModelSnapshot ModelCounter ModelBuckets
  ModelLabelFilter ModelGauge ModelMeter ModelHistogram ModelSwitches ModelInstrument ModelTree ModelChannel
  ModelProcessor SpecTree SpecSafe TreeInd TreeEqs SafeProofs.
Import ListNotations.
Open Scope Z_scope.

Lemma panel_handle_eq : forall X d sl ps hs (ss : list (snapshooter X)) o,
  panel_handle (Panel d sl ps hs ss) o
  = if negb (accepts (lab_eqb X) (pd_filter d) (obs_label o)) then ret (Panel d sl ps hs ss, 0)
    else
      let* '(sl, n) := slots_handle sl o 0 in
      let* '(ps, n) := traverse (tally (fun x => panel_handle x o)) ps n in
      let* '(hs, n) := traverse (tally (fun x => handler_handle x o)) hs n in
      ret (Panel d sl ps hs ss, n).
Proof. reflexivity. Qed.

Section Parts.
  Context {X : ext}.
  Variables (k : cfg) (lo hi : Z).
  Notation safe := (safe k lo hi).
  Notation sound := (sound (X := X) k lo hi).
  Hypothesis Hrel : overflow_checks k = false.
  Hypothesis Htime : manageable k lo hi 0.
  Hypothesis HX : parts_safe k lo hi X.

  Lemma safe_histogram : forall (h : histogram (ex_histo X)) u, safe (histogram_update h u) (fun _ => True).
  Proof.
    intros h u. unfold histogram_update.
    assert (Hr : forall h' v, safe (histogram_record (H := ex_histo X) h' v) (fun _ => True)).
    { intros h' v. unfold histogram_record. eapply safe_bind; [apply (ps_histo_update _ _ _ _ HX)|]. intros i _.
      eapply safe_bind; [apply safe_now|]. intros t _. apply safe_done. }
    eapply safe_bind with (P := fun _ => True).
    { unfold histogram_maybe_reset. destruct (h_max_inactivity h); [|apply safe_done].
      destruct (h_reset_after_inactivity h); [|apply safe_done].
      eapply safe_bind; [apply safe_elapsed|]. intros e _. destruct (_ <? e); [|apply safe_done].
      eapply safe_bind; [apply (ps_histo_new _ _ _ _ HX)|]. intros i _. apply safe_done. }
    intros h' _. destruct u as [n t|t|v t]; try apply safe_done.
    destruct v as [v|v|v|v|v un|v];
      try (match goal with |- context [convert_to_i64 ?x] => destruct (convert_to_i64 x) end);
      try apply safe_done; try (eapply safe_bind; [apply Hr|]; intros; apply safe_done).
    eapply safe_bind; [apply safe_duration; assumption|]. intros d _.
    eapply safe_bind; [apply Hr|]; intros; apply safe_done.
  Qed.

  Lemma safe_histogram_put : forall (h : histogram (ex_histo X)) de into, safe (histogram_put h de into) (fun _ => True).
  Proof.
    intros h de into. unfold histogram_put. cbv zeta. eapply safe_bind; [|intros; apply safe_done].
    unfold histogram_put_values. apply (safe_bind _ _ _ _ _ _ _ (fun _ => True)).
    - destruct (h_max_inactivity h); [|apply safe_done]. eapply safe_bind; [apply safe_elapsed|]. intros; apply safe_done.
    - intros b _. cbv zeta. instantiate (1 := fun _ => True). destruct b; apply safe_done.
  Qed.

  Lemma manageable_up : forall d n, manageable k lo hi d -> lo <= n <= hi -> n + d <= max_instant k.
  Proof. clear. unfold manageable. intros. lia. Qed.
  Lemma manageable_down : forall d n, manageable k lo hi d -> lo <= n <= hi -> min_instant k <= n - d.
  Proof. clear. unfold manageable. intros. lia. Qed.

  Lemma safe_timed_switch : forall name d (state : M bool) a de into, safe state (fun _ => True) ->
    safe (put_timed_switch name d state a de into) (fun _ => True).
  Proof.
    intros name d state a de into H. unfold put_timed_switch. cbv zeta.
    eapply safe_bind; [apply H|]. intros b _. destruct a; [|apply safe_done].
    eapply safe_bind; [apply H|]. intros b2 _. apply safe_done.
  Qed.

  Theorem instrument_update_safe : forall (i : instrument X) u, sound i ->
    safe (instrument_update i u) (fun r => sound (fst r)).
  Proof.
    intros i u [Hd Hg]. destruct i as [i|i|i|i|i|i|i|i|i|i|i|i]; cbn [instrument_update]; cbn in Hd.
    - apply safe_wrap. eapply safe_weak; [|intros r _; split; [constructor|exact I]]. apply safe_counter; assumption.
    - apply safe_wrap. apply (safe_weak _ _ _ _ _ _ _ (safe_gauge _ _ _ Hrel Htime _ _ Hg)).
      intros r Hr. split; [constructor|exact Hr].
    - apply safe_wrap. eapply safe_weak; [|intros r _; split; [exact Hd|exact I]].
      apply safe_meter; try assumption. inversion Hd; assumption.
    - apply safe_wrap. eapply safe_weak; [|intros r _; split; [exact Hd|exact I]].
      apply safe_value_meter; try assumption. inversion Hd; assumption.
    - apply safe_wrap. eapply safe_weak; [|intros r _; split; [exact Hd|exact I]]. apply safe_histogram.
    - apply safe_wrap. apply safe_ret. split; [constructor|exact I].
    - apply safe_wrap. unfold staircase_update. inversion Hd; subst.
      eapply safe_bind; [apply safe_now|]. intros n Hn. cbv beta in Hn.
      eapply safe_bind; [apply safe_add_instant, manageable_up; assumption|]. intros t _. apply safe_ret.
      split; [exact Hd|exact I].
    - apply safe_wrap. unfold occurrence_update. eapply safe_bind; [apply safe_now|]. intros n _. apply safe_ret.
      split; [exact Hd|exact I].
    - apply safe_wrap. unfold non_occurrence_update. eapply safe_bind; [apply safe_now|]. intros n _. apply safe_ret.
      split; [exact Hd|exact I].
    - apply safe_wrap. unfold last_occurrence_update. eapply safe_bind; [apply safe_now|]. intros n _. apply safe_ret.
      split; [exact Hd|exact I].
    - apply safe_wrap. unfold display_update. destruct (upd_observed_value u); [|apply safe_ret; split; [exact Hd|exact I]].
      destruct (to_item_kind o); [|apply safe_ret; split; [exact Hd|exact I]].
      apply (safe_bind _ _ _ _ _ _ _ (fun _ => True)).
      + destruct (dd_reset_after i) as [d|] eqn:E; [|apply safe_done]. cbn in Hd. inversion Hd; subst.
        eapply safe_bind; [apply safe_now|]. intros n Hn. cbv beta in Hn.
        eapply safe_bind; [apply safe_add_instant, manageable_up; assumption|]. intros t _. apply safe_done.
      + intros un _. apply safe_ret. split; [exact Hd|exact I].
    - apply safe_wrap. eapply safe_weak; [|intros r _; split; [exact Hd|exact I]]. apply (ps_instr_update _ _ _ _ HX).
  Qed.

  Theorem instrument_put_safe : forall (i : instrument X) de into, sound i ->
    safe (instrument_put i de into) (fun r => sound (fst r)).
  Proof.
    intros i de into Hs. pose proof Hs as [Hd Hg].
    destruct i as [i|i|i|i|i|i|i|i|i|i|i|i]; cbn [instrument_put]; cbn in Hd.
    - apply safe_keep; [exact Hs|]. apply safe_done.
    - apply safe_wrap. apply (safe_weak _ _ _ _ _ _ _ (safe_gauge_put _ _ _ Hrel Htime _ _ _ Hg)).
      intros r Hr. split; [constructor|exact Hr].
    - apply safe_wrap. eapply safe_weak; [|intros r _; split; [exact Hd|exact I]].
      apply safe_meter_put; try assumption. inversion Hd; assumption.
    - apply safe_wrap. eapply safe_weak; [|intros r _; split; [exact Hd|exact I]].
      apply safe_value_meter_put; try assumption. inversion Hd; assumption.
    - apply safe_keep; [exact Hs|]. apply safe_histogram_put.
    - apply safe_keep; [exact Hs|]. apply safe_done.
    - apply safe_keep; [exact Hs|]. apply safe_timed_switch. unfold staircase_state.
      apply (safe_bind _ _ _ _ _ _ _ (fun _ => True)); [|intros; apply safe_done].
      destruct (st_stay_on_until i); [|apply safe_done]. eapply safe_bind; [apply safe_now|]. intros; apply safe_done.
    - apply safe_keep; [exact Hs|]. apply safe_timed_switch. unfold occurrence_state. inversion Hd; subst.
      eapply safe_bind; [apply safe_now|]. intros n Hn. cbv beta in Hn.
      eapply safe_bind; [apply safe_sub_instant, manageable_down; assumption|]. intros; apply safe_done.
    - apply safe_keep; [exact Hs|]. apply safe_timed_switch. unfold non_occurrence_state. inversion Hd; subst.
      eapply safe_bind; [apply safe_now|]. intros n Hn. cbv beta in Hn.
      eapply safe_bind; [apply safe_sub_instant, manageable_down; assumption|]. intros; apply safe_done.
    - apply safe_keep; [exact Hs|]. unfold last_occurrence_put. cbv zeta.
      apply (safe_bind _ _ _ _ _ _ _ (fun _ => True)).
      + unfold last_occurrence_elapsed. destruct (lt_happened_last i); [|apply safe_done].
        eapply safe_bind; [apply safe_now|]. intros; apply safe_done.
      + intros [v|] _; [apply safe_done|]. destruct (lt_make_none_zero i); apply safe_done.
    - apply safe_keep; [exact Hs|]. unfold display_put. cbv zeta.
      apply (safe_bind _ _ _ _ _ _ _ (fun _ => True)).
      + unfold display_value. destruct (dd_stay_on_until i); [|apply safe_done].
        eapply safe_bind; [apply safe_now|]. intros; apply safe_done.
      + intros [v|] _; apply safe_done.
    - apply safe_wrap. eapply safe_weak; [|intros r _; split; [exact Hd|exact I]]. apply (ps_instr_put _ _ _ _ HX).
  Qed.

  (** ** Adapters *)

  Lemma safe_adapter : forall I (f : I -> instrument X) (upd : I -> update -> M (I * Z)) (a : adapter X I) o,
    (forall u, safe (upd (ad_instrument a) u) (fun r => sound (f (fst r)))) -> sound (f (ad_instrument a)) ->
    safe (adapter_handle upd a o) (fun r => sound (f (ad_instrument (fst r)))).
  Proof.
    intros I0 f upd a o Hu Ha. unfold adapter_handle. destruct (negb _); [apply safe_ret, Ha|].
    destruct (split_observation o) as [l u]. cbv zeta. eapply safe_bind; [apply Hu|]. intros [i n] Hi. apply safe_ret. exact Hi.
  Qed.

  Lemma safe_adapter_put : forall I (f : I -> instrument X) put (a : adapter X I) de into,
    (forall de into, safe (put (ad_instrument a) de into) (fun r => sound (f (fst r)))) ->
    safe (adapter_put put a de into) (fun r => sound (f (ad_instrument (fst r)))).
  Proof.
    intros I0 f put a de into Hu. unfold adapter_put. eapply safe_bind; [apply Hu|]. intros [i n] Hi. apply safe_ret. exact Hi.
  Qed.

  Lemma safe_ga : forall (a : gauge_adapter (lab X)) o, tracking_in_bounds (ga_gauge a) ->
    safe (ga_handle (lab_eqb X) a o) (fun r => tracking_in_bounds (ga_gauge (fst r))).
  Proof.
    intros a o H. unfold ga_handle. destruct (split_observation o) as [l u].
    assert (Hg : forall u, safe (let* '(g, n) := gauge_update (ga_gauge a) u in ret (ga_with a g, n))
                             (fun r => tracking_in_bounds (ga_gauge (fst r)))).
    { intros u'. eapply safe_bind; [apply safe_gauge; assumption|]. intros [g n] Hg. apply safe_ret. exact Hg. }
    destruct (ga_strategy a) as [f|f|inc dec].
    - destruct (negb _); [apply safe_ret, H|]. apply Hg.
    - destruct (negb _); [apply safe_ret, H|]. cbv zeta.
      destruct (modify _ _ _) as [n t|t|v t]; try (apply safe_ret, H). destruct v; first [apply safe_ret, H | apply Hg].
    - cbv zeta. destruct (accepts _ inc l); [apply Hg|]. destruct (accepts _ dec l); [apply Hg|]. apply safe_ret, H.
  Qed.

  Lemma safe_ga_put : forall (a : gauge_adapter (lab X)) de into, tracking_in_bounds (ga_gauge a) ->
    safe (ga_put a de into) (fun r => tracking_in_bounds (ga_gauge (fst r))).
  Proof.
    intros a de into H. unfold ga_put. eapply safe_bind; [apply safe_gauge_put; assumption|]. intros [g n] Hg.
    apply safe_ret. exact Hg.
  Qed.

  (** ** Trees *)

  Definition slots_sound (sl : slots X) := Forall sound (slots_instruments sl).
  Definition panel_sound (p : panel X) := Forall sound (panel_instruments p).
  Definition handler_sound (h : handler X) := Forall sound (handler_instruments h).
  Definition cockpit_sound (c : cockpit X) := Forall sound (cockpit_instruments c).
  Definition snapshooter_sound (s : snapshooter X) := Forall sound (snapshooter_instruments s).

  Lemma slots_sound_iff : forall sl, slots_sound sl <->
    Forall (fun a => sound (ICounter (ad_instrument a))) (opt_list (sl_counter sl))
    /\ Forall (fun a => sound (IGauge (ga_gauge a))) (opt_list (sl_gauge sl))
    /\ Forall (fun a => sound (IMeter (ad_instrument a))) (opt_list (sl_meter sl))
    /\ Forall (fun a => sound (IHistogram (ad_instrument a))) (opt_list (sl_histogram sl)).
  Proof. intros. unfold slots_sound, slots_instruments. rewrite !Forall_app, !Forall_map. reflexivity. Qed.

  Lemma panel_sound_iff : forall d sl ps hs ss, panel_sound (Panel d sl ps hs ss) <->
    slots_sound sl /\ Forall panel_sound ps /\ Forall handler_sound hs /\ Forall snapshooter_sound ss.
  Proof.
    intros. unfold panel_sound at 1.
    change (panel_instruments (Panel d sl ps hs ss)) with
      (slots_instruments sl ++ flat_map panel_instruments ps ++ flat_map handler_instruments hs
       ++ flat_map snapshooter_instruments ss).
    rewrite !Forall_app, !Forall_flat_map. reflexivity.
  Qed.

  Lemma cockpit_sound_iff : forall d ps hs ss, cockpit_sound (Cockpit d ps hs ss) <->
    Forall panel_sound ps /\ Forall handler_sound hs /\ Forall snapshooter_sound ss.
  Proof.
    intros. unfold cockpit_sound at 1.
    change (cockpit_instruments (Cockpit d ps hs ss)) with
      (flat_map panel_instruments ps ++ flat_map handler_instruments hs ++ flat_map snapshooter_instruments ss).
    rewrite !Forall_app, !Forall_flat_map. reflexivity.
  Qed.

  Lemma one_sound : forall i, Forall sound [i] <-> sound i.
  Proof. intros. split; [intros H; inversion H; assumption|]. repeat constructor; apply H. Qed.

  Lemma gauge_sound : forall g, sound (IGauge g) <-> tracking_in_bounds g.
  Proof. intros g. split; [intros [_ H]; exact H|]. intros H. split; [constructor|exact H]. Qed.

  Lemma safe_slots : forall sl o acc, slots_sound sl -> safe (slots_handle sl o acc) (fun r => slots_sound (fst r)).
  Proof.
    intros sl o acc H. apply slots_sound_iff in H. destruct H as (Hc & Hg & Hm & Hh). unfold slots_handle.
    eapply safe_bind.
    { apply (safe_traverse_opt _ _ _ _ _ _ (fun a => sound (ICounter (ad_instrument a)))).
      apply (Forall_impl _ (P := fun a => sound (ICounter (ad_instrument a)))); [|exact Hc]. intros a Ha s.
      apply (safe_tally _ _ _ Hrel _ _ _ _ (fun a => sound (ICounter (ad_instrument a)))). apply safe_adapter with (f := ICounter); [|exact Ha]. intros u.
      eapply safe_weak; [|intros r _; split; [constructor|exact I]]. apply safe_counter; assumption. }
    intros [c acc1] Hc1.
    eapply safe_bind.
    { apply (safe_traverse_opt _ _ _ _ _ _ (fun a => sound (IGauge (ga_gauge a)))).
      apply (Forall_impl _ (P := fun a => sound (IGauge (ga_gauge a)))); [|exact Hg]. intros a Ha s.
      apply (safe_tally _ _ _ Hrel _ _ _ _ (fun a => sound (IGauge (ga_gauge a)))). apply (safe_weak _ _ _ _ _ _ _ (safe_ga a o (proj1 (gauge_sound _) Ha))).
      intros r Hr. apply gauge_sound, Hr. }
    intros [g acc2] Hg1.
    eapply safe_bind.
    { apply (safe_traverse_opt _ _ _ _ _ _ (fun a => sound (IMeter (ad_instrument a)))).
      apply (Forall_impl _ (P := fun a => sound (IMeter (ad_instrument a)))); [|exact Hm]. intros a Ha s.
      apply (safe_tally _ _ _ Hrel _ _ _ _ (fun a => sound (IMeter (ad_instrument a)))). apply safe_adapter with (f := IMeter); [|exact Ha]. intros u.
      destruct Ha as [Ha _]. eapply safe_weak; [|intros r _; split; [exact Ha|exact I]].
      apply safe_meter; try assumption. inversion Ha; assumption. }
    intros [m acc3] Hm1.
    eapply safe_bind.
    { apply (safe_traverse_opt _ _ _ _ _ _ (fun a => sound (IHistogram (ad_instrument a)))).
      apply (Forall_impl _ (P := fun a => sound (IHistogram (ad_instrument a)))); [|exact Hh]. intros a Ha s.
      apply (safe_tally _ _ _ Hrel _ _ _ _ (fun a => sound (IHistogram (ad_instrument a)))). apply safe_adapter with (f := IHistogram); [|exact Ha]. intros u.
      eapply safe_weak; [|intros r _; split; [constructor|exact I]]. apply safe_histogram. }
    intros [h acc4] Hh1. apply safe_ret. apply slots_sound_iff. auto.
  Qed.

  Lemma safe_slots_put : forall sl de into, slots_sound sl -> safe (slots_put de sl into) (fun r => slots_sound (fst r)).
  Proof.
    intros sl de into H. apply slots_sound_iff in H. destruct H as (Hc & Hg & Hm & Hh). unfold slots_put.
    eapply safe_bind.
    { apply (safe_traverse_opt _ _ _ _ _ _ (fun a => sound (ICounter (ad_instrument a)))).
      apply (Forall_impl _ (P := fun a => sound (ICounter (ad_instrument a)))); [|exact Hc]. intros a Ha s.
      apply safe_adapter_put with (f := ICounter). intros.
      apply (safe_keep _ _ _ _ _ _ _ (fun i => sound (ICounter i))); [exact Ha|apply safe_done]. }
    intros [c acc1] Hc1.
    eapply safe_bind.
    { apply (safe_traverse_opt _ _ _ _ _ _ (fun a => sound (IGauge (ga_gauge a)))).
      apply (Forall_impl _ (P := fun a => sound (IGauge (ga_gauge a)))); [|exact Hg]. intros a Ha s.
      apply (safe_weak _ _ _ _ _ _ _ (safe_ga_put a _ _ (proj1 (gauge_sound _) Ha))).
      intros r Hr. apply gauge_sound, Hr. }
    intros [g acc2] Hg1.
    eapply safe_bind.
    { apply (safe_traverse_opt _ _ _ _ _ _ (fun a => sound (IMeter (ad_instrument a)))).
      apply (Forall_impl _ (P := fun a => sound (IMeter (ad_instrument a)))); [|exact Hm]. intros a Ha s.
      apply safe_adapter_put with (f := IMeter). intros.
      destruct Ha as [Ha _]. eapply safe_weak; [|intros r _; split; [exact Ha|exact I]].
      apply safe_meter_put; try assumption. inversion Ha; assumption. }
    intros [m acc3] Hm1.
    eapply safe_bind.
    { apply (safe_traverse_opt _ _ _ _ _ _ (fun a => sound (IHistogram (ad_instrument a)))).
      apply (Forall_impl _ (P := fun a => sound (IHistogram (ad_instrument a)))); [|exact Hh]. intros a Ha s.
      apply safe_adapter_put with (f := IHistogram). intros.
      apply (safe_keep _ _ _ _ _ _ _ (fun i => sound (IHistogram i))); [exact Ha|apply safe_histogram_put]. }
    intros [h acc4] Hh1. apply safe_ret. apply slots_sound_iff. auto.
  Qed.

  Lemma forall_mp : forall A (P Q : A -> Prop) l, Forall (fun x => P x -> Q x) l -> Forall P l -> Forall Q l.
  Proof. intros A P Q l H HP. induction H; inversion HP; subst; constructor; auto. Qed.

  Lemma forall_quant : forall A B (P : A -> B -> Prop) l, Forall (fun x => forall b, P x b) l -> forall b, Forall (fun x => P x b) l.
  Proof. intros A B P l H b. induction H; constructor; auto. Qed.

  Lemma tree_handle_safe :
    (forall p o, panel_sound p -> safe (panel_handle p o) (fun r => panel_sound (fst r)))
    /\ (forall h o, handler_sound h -> safe (handler_handle h o) (fun r => handler_sound (fst r)))
    /\ (forall c o, cockpit_sound c -> safe (cockpit_handle c o) (fun r => cockpit_sound (fst r)))
    /\ (forall s : snapshooter X, True).
  Proof.
    apply tree_ind; try (intros; exact I).
    - intros d sl ps hs ss Hps Hhs _ o H. apply panel_sound_iff in H. destruct H as (Hsl & Hp & Hh & Hs).
      rewrite panel_handle_eq. destruct (negb _); [apply safe_ret, panel_sound_iff; auto|].
      eapply safe_bind; [apply safe_slots, Hsl|]. intros [sl' n] Hsl'.
      eapply safe_bind.
      { apply (safe_traverse _ _ _ _ _ _ panel_sound). apply (forall_mp _ panel_sound); [|exact Hp].
        apply (Forall_impl _ (P := fun x => forall o, panel_sound x -> safe (panel_handle x o) (fun r => panel_sound (fst r)))); [|exact Hps].
        intros x Hx Hx2 s. apply safe_tally; [exact Hrel|]. apply Hx, Hx2. }
      intros [ps' n1] Hps'.
      eapply safe_bind.
      { apply (safe_traverse _ _ _ _ _ _ handler_sound). apply (forall_mp _ handler_sound); [|exact Hh].
        apply (Forall_impl _ (P := fun x => forall o, handler_sound x -> safe (handler_handle x o) (fun r => handler_sound (fst r)))); [|exact Hhs].
        intros x Hx Hx2 s. apply safe_tally; [exact Hrel|]. apply Hx, Hx2. }
      intros [hs' n2] Hhs'. apply safe_ret, panel_sound_iff. auto.
    - intros a o H. unfold handler_sound in H. cbn in H. apply one_sound in H.
      change (handler_handle (HInstrument a) o) with (wrap (HInstrument (X := X)) (adapter_handle instrument_update a o)).
      apply safe_wrap. eapply safe_weak; [apply (safe_adapter _ (fun i => i)); [intros; apply instrument_update_safe, H|exact H]|].
      intros r Hr. apply one_sound, Hr.
    - intros a o H. unfold handler_sound in H. cbn in H. apply one_sound, gauge_sound in H.
      change (handler_handle (HGauge a) o) with (wrap (HGauge (X := X)) (ga_handle (lab_eqb X) a o)).
      apply safe_wrap. eapply safe_weak; [apply safe_ga, H|]. intros r Hr. apply one_sound, gauge_sound, Hr.
    - intros p Hp o H. change (handler_handle (HPanel p) o) with (wrap (HPanel (X := X)) (panel_handle p o)).
      apply safe_wrap. apply Hp, H.
    - intros p Hp o H. change (handler_handle (HCockpit p) o) with (wrap (HCockpit (X := X)) (cockpit_handle p o)).
      apply safe_wrap. apply Hp, H.
    - intros u o H. change (handler_handle (HUser u) o) with (wrap (HUser (X := X)) (user_handler_handle X u o)).
      apply safe_wrap. eapply safe_weak; [|intros r _; constructor]. apply (ps_handler_handle _ _ _ _ HX).
    - intros d ps hs ss Hps Hhs _ o H. apply cockpit_sound_iff in H. destruct H as (Hp & Hh & Hs).
      rewrite cockpit_handle_eq. eapply safe_bind; [apply safe_now|]. intros t _.
      eapply safe_bind.
      { apply (safe_traverse _ _ _ _ _ _ handler_sound). apply (forall_mp _ handler_sound); [|exact Hh].
        apply (Forall_impl _ (P := fun x => forall o, handler_sound x -> safe (handler_handle x o) (fun r => handler_sound (fst r)))); [|exact Hhs].
        intros x Hx Hx2 s. apply safe_tally; [exact Hrel|]. apply Hx, Hx2. }
      intros [hs' n1] Hhs'.
      eapply safe_bind.
      { apply (safe_traverse _ _ _ _ _ _ panel_sound). apply (forall_mp _ panel_sound); [|exact Hp].
        apply (Forall_impl _ (P := fun x => forall o, panel_sound x -> safe (panel_handle x o) (fun r => panel_sound (fst r)))); [|exact Hps].
        intros x Hx Hx2 s. apply safe_tally; [exact Hrel|]. apply Hx, Hx2. }
      intros [ps' n2] Hps'. apply safe_ret, cockpit_sound_iff. auto.
  Qed.

  Lemma safe_put_named : forall A name (values : snapshot -> M (A * snapshot)) into (P : A -> Prop),
    (forall into, safe (values into) (fun r => P (fst r))) -> safe (put_named name values into) (fun r => P (fst r)).
  Proof.
    intros A name values into P H. unfold put_named. destruct name; [|apply H].
    eapply safe_bind; [apply H|]. intros [a l] Ha. apply safe_ret, Ha.
  Qed.

  Lemma safe_check : forall A limit show last (a : A) rest into (P : A -> Prop), P a ->
    (forall into, safe (rest into) (fun r => P (fst r))) ->
    safe (check_activity limit show last a rest into) (fun r => P (fst r)).
  Proof.
    intros A limit show last a rest into P Ha H. unfold check_activity.
    destruct limit; [|apply H]. destruct show; [|apply H].
    eapply safe_bind; [apply safe_elapsed|]. intros e _. destruct (_ <? e); [apply safe_ret, Ha|apply H].
  Qed.

  Lemma put_list : forall A (P : A -> Prop) (put : A -> bool -> snapshot -> M (A * snapshot)) l,
    Forall (fun x => forall de into, P x -> safe (put x de into) (fun r => P (fst r))) l -> Forall P l ->
    forall de into, safe (traverse (fun x => put x de) l into) (fun r => Forall P (fst r)).
  Proof.
    intros A P put l H HP de into. apply safe_traverse. apply (forall_mp _ P); [|exact HP].
    eapply Forall_impl; [|exact H]. cbv beta. intros x Hx Hx2 s. apply Hx, Hx2.
  Qed.

  Lemma tree_put_safe :
    (forall p de into, panel_sound p -> safe (panel_put p de into) (fun r => panel_sound (fst r)))
    /\ (forall h de into, handler_sound h -> safe (handler_put h de into) (fun r => handler_sound (fst r)))
    /\ (forall c de into, cockpit_sound c -> safe (cockpit_put c de into) (fun r => cockpit_sound (fst r)))
    /\ (forall s de into, snapshooter_sound s -> safe (snapshooter_put s de into) (fun r => snapshooter_sound (fst r))).
  Proof.
    apply tree_ind.
    - intros d sl ps hs ss Hps Hhs Hss de into H. pose proof H as H0. apply panel_sound_iff in H.
      destruct H as (Hsl & Hp & Hh & Hs). rewrite panel_put_eq. apply safe_put_named. intros into1. cbv zeta.
      apply safe_check; [exact H0|]. intros into2.
      eapply safe_bind; [apply safe_slots_put, Hsl|]. intros [sl' n] Hsl'.
      eapply safe_bind; [apply (put_list _ _ _ _ Hps Hp)|]. intros [ps' n1] Hps'.
      eapply safe_bind; [apply (put_list _ _ _ _ Hss Hs)|]. intros [ss' n2] Hss'.
      eapply safe_bind; [apply (put_list _ _ _ _ Hhs Hh)|]. intros [hs' n3] Hhs'.
      apply safe_ret, panel_sound_iff. auto.
    - intros a de into H. unfold handler_sound in H. cbn in H. apply one_sound in H.
      change (handler_put (HInstrument a) de into) with (wrap (HInstrument (X := X)) (adapter_put instrument_put a de into)).
      apply safe_wrap. eapply safe_weak; [apply (safe_adapter_put _ (fun i => i)); intros; apply instrument_put_safe, H|].
      intros r Hr. apply one_sound, Hr.
    - intros a de into H. unfold handler_sound in H. cbn in H. apply one_sound, gauge_sound in H.
      change (handler_put (HGauge a) de into) with (wrap (HGauge (X := X)) (ga_put a de into)).
      apply safe_wrap. eapply safe_weak; [apply safe_ga_put, H|]. intros r Hr. apply one_sound, gauge_sound, Hr.
    - intros p Hp de into H. change (handler_put (HPanel p) de into) with (wrap (HPanel (X := X)) (panel_put p de into)).
      apply safe_wrap. apply Hp, H.
    - intros p Hp de into H. change (handler_put (HCockpit p) de into) with (wrap (HCockpit (X := X)) (cockpit_put p de into)).
      apply safe_wrap. apply Hp, H.
    - intros u de into H. change (handler_put (HUser u) de into) with (wrap (HUser (X := X)) (user_handler_put X u de into)).
      apply safe_wrap. eapply safe_weak; [|intros r _; constructor]. apply (ps_handler_put _ _ _ _ HX).
    - intros d ps hs ss Hps Hhs Hss de into H. pose proof H as H0. apply cockpit_sound_iff in H.
      destruct H as (Hp & Hh & Hs). rewrite cockpit_put_eq. apply safe_put_named. intros into1. cbv zeta.
      apply safe_check; [exact H0|]. intros into2.
      eapply safe_bind; [apply (put_list _ _ _ _ Hps Hp)|]. intros [ps' n1] Hps'.
      eapply safe_bind; [apply (put_list _ _ _ _ Hhs Hh)|]. intros [hs' n3] Hhs'.
      eapply safe_bind; [apply (put_list _ _ _ _ Hss Hs)|]. intros [ss' n2] Hss'.
      apply safe_ret, cockpit_sound_iff. auto.
    - intros v de into H. apply safe_ret. constructor.
    - intros n d g s IH de into H.
      change (snapshooter_put (SPolled n d g s) de into) with
        (wrap (SPolled (X := X) n d g) (polled_put (snapshooter_put s) n d g de into)).
      apply safe_wrap. unfold polled_put. cbv zeta. destruct g; [|apply IH, H].
      eapply safe_bind; [apply IH, H|]. intros [p l] Hp. apply safe_ret, Hp.
    - intros i de into H. unfold snapshooter_sound in H. cbn in H. apply one_sound in H.
      change (snapshooter_put (SInstrument i) de into) with (wrap (SInstrument (X := X)) (instrument_put i de into)).
      apply safe_wrap. eapply safe_weak; [apply instrument_put_safe, H|]. intros r Hr. apply one_sound, Hr.
    - intros h Hh de into H. change (snapshooter_put (SHandler h) de into) with (wrap (SHandler (X := X)) (handler_put h de into)).
      apply safe_wrap. apply Hh, H.
    - intros u de into H. change (snapshooter_put (SUser u) de into) with (wrap (SUser (X := X)) (user_snap_put X u de into)).
      apply safe_wrap. eapply safe_weak; [|intros r _; constructor]. apply (ps_snap_put _ _ _ _ HX).
  Qed.
End Parts.
