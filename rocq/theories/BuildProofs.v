From Coq Require Import ZArith Bool String List Lia.
From Verif Require Import Base SpecRun MonadFacts SpecClock SpecWriting ModelObservation ModelLabelFilter ModelSnapshot ModelCounter ModelGauge ModelMeter ModelHistogram ModelInstrument ModelTree
  ModelChannel ModelProcessor ModelTransmitter SpecNames SpecTree SpecSite SpecBuild ObservationProofs NamesProofs TreeInd TreeEqs TreeProofs ClockProofs WritingProofs AppendProofs SiteProofs.
Import ListNotations.
Open Scope list_scope.
Open Scope Z_scope.

Section Build.
  Context {X : ext}.

  Lemma site_same_labels :
    (forall (p : panel X) at_ names gs on x, panel_site p at_ names gs on x -> forall on', (forall l, on' l = on l) -> panel_site p at_ names gs on' x)
    /\ (forall (h : handler X) at_ names gs on x, handler_site h at_ names gs on x -> forall on', (forall l, on' l = on l) -> handler_site h at_ names gs on' x)
    /\ (forall (c : cockpit X) at_ names gs on x, cockpit_site c at_ names gs on x -> forall on', (forall l, on' l = on l) -> cockpit_site c at_ names gs on' x).
  Proof.
    apply site_ind.
    - intros d a g m h ps hs ss on H on' H'. apply si_counter. intros l. rewrite H'. apply H.
    - intros d a g m h ps hs ss on H on' H'. apply si_gauge. intros l. rewrite H'. apply H.
    - intros d a g m h ps hs ss on H on' H'. apply si_meter. intros l. rewrite H'. apply H.
    - intros d a g m h ps hs ss on H on' H'. apply si_histogram. intros l. rewrite H'. apply H.
    - intros d sl ps hs ss j p at_ names gs on on1 x Hj Hp _ H on' H'. eapply si_panel; [exact Hj | exact Hp|]. intros l. rewrite H'. apply H.
    - intros d sl ps hs ss j p at_ names gs on on1 x Hj Hp _ H on' H'. eapply si_handler; [exact Hj | exact Hp|]. intros l. rewrite H'. apply H.
    - intros d sl ps hs ss j s on Hj H on' H'. apply si_shown; [exact Hj|]. intros l. rewrite H'. apply H.
    - intros a on H on' H'. apply si_instrument. intros l. rewrite H'. apply H.
    - intros a on H on' H'. apply si_gauge_handler. intros l. rewrite H'. apply H.
    - intros p at_ names gs on x _ IH on' H'. apply si_panel_handler. exact (IH _ H').
    - intros p at_ names gs on x _ IH on' H'. apply si_cockpit_handler. exact (IH _ H').
    - intros u on H on' H'. apply si_user. intros l. rewrite H'. apply H.
    - intros d ps hs ss j p at_ names gs on x Hj _ IH on' H'. eapply si_cockpit_panel; [exact Hj | exact (IH _ H')].
    - intros d ps hs ss j p at_ names gs on x Hj _ IH on' H'. eapply si_cockpits_handler; [exact Hj | exact (IH _ H')].
    - intros d ps hs ss j s on Hj H on' H'. apply si_cockpit_shown; [exact Hj|]. intros l. rewrite H'. apply H.
  Qed.

  Lemma nth_snoc : forall A (l : list A) x j y, nth_error (l ++ [x]) j = Some y <-> nth_error l j = Some y \/ j = length l /\ y = x.
  Proof.
    intros A l x. induction l as [|z l IH]; intros [|j] y; cbn [nth_error app length].
    - split; [intros H; injection H as <-; auto | intros [H|[_ ->]]; [discriminate H | reflexivity]].
    - split; [intros H; destruct j; discriminate H | intros [H|[H _]]; discriminate H].
    - split; [auto | intros [H|[H _]]; [exact H | discriminate H]].
    - rewrite IH. split; (intros [H|[H1 H2]]; [auto|]); right; (split; [lia | exact H2]).
  Qed.

  Lemma nth_beyond : forall A (l : list A) y, nth_error l (length l) = Some y -> False.
  Proof. intros A l y H. assert (N := proj1 (nth_error_Some l (length l))). rewrite H in N. specialize (N ltac:(discriminate)). lia. Qed.

  Lemma panel_handler_gained : forall (p : panel X) h, panel_gains p (handler_site h) (panel_add_handler p h).
  Proof.
    intros [d sl ps hs ss] h. split; [|split; reflexivity]. exists [5; length hs]%nat. split.
    - intros at_ names gs on x. split.
      + intros H. cbn [panel_add_handler] in H. inversion H; subst; clear H; try (left; econstructor; eassumption).
        match goal with H : nth_error (_ ++ _) _ = Some _ |- _ => apply nth_snoc in H; destruct H as [H|[-> ->]] end.
        * left. eapply si_handler; eassumption.
        * right. do 4 eexists. split; [eassumption|]. repeat split; try reflexivity. assumption.
      + intros [H|(at1 & names1 & gs1 & on1 & H & -> & -> & -> & Hl)]; cbn [panel_add_handler].
        * inversion H; subst; clear H; try (econstructor; eassumption).
          eapply si_handler; [|eassumption|eassumption]. apply nth_snoc. left. assumption.
        * eapply (si_handler d sl ps _ ss (length hs)); [apply nth_snoc; right; split; reflexivity | exact H | exact Hl].
    - intros at_ names gs on x names' gs' on' x' H (at1 & names1 & gs1 & on1 & _ & -> & _). cbn [app] in H. inversion H; subst.
      eapply nth_beyond. eassumption.
  Qed.

  Lemma panel_panel_gained : forall (p : panel X) q, panel_gains p (panel_site q) (panel_add_panel p q).
  Proof.
    intros [d sl ps hs ss] q. split; [|split; reflexivity]. exists [4; length ps]%nat. split.
    - intros at_ names gs on x. split.
      + intros H. cbn [panel_add_panel] in H. inversion H; subst; clear H; try (left; econstructor; eassumption).
        match goal with H : nth_error (_ ++ _) _ = Some _ |- _ => apply nth_snoc in H; destruct H as [H|[-> ->]] end.
        * left. eapply si_panel; eassumption.
        * right. do 4 eexists. split; [eassumption|]. repeat split; try reflexivity. assumption.
      + intros [H|(at1 & names1 & gs1 & on1 & H & -> & -> & -> & Hl)]; cbn [panel_add_panel].
        * inversion H; subst; clear H; try (econstructor; eassumption).
          eapply si_panel; [|eassumption|eassumption]. apply nth_snoc. left. assumption.
        * eapply (si_panel d sl _ hs ss (length ps)); [apply nth_snoc; right; split; reflexivity | exact H | exact Hl].
    - intros at_ names gs on x names' gs' on' x' H (at1 & names1 & gs1 & on1 & _ & -> & _). cbn [app] in H. inversion H; subst.
      eapply nth_beyond. eassumption.
  Qed.

  Ltac slot i f :=
    exists [i]; split;
    [ intros at_ names gs on x; split;
      [ intros H; inversion H; subst; clear H;
        first [solve [left; econstructor; eassumption]
              |right; exists [], [], [], f; split; [first [exact (si_instrument _ _ (fun _ => eq_refl)) | exact (si_gauge_handler _ _ (fun _ => eq_refl))]|];
               split; [reflexivity|]; split; [rewrite app_nil_r; reflexivity|]; split; [reflexivity | cbn [ad_filter]; eassumption]]
      | intros [H|(at1 & names1 & gs1 & on1 & H & -> & -> & -> & Hl)];
        [ inversion H; subst; clear H; econstructor; eassumption
        | inversion H; subst; clear H; rewrite ?app_nil_r; unfold panel_name in *; cbn [app p_data ad_instrument ad_modify ad_filter] in *;
          constructor; intros l; rewrite Hl; f_equal; auto ] ]
    | intros at_ names gs on x names' gs' on' x' H (at1 & names1 & gs1 & on1 & _ & -> & _); cbn [app] in H; inversion H ].

  Lemma panel_counter_gained : forall (p : panel X) a,
    panel_gains p (handler_site (HInstrument (Adapter (ad_filter a) (ICounter (ad_instrument a)) (ad_modify a)))) (panel_add_counter p a).
  Proof.
    intros [d [c g m h] ps hs ss] a. destruct c as [c|].
    - exact (panel_handler_gained (Panel d (Slots (Some c) g m h) ps hs ss) _).
    - split; [|split; reflexivity]. cbn [panel_add_counter sl_counter sl_gauge sl_meter sl_histogram]. slot 0%nat (accepts (lab_eqb X) (ad_filter a)).
  Qed.
  Lemma panel_gauge_gained : forall (p : panel X) a, panel_gains p (handler_site (HGauge a)) (panel_add_gauge p a).
  Proof.
    intros [d [c g m h] ps hs ss] a. destruct g as [g|].
    - exact (panel_handler_gained (Panel d (Slots c (Some g) m h) ps hs ss) _).
    - split; [|split; reflexivity]. cbn [panel_add_gauge sl_counter sl_gauge sl_meter sl_histogram]. slot 1%nat (fun l => gauge_listens l a).
  Qed.
  Lemma panel_meter_gained : forall (p : panel X) a,
    panel_gains p (handler_site (HInstrument (Adapter (ad_filter a) (IMeter (ad_instrument a)) (ad_modify a)))) (panel_add_meter p a).
  Proof.
    intros [d [c g m h] ps hs ss] a. destruct m as [m|].
    - exact (panel_handler_gained (Panel d (Slots c g (Some m) h) ps hs ss) _).
    - split; [|split; reflexivity]. cbn [panel_add_meter sl_counter sl_gauge sl_meter sl_histogram]. slot 2%nat (accepts (lab_eqb X) (ad_filter a)).
  Qed.
  Lemma panel_histogram_gained : forall (p : panel X) a,
    panel_gains p (handler_site (HInstrument (Adapter (ad_filter a) (IHistogram (ad_instrument a)) (ad_modify a)))) (panel_add_histogram p a).
  Proof.
    intros [d [c g m h] ps hs ss] a. destruct h as [h|].
    - exact (panel_handler_gained (Panel d (Slots c g m (Some h)) ps hs ss) _).
    - split; [|split; reflexivity]. cbn [panel_add_histogram sl_counter sl_gauge sl_meter sl_histogram]. slot 3%nat (accepts (lab_eqb X) (ad_filter a)).
  Qed.

  Lemma cockpit_handler_gained : forall (c : cockpit X) h, cockpit_gains c (handler_site h) (cockpit_add_handler c h).
  Proof.
    intros [d ps hs ss] h. split; [|split; reflexivity]. exists [1; length hs]%nat. split.
    - intros at_ names gs on x. split.
      + intros H. cbn [cockpit_add_handler] in H. inversion H; subst; clear H; try (left; econstructor; eassumption).
        match goal with H : nth_error (_ ++ _) _ = Some _ |- _ => apply nth_snoc in H; destruct H as [H|[-> ->]] end.
        * left. eapply si_cockpits_handler; eassumption.
        * right. do 4 eexists. split; [eassumption|]. repeat split; reflexivity.
      + intros [H|(at1 & names1 & gs1 & on1 & H & -> & -> & -> & Hl)]; cbn [cockpit_add_handler].
        * inversion H; subst; clear H; try (econstructor; eassumption).
          eapply si_cockpits_handler; [|eassumption]. apply nth_snoc. left. assumption.
        * eapply (si_cockpits_handler d ps _ ss (length hs)); [apply nth_snoc; right; split; reflexivity|].
          exact (proj1 (proj2 site_same_labels) _ _ _ _ _ _ H _ Hl).
    - intros at_ names gs on x names' gs' on' x' H (at1 & names1 & gs1 & on1 & _ & -> & _). cbn [app] in H. inversion H; subst.
      eapply nth_beyond. eassumption.
  Qed.

  Lemma cockpit_panel_gained : forall (c : cockpit X) p,
    (forall n, panel_name p = Some n -> ~ In n (names_of panel_name (c_panels c))) ->
    cockpit_gains c (panel_site p) (cockpit_add_panel c p).
  Proof.
    intros c p Hn. rewrite (add_panel_new _ _ Hn). destruct c as [d ps hs ss]. clear Hn. cbn [c_data c_panels c_handlers c_snapshooters].
    split; [|split; reflexivity]. exists [0; length ps]%nat. split.
    - intros at_ names gs on x. split.
      + intros H. inversion H; subst; clear H; try (left; econstructor; eassumption).
        match goal with H : nth_error (_ ++ _) _ = Some _ |- _ => apply nth_snoc in H; destruct H as [H|[-> ->]] end.
        * left. eapply si_cockpit_panel; eassumption.
        * right. do 4 eexists. split; [eassumption|]. repeat split; reflexivity.
      + intros [H|(at1 & names1 & gs1 & on1 & H & -> & -> & -> & Hl)].
        * inversion H; subst; clear H; try (econstructor; eassumption).
          eapply si_cockpit_panel; [|eassumption]. apply nth_snoc. left. assumption.
        * eapply (si_cockpit_panel d _ hs ss (length ps)); [apply nth_snoc; right; split; reflexivity|].
          exact (proj1 site_same_labels _ _ _ _ _ _ H _ Hl).
    - intros at_ names gs on x names' gs' on' x' H (at1 & names1 & gs1 & on1 & _ & -> & _). cbn [app] in H. inversion H; subst.
      eapply nth_beyond. eassumption.
  Qed.

  Lemma tele_handler_gained : forall (t : tele X) h, tele_gains t (handler_site h) (tele_add_handler t h).
  Proof.
    intros t h. split; [|repeat split; reflexivity]. exists [1; length (tp_handlers t)]%nat. split.
    - intros at_ names gs on x. split.
      + intros H. inversion H; subst; clear H.
        * left. eapply (si_cockpit t); eassumption.
        * match goal with H : nth_error _ _ = Some _ |- _ => cbn [tele_add_handler tele_with tp_handlers] in H; apply nth_snoc in H; destruct H as [H|[-> ->]] end.
          -- left. eapply (si_teles_handler t); eassumption.
          -- right. do 4 eexists. split; [eassumption|]. repeat split; reflexivity.
        * left. apply (si_tele_shown t); assumption.
      + intros [H|(at1 & names1 & gs1 & on1 & H & -> & -> & -> & Hl)].
        * inversion H; subst; clear H.
          -- eapply (si_cockpit (tele_add_handler t h)); eassumption.
          -- eapply (si_teles_handler (tele_add_handler t h)); [|eassumption]. apply nth_snoc. left. assumption.
          -- apply (si_tele_shown (tele_add_handler t h)); assumption.
        * eapply (si_teles_handler (tele_add_handler t h) (length (tp_handlers t))); [apply nth_snoc; right; split; reflexivity|].
          exact (proj1 (proj2 site_same_labels) _ _ _ _ _ _ H _ Hl).
    - intros at_ names gs on x names' gs' on' x' H (at1 & names1 & gs1 & on1 & _ & -> & _). cbn [app] in H. inversion H; subst.
      eapply nth_beyond. eassumption.
  Qed.

  Lemma tele_cockpit_gained : forall (t : tele X) c,
    (forall n, cockpit_name c = Some n -> ~ In n (names_of cockpit_name (tp_cockpits t))) ->
    tele_gains t (cockpit_site c) (tele_add_cockpit t c).
  Proof.
    intros t c Hn. rewrite (add_cockpit_new _ _ Hn). clear Hn. split; [|repeat split; reflexivity].
    exists [0; length (tp_cockpits t)]%nat. split.
    - intros at_ names gs on x. split.
      + intros H. inversion H; subst; clear H.
        * match goal with H : nth_error _ _ = Some _ |- _ => cbn [tele_with tp_cockpits] in H; apply nth_snoc in H; destruct H as [H|[-> ->]] end.
          -- left. eapply (si_cockpit t); eassumption.
          -- right. do 4 eexists. split; [eassumption|]. repeat split; reflexivity.
        * left. eapply (si_teles_handler t); eassumption.
        * left. apply (si_tele_shown t); assumption.
      + intros [H|(at1 & names1 & gs1 & on1 & H & -> & -> & -> & Hl)].
        * inversion H; subst; clear H.
          -- eapply (si_cockpit (tele_with t _ _)); [|eassumption]. apply nth_snoc. left. assumption.
          -- eapply (si_teles_handler (tele_with t _ _)); eassumption.
          -- apply (si_tele_shown (tele_with t _ _)); assumption.
        * eapply (si_cockpit (tele_with t _ _) (length (tp_cockpits t))); [apply nth_snoc; right; split; reflexivity|].
          exact (proj2 (proj2 site_same_labels) _ _ _ _ _ _ H _ Hl).
    - intros at_ names gs on x names' gs' on' x' H (at1 & names1 & gs1 & on1 & _ & -> & _). cbn [app] in H. inversion H; subst.
      eapply nth_beyond. eassumption.
  Qed.

  Lemma one_more_snoc : forall (l : list (snapshooter X)) s, one_more l (l ++ [s]) s.
  Proof.
    intros l s. split; [rewrite app_length; cbn; lia|]. split; [apply nth_snoc; auto|]. intros j x H. apply nth_snoc. auto.
  Qed.

  Lemma snapshooters_gained : forall s,
    (forall p : panel X, one_more (p_snapshooters p) (p_snapshooters (panel_add_snapshooter p s)) s
       /\ p_data (panel_add_snapshooter p s) = p_data p
       /\ exists at0, gains (panel_site p) (in_panel p at0 (snapshooter_site s)) (panel_site (panel_add_snapshooter p s)))
    /\ (forall c : cockpit X, one_more (c_snapshooters c) (c_snapshooters (cockpit_add_snapshooter c s)) s
       /\ c_data (cockpit_add_snapshooter c s) = c_data c
       /\ exists at0, gains (cockpit_site c) (in_cockpit c at0 (snapshooter_site s)) (cockpit_site (cockpit_add_snapshooter c s)))
    /\ (forall t : tele X, one_more (tp_snapshooters t) (tp_snapshooters (tele_add_snapshooter t s)) s
       /\ tp_name (tele_add_snapshooter t s) = tp_name t /\ tp_receiver (tele_add_snapshooter t s) = tp_receiver t
       /\ tele_guard (tele_add_snapshooter t s) = tele_guard t
       /\ exists at0, gains (tele_site t) (in_tele t at0 (snapshooter_site s)) (tele_site (tele_add_snapshooter t s))).
  Proof.
    intros s. split; [|split].
    - intros [d sl ps hs ss]. split; [apply one_more_snoc|]. split; [reflexivity|]. exists [6; length ss]%nat. cbn [panel_add_snapshooter]. split.
      + intros at_ names gs on x. split.
        * intros H. inversion H; subst; clear H; try (left; econstructor; eassumption).
          match goal with H : nth_error (_ ++ _) _ = Some _ |- _ => apply nth_snoc in H; destruct H as [H|[-> ->]] end.
          -- left. apply si_shown; assumption.
          -- right. exists [], [], [], (fun _ => false). split; [repeat split|].
             split; [reflexivity|]. split; [rewrite app_nil_r; reflexivity|]. split; [reflexivity|].
             intros l. rewrite andb_false_r. auto.
        * intros [H|(at1 & names1 & gs1 & on1 & (-> & -> & -> & Hon & ->) & -> & -> & -> & Hl)].
          -- inversion H; subst; clear H; try (econstructor; eassumption).
             apply si_shown; [|assumption]. apply nth_snoc. left. assumption.
          -- rewrite !app_nil_r. apply si_shown; [apply nth_snoc; right; split; reflexivity|].
             intros l. rewrite Hl, Hon. apply andb_false_r.
      + intros at_ names gs on x names' gs' on' x' H (at1 & names1 & gs1 & on1 & (-> & _) & -> & _). cbn [app] in H. inversion H; subst.
        eapply nth_beyond. eassumption.
    - intros [d ps hs ss]. split; [apply one_more_snoc|]. split; [reflexivity|]. exists [2; length ss]%nat. cbn [cockpit_add_snapshooter]. split.
      + intros at_ names gs on x. split.
        * intros H. inversion H; subst; clear H; try (left; econstructor; eassumption).
          match goal with H : nth_error (_ ++ _) _ = Some _ |- _ => apply nth_snoc in H; destruct H as [H|[-> ->]] end.
          -- left. apply si_cockpit_shown; assumption.
          -- right. exists [], [], [], (fun _ => false). split; [repeat split|].
             split; [reflexivity|]. split; [rewrite app_nil_r; reflexivity|]. split; [reflexivity|]. assumption.
        * intros [H|(at1 & names1 & gs1 & on1 & (-> & -> & -> & Hon & ->) & -> & -> & -> & Hl)].
          -- inversion H; subst; clear H; try (econstructor; eassumption).
             apply si_cockpit_shown; [|assumption]. apply nth_snoc. left. assumption.
          -- rewrite !app_nil_r. apply si_cockpit_shown; [apply nth_snoc; right; split; reflexivity|].
             intros l. rewrite Hl, Hon. reflexivity.
      + intros at_ names gs on x names' gs' on' x' H (at1 & names1 & gs1 & on1 & (-> & _) & -> & _). cbn [app] in H. inversion H; subst.
        eapply nth_beyond. eassumption.
    - intros t. split; [apply one_more_snoc|]. do 3 (split; [reflexivity|]). exists [2; length (tp_snapshooters t)]%nat. split.
      + intros at_ names gs on x. split.
        * intros H. inversion H; subst; clear H.
          -- left. eapply (si_cockpit t); eassumption.
          -- left. eapply (si_teles_handler t); eassumption.
          -- match goal with H : nth_error _ _ = Some _ |- _ => cbn [tele_add_snapshooter tp_snapshooters] in H; apply nth_snoc in H; destruct H as [H|[-> ->]] end.
             ++ left. apply (si_tele_shown t); assumption.
             ++ right. exists [], [], [], (fun _ => false). split; [repeat split|].
                split; [reflexivity|]. split; [rewrite app_nil_r; reflexivity|]. split; [reflexivity|]. assumption.
        * intros [H|(at1 & names1 & gs1 & on1 & (-> & -> & -> & Hon & ->) & -> & -> & -> & Hl)].
          -- inversion H; subst; clear H.
             ++ eapply (si_cockpit (tele_add_snapshooter t s)); eassumption.
             ++ eapply (si_teles_handler (tele_add_snapshooter t s)); eassumption.
             ++ apply (si_tele_shown (tele_add_snapshooter t s)); [|assumption]. apply nth_snoc. left. assumption.
          -- rewrite !app_nil_r. apply (si_tele_shown (tele_add_snapshooter t s)); [apply nth_snoc; right; split; reflexivity|].
             intros l. rewrite Hl, Hon. reflexivity.
      + intros at_ names gs on x names' gs' on' x' H (at1 & names1 & gs1 & on1 & (-> & _) & -> & _). cbn [app] in H. inversion H; subst.
        eapply nth_beyond. eassumption.
  Qed.
End Build.

Section Shoots.
  Context {X : ext} (HX : parts_tick X) (HA : parts_append X).

  Lemma shoots_hidden : forall k c n g (s : snapshooter X) de added c',
    (exists c1, later c c1 /\ later c1 c' /\ hides g (c1 O)) -> shoots k c n g s de added s c'.
  Proof. intros. left. split; [reflexivity | assumption]. Qed.

  Lemma panel_shoots : forall (p : panel X) j s, nth_error (p_snapshooters p) j = Some s ->
    forall de into k c p' out c', panel_put p de into k c = Ok (p', out) c' ->
    exists added s', out = into ++ added /\ nth_error (p_snapshooters p') j = Some s'
      /\ shoots k c (panel_name p) (panel_guard (p_data p)) s de added s' c'.
  Proof.
    destruct (tree_put_ticks HX) as (Tp & Th & Tc & Ts). destruct (tree_appends HA) as (Gp & Gh & Gc & Gs).
    intros [d sl ps hs ss] j s Hn de into k c p' out c' E. cbn [p_snapshooters panel_name p_data] in *. rewrite panel_put_eq in E.
    apply guarded_put in E. destruct E as [(-> & Hh & added & ->)|(level & s1 & c1 & L & E & H)].
    { exists added, s. split; [reflexivity|]. split; [exact Hn|]. apply shoots_hidden. exact Hh. }
    apply bind_ok in E. destruct E as ([sl' t1] & c2 & E1 & E).
    apply bind_ok in E. destruct E as ([ps' t2] & c3 & E2 & E).
    apply bind_ok in E. destruct E as ([ss' t3] & c4 & E3 & E).
    apply bind_ok in E. destruct E as ([hs' t4] & c5 & E4 & E). injection E as <- <- <-.
    destruct (writes_appends _ _ (slots_writes sl) de level _ _ _ _ _ E1) as (a1 & ->).
    destruct (grows_traverse _ _ _ _ (all_grow _ _ _ Gp _) _ _ _ _ _ E2) as (a2 & ->).
    destruct (traverse_put_nth _ _ _ _ _ Hn (all_put _ _ _ Ts _) (all_grow _ _ _ Gs _) _ _ _ _ _ _ E3)
      as (s' & s0 & b & d1 & d2 & K1 & F & K2 & Hj & before & after & ->).
    destruct (grows_traverse _ _ _ _ (all_grow _ _ _ Gh _) _ _ _ _ _ E4) as (a4 & ->).
    destruct (H (a1 ++ a2 ++ (before ++ b ++ after) ++ a4)) as (more & -> & Hm); [rewrite <- !app_assoc; reflexivity|].
    exists more, s'. split; [reflexivity|]. split; [exact Hj|]. right. exists s0, b, d1, d2.
    split; [eapply later_trans; [exact L|]; eapply later_trans; [exact (slots_put_ticks _ _ _ _ _ _ _ E1)|];
            eapply later_trans; [exact (ticks_traverse _ _ _ _ _ (all_put _ _ _ Tp _) _ _ _ _ E2) | exact K1]|].
    split; [exact F|]. split; [eapply later_trans; [exact K2 | exact (ticks_traverse _ _ _ _ _ (all_put _ _ _ Th _) _ _ _ _ E4)]|].
    rewrite <- (app_nil_r (opt_list _)). apply Hm. exists (a1 ++ a2 ++ before), (after ++ a4). rewrite <- !app_assoc. reflexivity.
  Qed.

  Lemma cockpit_shoots : forall (p : cockpit X) j s, nth_error (c_snapshooters p) j = Some s ->
    forall de into k c p' out c', cockpit_put p de into k c = Ok (p', out) c' ->
    exists added s', out = into ++ added /\ nth_error (c_snapshooters p') j = Some s'
      /\ shoots k c (cockpit_name p) (cockpit_guard (c_data p)) s de added s' c'.
  Proof.
    destruct (tree_put_ticks HX) as (Tp & Th & Tc & Ts). destruct (tree_appends HA) as (Gp & Gh & Gc & Gs).
    intros [d ps hs ss] j s Hn de into k c p' out c' E. cbn [c_snapshooters cockpit_name c_data] in *. rewrite cockpit_put_eq in E.
    apply guarded_put in E. destruct E as [(-> & Hh & added & ->)|(level & s1 & c1 & L & E & H)].
    { exists added, s. split; [reflexivity|]. split; [exact Hn|]. apply shoots_hidden. exact Hh. }
    apply bind_ok in E. destruct E as ([ps' t2] & c3 & E2 & E).
    apply bind_ok in E. destruct E as ([hs' t4] & c5 & E4 & E).
    apply bind_ok in E. destruct E as ([ss' t3] & c4 & E3 & E). injection E as <- <- <-.
    destruct (grows_traverse _ _ _ _ (all_grow _ _ _ Gp _) _ _ _ _ _ E2) as (a2 & ->).
    destruct (grows_traverse _ _ _ _ (all_grow _ _ _ Gh _) _ _ _ _ _ E4) as (a4 & ->).
    destruct (traverse_put_nth _ _ _ _ _ Hn (all_put _ _ _ Ts _) (all_grow _ _ _ Gs _) _ _ _ _ _ _ E3)
      as (s' & s0 & b & d1 & d2 & K1 & F & K2 & Hj & before & after & ->).
    destruct (H (a2 ++ a4 ++ (before ++ b ++ after))) as (more & -> & Hm); [rewrite <- !app_assoc; reflexivity|].
    exists more, s'. split; [reflexivity|]. split; [exact Hj|]. right. exists s0, b, d1, d2.
    split; [eapply later_trans; [exact L|];
            eapply later_trans; [exact (ticks_traverse _ _ _ _ _ (all_put _ _ _ Tp _) _ _ _ _ E2)|];
            eapply later_trans; [exact (ticks_traverse _ _ _ _ _ (all_put _ _ _ Th _) _ _ _ _ E4) | exact K1]|].
    split; [exact F|]. split; [exact K2|].
    rewrite <- (app_nil_r (opt_list _)). apply Hm. exists (a2 ++ a4 ++ before), after. rewrite <- !app_assoc. reflexivity.
  Qed.

  Lemma tele_shoots : forall (p : tele X) j s, nth_error (tp_snapshooters p) j = Some s ->
    forall de into k c p' out c', tele_put p de into k c = Ok (p', out) c' ->
    exists added s', out = into ++ added /\ nth_error (tp_snapshooters p') j = Some s'
      /\ shoots k c (tp_name p) (tele_guard p) s de added s' c'.
  Proof.
    destruct (tree_put_ticks HX) as (Tp & Th & Tc & Ts). destruct (tree_appends HA) as (Gp & Gh & Gc & Gs).
    intros p j s Hn de into k c p' out c' E. unfold tele_put in E.
    apply guarded_put in E. destruct E as [(-> & Hh & added & ->)|(level & s1 & c1 & L & E & H)].
    { exists added, s. split; [reflexivity|]. split; [exact Hn|]. apply shoots_hidden. exact Hh. }
    apply bind_ok in E. destruct E as ([ps' t2] & c3 & E2 & E).
    apply bind_ok in E. destruct E as ([hs' t4] & c5 & E4 & E).
    apply bind_ok in E. destruct E as ([ss' t3] & c4 & E3 & E). injection E as <- <- <-.
    destruct (grows_traverse _ _ _ _ (all_grow _ _ _ Gc _) _ _ _ _ _ E2) as (a2 & ->).
    destruct (grows_traverse _ _ _ _ (all_grow _ _ _ Gh _) _ _ _ _ _ E4) as (a4 & ->).
    destruct (traverse_put_nth _ _ _ _ _ Hn (all_put _ _ _ Ts _) (all_grow _ _ _ Gs _) _ _ _ _ _ _ E3)
      as (s' & s0 & b & d1 & d2 & K1 & F & K2 & Hj & before & after & ->).
    destruct (H (a2 ++ a4 ++ (before ++ b ++ after))) as (more & -> & Hm); [rewrite <- !app_assoc; reflexivity|].
    exists more, s'. split; [reflexivity|]. split; [exact Hj|]. right. exists s0, b, d1, d2.
    split; [eapply later_trans; [exact L|];
            eapply later_trans; [exact (ticks_traverse _ _ _ _ _ (all_put _ _ _ Tc _) _ _ _ _ E2)|];
            eapply later_trans; [exact (ticks_traverse _ _ _ _ _ (all_put _ _ _ Th _) _ _ _ _ E4) | exact K1]|].
    split; [exact F|]. split; [exact K2|].
    rewrite <- (app_nil_r (opt_list _)). apply Hm. exists (a2 ++ a4 ++ before), after. rewrite <- !app_assoc. reflexivity.
  Qed.
End Shoots.

Section Calls.
  Context {X : ext}.

  Lemma sends_intro : forall tx (m : message X), sends tx (tx_send tx m) m.
  Proof. intros tx m. unfold sends, tx_send. destruct (tx_use_send tx); auto. Qed.

  Lemma cockpit_requests : forall tx (t : tele X),
    (forall c, (forall n, cockpit_name c = Some n -> ~ In n (names_of cockpit_name (tp_cockpits t))) ->
       exists t', requests tx t (tx_add_cockpit tx c) t' /\ tele_gains t (cockpit_site c) t')
    /\ (forall c n, cockpit_name c = Some n -> In n (names_of cockpit_name (tp_cockpits t)) -> requests tx t (tx_add_cockpit tx c) t)
    /\ (forall n, exists t' cs, requests tx t (tx_remove_cockpit tx n) t' /\ other_cockpits t cs t'
          /\ without (fun c => cockpit_name c = Some n) (tp_cockpits t) cs)
    /\ (forall h, exists t', requests tx t (tx_add_handler tx h) t' /\ tele_gains t (handler_site h) t').
  Proof.
    intros tx t. split; [|split; [|split]].
    - intros c Hn. exists (tele_add_cockpit t c). split; [|exact (tele_cockpit_gained _ _ Hn)].
      exists (MAddCockpit c). split; [apply sends_intro|]. intros d n. exact (proj1 (commands d t n) c).
    - intros c n En Hin. exists (MAddCockpit c). split; [apply sends_intro|]. intros d n0.
      pose proof (proj1 (commands d t n0) c) as H. rewrite (add_cockpit_known _ _ _ En Hin) in H. exact H.
    - intros n. destruct (remove_cockpit_spec t n) as (cs & E & W). exists (tele_remove_cockpit t n), cs. split; [|split; [rewrite E; reflexivity | exact W]].
      exists (MRemoveCockpit n). split; [apply sends_intro|]. intros d n0. exact (proj1 (proj2 (commands d t n0)) n).
    - intros h. exists (tele_add_handler t h). split; [|apply tele_handler_gained].
      exists (MAddHandler h). split; [apply sends_intro|]. intros d n. exact (proj2 (proj2 (commands d t n)) h).
  Qed.

  Lemma panel_requests : forall tx (t : tele X) n,
    (~ In n (names_of cockpit_name (tp_cockpits t)) ->
       (forall p, requests tx t (tx_add_panel_to_cockpit tx n p) t) /\ (forall m, requests tx t (tx_remove_panel_from_cockpit tx n m) t))
    /\ (forall a c b, tp_cockpits t = a ++ c :: b -> cockpit_name c = Some n -> ~ In n (names_of cockpit_name a) ->
         (forall p, (forall m, panel_name p = Some m -> ~ In m (names_of panel_name (c_panels c))) ->
            exists t' c', requests tx t (tx_add_panel_to_cockpit tx n p) t' /\ other_cockpits t (a ++ c' :: b) t' /\ cockpit_gains c (panel_site p) c')
         /\ (forall p m, panel_name p = Some m -> In m (names_of panel_name (c_panels c)) -> requests tx t (tx_add_panel_to_cockpit tx n p) t)
         /\ (forall m, exists t' c', requests tx t (tx_remove_panel_from_cockpit tx n m) t' /\ other_cockpits t (a ++ c' :: b) t'
               /\ without (fun p => panel_name p = Some m) (c_panels c) (c_panels c')
               /\ c_data c' = c_data c /\ c_handlers c' = c_handlers c /\ c_snapshooters c' = c_snapshooters c)).
  Proof.
    intros tx t n. split.
    - intros Hn. split; intros p; (eexists; split; [apply sends_intro|]); intros d n0; destruct (unknown_cockpit d t n0 n Hn) as (_ & H1 & H2); [apply H1 | apply H2].
    - intros a c b Ec En Hn. split; [|split].
      + intros p Hp. exists (tele_with t (a ++ cockpit_add_panel c p :: b) (tp_handlers t)), (cockpit_add_panel c p).
        split; [|split; [reflexivity | exact (cockpit_panel_gained _ _ Hp)]].
        eexists. split; [apply sends_intro|]. intros d n0. exact (proj1 (known_cockpit d t n0 n a c b Ec En Hn) p).
      + intros p m Ep Hin. eexists. split; [apply sends_intro|]. intros d n0.
        pose proof (proj1 (known_cockpit d t n0 n a c b Ec En Hn) p) as H. rewrite (add_panel_known _ _ _ Ep Hin), <- Ec in H.
        destruct t. exact H.
      + intros m. exists (tele_with t (a ++ cockpit_remove_panel c m :: b) (tp_handlers t)), (cockpit_remove_panel c m).
        split; [|split; [reflexivity | exact (remove_panel_spec c m)]].
        eexists. split; [apply sends_intro|]. intros d n0. exact (proj2 (known_cockpit d t n0 n a c b Ec En Hn) m).
  Qed.

  Lemma observations_sent : forall tx (l : lab X) n v t,
    sends tx (observed tx l n t) (MObservation (X := X) (Observed l n t))
    /\ sends tx (observed_one tx l t) (MObservation (X := X) (ObservedOne l t))
    /\ sends tx (observed_one_value tx l v t) (MObservation (X := X) (ObservedOneValue l v t))
    /\ (forall d k c, 0 <= d <= u64_max -> exists a, observed_duration tx l d t k c = Ok a c
         /\ sends tx a (MObservation (X := X) (ObservedOneValue l (DurationValue d Nanoseconds) t)))
    /\ (forall o, sends tx (transmit tx o) (MObservation (X := X) o)).
  Proof.
    intros tx l n v t. do 3 (split; [apply sends_intro|]). split; [|intros o; apply sends_intro].
    intros d k c Hd. eexists. split; [unfold observed_duration, bind; rewrite duration_value_fits by exact Hd; reflexivity|].
    apply sends_intro.
  Qed.
End Calls.
