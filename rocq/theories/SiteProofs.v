(** What instruments live through: handling observations and writing snapshots,
    followed from the outermost component to the instrument. *)
From Coq Require Import ZArith Bool String List Lia.
From Verif Require Import Base SpecRun MonadFacts ModelObservation ModelLabelFilter ModelSnapshot ModelCounter ModelGauge ModelMeter
  ModelHistogram ModelInstrument ModelTree ModelChannel ModelProcessor ModelDriver SpecClock SpecWriting SpecNames SpecTree SpecCollect
  SpecChronicle SpecSite TreeInd TreeEqs TreeProofs ClockProofs WritingProofs AppendProofs NamesProofs DriverShapeProofs.
Import ListNotations.
Open Scope list_scope.
Open Scope Z_scope.

Scheme panel_site_min := Minimality for panel_site Sort Prop
  with handler_site_min := Minimality for handler_site Sort Prop
  with cockpit_site_min := Minimality for cockpit_site Sort Prop.
Combined Scheme site_ind from panel_site_min, handler_site_min, cockpit_site_min.

Lemma contains_widen : forall names fields before s after,
  contains names fields s -> contains names fields (before ++ s ++ after).
Proof.
  intros [|n names] fields before s after H; cbn [contains] in *.
  - destruct H as (b & a & ->). exists (before ++ b), (a ++ after). rewrite <- !app_assoc. reflexivity.
  - destruct H as (b & i & a & -> & H). exists (before ++ b), i, (a ++ after). rewrite <- !app_assoc.
    split; [reflexivity | exact H].
Qed.

Lemma contains_left : forall names fields s before, contains names fields s -> contains names fields (before ++ s).
Proof. intros. rewrite <- (app_nil_r s). apply contains_widen. assumption. Qed.

Lemma traverse_tally_nth : forall A (f : A -> M (A * Z)) l j x,
  nth_error l j = Some x -> Forall (fun x => ticks (f x)) l ->
  forall acc k c l' acc' c', traverse (tally f) l acc k c = Ok (l', acc') c' ->
  exists x' n c0 c1, later c c0 /\ f x k c0 = Ok (x', n) c1 /\ later c1 c' /\ nth_error l' j = Some x'.
Proof.
  intros A f l j x Hn H. revert j Hn. induction H as [|y l Hy H IH]; intros j Hn acc k c l' acc' c' E.
  - destruct j; discriminate Hn.
  - cbn [traverse] in E.
    apply bind_ok in E. destruct E as ([y' a1] & c1 & E1 & E).
    apply bind_ok in E. destruct E as ([l1 a2] & c2 & E2 & E). injection E as <- <- <-.
    destruct j as [|j]; cbn [nth_error] in Hn |- *.
    + injection Hn as ->. unfold tally in E1.
      apply bind_ok in E1. destruct E1 as ([x' n] & c0 & E0 & E1).
      apply bind_ok in E1. destruct E1 as (a & c3 & E3 & E1). injection E1 as <- <- <-.
      exists x', n, c, c0. split; [apply later_refl|]. split; [exact E0|]. split; [|reflexivity].
      eapply later_trans; [exact (add_usize_ticks _ _ _ _ _ _ E3)|].
      exact (traverse_tally_ticks _ _ _ _ H _ _ _ _ E2).
    + destruct (IH j Hn _ _ _ _ _ _ E2) as (x' & n & c3 & c4 & L1 & Ex & L2 & Ej).
      exists x', n, c3, c4. split; [|auto].
      eapply later_trans; [exact (tally_ticks _ _ _ _ Hy _ _ _ _ E1) | exact L1].
Qed.

Lemma traverse_put_nth : forall A (f : A -> snapshot -> M (A * snapshot)) l j x,
  nth_error l j = Some x -> Forall (fun x => forall s, ticks (f x s)) l -> Forall (fun x => forall s, grows s (f x s)) l ->
  forall into k c l' s c', traverse f l into k c = Ok (l', s) c' ->
  exists x' s0 added c0 c1,
    later c c0 /\ f x s0 k c0 = Ok (x', s0 ++ added) c1 /\ later c1 c' /\ nth_error l' j = Some x'
    /\ exists before after, s = into ++ before ++ added ++ after.
Proof.
  intros A f l j x Hn H G. revert j Hn. induction H as [|y l Hy H IH]; intros j Hn into k c l' s c' E.
  - destruct j; discriminate Hn.
  - inversion G as [|? ? Gy G']; subst. cbn [traverse] in E.
    apply bind_ok in E. destruct E as ([y' s1] & c1 & E1 & E).
    apply bind_ok in E. destruct E as ([l1 s2] & c2 & E2 & E). injection E as <- <- <-.
    destruct (Gy _ _ _ _ _ _ E1) as (a1 & ->).
    destruct (grows_traverse _ _ _ _ G' _ _ _ _ _ E2) as (a2 & Ea2).
    destruct j as [|j]; cbn [nth_error] in Hn |- *.
    + injection Hn as ->.
      exists y', into, a1, c, c1. split; [apply later_refl|]. split; [exact E1|].
      split; [exact (ticks_traverse _ _ _ _ _ H _ _ _ _ E2)|]. split; [reflexivity|].
      exists [], a2. rewrite Ea2, <- app_assoc. reflexivity.
    + destruct (IH G' j Hn _ _ _ _ _ _ E2) as (x' & s0 & added & c3 & c4 & L1 & Ex & L2 & Ej & b & a & Es).
      exists x', s0, added, c3, c4.
      split; [eapply later_trans; [exact (Hy _ _ _ _ _ E1) | exact L1]|].
      split; [exact Ex|]. split; [exact L2|]. split; [exact Ej|].
      exists (a1 ++ b), a. rewrite Es, <- !app_assoc. reflexivity.
Qed.

(** A component that has a name and may be inactive *)
Lemma guarded_put : forall A name limit show last (a : A) rest ds into de k c x s c',
  put_named name (fun into => check_activity limit show last a rest (put_default_descriptives ds into de)) into k c = Ok (x, s) c' ->
  (x = a /\ (exists c1, later c c1 /\ later c1 c' /\ hides (Guard limit show last) (c1 O)) /\ exists added, s = into ++ added)
  \/ exists level s1 c1,
       later c c1 /\ rest level k c1 = Ok (x, s1) c'
       /\ forall added, s1 = level ++ added ->
          exists more, s = into ++ more
            /\ forall names fields, contains names fields added -> contains (opt_list name ++ names) fields more.
Proof.
  intros A name limit show last a rest ds into de k c x s c' E.
  assert (W : forall into0 s1,
    check_activity limit show last a rest (put_default_descriptives ds into0 de) k c = Ok (x, s1) c' ->
    (x = a /\ (exists c1, later c c1 /\ later c1 c' /\ hides (Guard limit show last) (c1 O)) /\ exists added, s1 = into0 ++ added)
    \/ exists level c1 texts, later c c1 /\ rest level k c1 = Ok (x, s1) c' /\ level = into0 ++ texts).
  { clear E. intros into0 s1 E.
    assert (T : exists texts, put_default_descriptives ds into0 de = into0 ++ texts).
    { destruct de; [|exists []; rewrite app_nil_r; reflexivity].
      destruct (default_added ds into0) as (t & Et & _). eauto. }
    destruct T as (texts & T). rewrite T in E. unfold check_activity in E.
    destruct limit as [d|]; [|right; exists (into0 ++ texts), c, texts; split; [apply later_refl | auto]].
    destruct show; [|right; exists (into0 ++ texts), c, texts; split; [apply later_refl | auto]].
    apply bind_ok in E. destruct E as (e & c1 & E1 & E). unfold elapsed in E1.
    apply bind_ok in E1. destruct E1 as (t & c2 & E1 & E2). injection E1 as <- <-. injection E2 as <- <-.
    destruct (d <? Z.max 0 (c 0%nat - last)) eqn:Ed.
    - left. injection E as <- <- <-. split; [reflexivity|]. split.
      + exists c. split; [apply later_refl|]. split; [apply later_tail|]. split; [reflexivity|].
        exists d. split; [reflexivity|]. apply Z.ltb_lt in Ed. exact Ed.
      + rewrite push_activity_app, <- app_assoc. eauto.
    - right. rewrite push_activity_app, <- app_assoc in E. do 3 eexists. split; [apply later_tail|]. split; [exact E | reflexivity]. }
  destruct name as [n|]; cbn [put_named] in E.
  - apply bind_ok in E. destruct E as ([x1 inner] & c1 & E1 & E). injection E as <- <- <-.
    destruct (W _ _ E1) as [(-> & Hh & _)|(level & c2 & texts & L & Er & ->)].
    + left. split; [reflexivity|]. split; [exact Hh|]. unfold push. eauto.
    + right. exists (snapshot_default ++ texts), inner, c2. split; [exact L|]. split; [exact Er|].
      intros added ->. exists [(n, ItemSnapshot ((snapshot_default ++ texts) ++ added))].
      split; [reflexivity|]. intros names fields H. cbn [opt_list app contains].
      exists [], ((snapshot_default ++ texts) ++ added), []. split; [reflexivity|]. apply contains_left. exact H.
  - destruct (W _ _ E) as [H|(level & c2 & texts & L & Er & ->)]; [left; exact H|].
    right. exists (into ++ texts), s, c2. split; [exact L|]. split; [exact Er|].
    intros added ->. exists (texts ++ added). rewrite <- app_assoc. split; [reflexivity|].
    intros names fields H. cbn [opt_list app]. apply contains_left. exact H.
Qed.

Lemma alike_refl : forall gs, alike gs gs.
Proof. induction gs; constructor; auto. Qed.

Lemma alike_trans : forall a b c, alike a b -> alike b c -> alike a c.
Proof.
  intros a b c H. revert c. induction H as [|x y a b (E1 & E2) H IH]; intros c Hc; inversion Hc as [|? z ? c' (E3 & E4) Hc']; subst; constructor.
  - split; congruence.
  - apply IH, Hc'.
Qed.

Ltac al := solve [apply alike_refl | assumption | constructor; [split; reflexivity | first [assumption | apply alike_refl]]].

Section Handling.
  Context {X : ext} (HX : parts_tick X).

  (** What an observation does to an instrument listening to the labels [on] *)
  Definition felt (k : cfg) (o : observation (lab X)) (on : lab X -> bool) (x x' : leaf X) (c c' : clock) : Prop :=
    if on (obs_label o) then exists c0 n c1, later c c0 /\ leaf_handle o x k c0 = Ok (x', n) c1 /\ later c1 c' else x' = x.

  Lemma felt_widen : forall k o on x x' a c c' b,
    later a c -> later c' b -> felt k o on x x' c c' -> felt k o on x x' a b.
  Proof.
    unfold felt. intros k o on x x' a c c' b L1 L2 H. destruct (on (obs_label o)); [|exact H].
    destruct H as (c0 & n & c1 & M1 & E & M2). exists c0, n, c1. eauto using later_trans.
  Qed.

  Lemma felt_on : forall k o on on' x x' c c',
    on (obs_label o) = on' (obs_label o) -> felt k o on x x' c c' -> felt k o on' x x' c c'.
  Proof. unfold felt. intros k o on on' x x' c c' H. rewrite H. auto. Qed.

  Lemma wrap_self : forall A C (m : M (A * C)) k c, m k c = wrap (fun i => i) m k c.
  Proof. intros. unfold wrap, bind. destruct (m k c) as [[a b] c'| |]; reflexivity. Qed.

  Lemma adapter_felt : forall I (w : I -> instrument X) upd (a : adapter X I) o k c a' n c',
    (forall i u k c, instrument_update (w i) u k c = wrap w (upd i u) k c) ->
    adapter_handle upd a o k c = Ok (a', n) c' ->
    ad_filter a' = ad_filter a
    /\ felt k o (fun l => accepts (lab_eqb X) (ad_filter a) l) (LInstrument (w (ad_instrument a)) (ad_modify a))
         (LInstrument (w (ad_instrument a')) (ad_modify a')) c c'.
  Proof.
    intros I w upd a o k c a' n c' Hw E. unfold adapter_handle in E. unfold felt.
    destruct (accepts (lab_eqb X) (ad_filter a) (obs_label o)) eqn:Ea; cbn [negb] in E.
    - pose proof (label_split o) as El.
      destruct (split_observation o) as [l u] eqn:Eo. cbn [fst] in El. subst l.
      apply bind_ok in E. destruct E as ([i m] & c1 & E1 & E). injection E as <- <- <-.
      split; [reflexivity|]. exists c, m, c1. split; [apply later_refl|]. split; [|apply later_refl].
      unfold leaf_handle. rewrite Eo. cbn [snd]. unfold bind at 1. rewrite Hw. unfold wrap, bind. rewrite E1. reflexivity.
    - injection E as <- <- <-. auto.
  Qed.

  Lemma gauge_felt : forall (a : gauge_adapter (lab X)) o k c a' n c',
    ga_handle (lab_eqb X) a o k c = Ok (a', n) c' ->
    ga_strategy a' = ga_strategy a /\ felt k o (fun l => gauge_listens l a) (LGauge a) (LGauge a') c c'.
  Proof.
    intros a o k c a' n c' E. destruct (gauge_dispatches o a k c a' n c' E) as (_ & _ & _ & Hs & _).
    split; [congruence|]. unfold felt. destruct (gauge_listens (obs_label o) a) eqn:Eg.
    - exists c, n, c'. split; [apply later_refl|]. split; [|apply later_refl].
      unfold leaf_handle, bind. rewrite E. reflexivity.
    - rewrite (gauge_deaf_eq _ _ _ _ Eg) in E. injection E as <- <- <-. reflexivity.
  Qed.

  Lemma listens_strategy : forall l (a b : gauge_adapter (lab X)), ga_strategy a = ga_strategy b -> gauge_listens l a = gauge_listens l b.
  Proof. intros l a b H. unfold gauge_listens. rewrite H. reflexivity. Qed.

  Lemma opt_tally : forall A (f : A -> M (A * Z)) a acc k c r acc' c',
    traverse_opt (tally f) (Some a) acc k c = Ok (r, acc') c' ->
    exists a' n c1, r = Some a' /\ f a k c = Ok (a', n) c1 /\ later c1 c'.
  Proof.
    intros A f a acc k c r acc' c' E. cbn [traverse_opt] in E.
    apply bind_ok in E. destruct E as ([a' n] & c1 & E1 & E). injection E as <- <- <-.
    unfold tally in E1. apply bind_ok in E1. destruct E1 as ([x m] & c2 & E2 & E1).
    apply bind_ok in E1. destruct E1 as (q & c3 & E3 & E1). injection E1 as <- <- <-.
    exists x, m, c2. split; [reflexivity|]. split; [exact E2 | exact (add_usize_ticks _ _ _ _ _ _ E3)].
  Qed.

  Lemma opt_tally_ticks : forall A (f : A -> M (A * Z)) x acc, (forall a, ticks (f a)) -> ticks (traverse_opt (tally f) x acc).
  Proof. intros. apply ticks_traverse_opt. intros. apply tally_ticks. auto. Qed.

  Definition site_handles (o : observation (lab X)) {A} (handle : A -> M (A * Z))
    (site : A -> list nat -> list string -> list guard -> (lab X -> bool) -> leaf X -> Prop)
    (p : A) (at_ : list nat) (names : list string) (gs : list guard) (on : lab X -> bool) (x : leaf X) : Prop :=
    forall k c p' n c', handle p k c = Ok (p', n) c' ->
    exists gs' x', (site p' at_ names gs' on x' /\ alike gs gs') /\ felt k o on x x' c c'.

  Ltac unfold_slots E :=
    unfold slots_handle in E; cbn [sl_counter sl_gauge sl_meter sl_histogram] in E;
    let s1 := fresh "s1" in let a1 := fresh "a1" in let c1 := fresh "c1" in let E1 := fresh "E1" in
    apply bind_ok in E; destruct E as ([s1 a1] & c1 & E1 & E);
    let s2 := fresh "s2" in let a2 := fresh "a2" in let c2 := fresh "c2" in let E2 := fresh "E2" in
    apply bind_ok in E; destruct E as ([s2 a2] & c2 & E2 & E);
    let s3 := fresh "s3" in let a3 := fresh "a3" in let c3 := fresh "c3" in let E3 := fresh "E3" in
    apply bind_ok in E; destruct E as ([s3 a3] & c3 & E3 & E);
    let s4 := fresh "s4" in let a4 := fresh "a4" in let c4 := fresh "c4" in let E4 := fresh "E4" in
    apply bind_ok in E; destruct E as ([s4 a4] & c4 & E4 & E);
    injection E as <- <- <-.

  Lemma slots_counter : forall (a : adapter X counter) g m h o acc k c sl' acc' c',
    slots_handle (Slots (Some a) g m h) o acc k c = Ok (sl', acc') c' ->
    exists a' g' m' h' n c1, sl' = Slots (Some a') g' m' h' /\ adapter_handle counter_update a o k c = Ok (a', n) c1 /\ later c1 c'.
  Proof.
    intros a g m h o acc k c sl' acc' c' E. unfold_slots E.
    destruct (opt_tally _ _ _ _ _ _ _ _ _ E1) as (a' & n & c5 & -> & Ea & L). exists a', s2, s3, s4, n, c5.
    split; [reflexivity|]. split; [exact Ea|].
    eapply later_trans; [exact L|]. eapply later_trans.
    { refine (opt_tally_ticks _ _ _ _ _ _ _ _ _ E2). intros. apply ga_handle_ticks. }
    eapply later_trans.
    { refine (opt_tally_ticks _ _ _ _ _ _ _ _ _ E3). intros. apply adapter_handle_ticks. intros. apply meter_update_ticks. }
    refine (opt_tally_ticks _ _ _ _ _ _ _ _ _ E4). intros. apply adapter_handle_ticks. intros. apply histogram_update_ticks. exact HX.
  Qed.

  Lemma slots_gauge : forall ct (a : gauge_adapter (lab X)) m h o acc k c sl' acc' c',
    slots_handle (Slots ct (Some a) m h) o acc k c = Ok (sl', acc') c' ->
    exists ct' a' m' h' n c0 c1, sl' = Slots ct' (Some a') m' h' /\ later c c0 /\ ga_handle (lab_eqb X) a o k c0 = Ok (a', n) c1 /\ later c1 c'.
  Proof.
    intros ct a m h o acc k c sl' acc' c' E. unfold_slots E.
    destruct (opt_tally _ _ _ _ _ _ _ _ _ E2) as (a' & n & c5 & -> & Ea & L). exists s1, a', s3, s4, n, c1, c5.
    split; [reflexivity|]. split.
    { refine (opt_tally_ticks _ _ _ _ _ _ _ _ _ E1). intros. apply adapter_handle_ticks. intros. apply counter_update_ticks. }
    split; [exact Ea|]. eapply later_trans; [exact L|]. eapply later_trans.
    { refine (opt_tally_ticks _ _ _ _ _ _ _ _ _ E3). intros. apply adapter_handle_ticks. intros. apply meter_update_ticks. }
    refine (opt_tally_ticks _ _ _ _ _ _ _ _ _ E4). intros. apply adapter_handle_ticks. intros. apply histogram_update_ticks. exact HX.
  Qed.

  Lemma slots_meter : forall ct g (a : adapter X meter) h o acc k c sl' acc' c',
    slots_handle (Slots ct g (Some a) h) o acc k c = Ok (sl', acc') c' ->
    exists ct' g' a' h' n c0 c1, sl' = Slots ct' g' (Some a') h' /\ later c c0 /\ adapter_handle meter_update a o k c0 = Ok (a', n) c1 /\ later c1 c'.
  Proof.
    intros ct g a h o acc k c sl' acc' c' E. unfold_slots E.
    destruct (opt_tally _ _ _ _ _ _ _ _ _ E3) as (a' & n & c5 & -> & Ea & L). exists s1, s2, a', s4, n, c2, c5.
    split; [reflexivity|]. split.
    { eapply later_trans.
      - refine (opt_tally_ticks _ _ _ _ _ _ _ _ _ E1). intros. apply adapter_handle_ticks. intros. apply counter_update_ticks.
      - refine (opt_tally_ticks _ _ _ _ _ _ _ _ _ E2). intros. apply ga_handle_ticks. }
    split; [exact Ea|]. eapply later_trans; [exact L|].
    refine (opt_tally_ticks _ _ _ _ _ _ _ _ _ E4). intros. apply adapter_handle_ticks. intros. apply histogram_update_ticks. exact HX.
  Qed.

  Lemma slots_histogram : forall ct g m (a : adapter X (histogram (ex_histo X))) o acc k c sl' acc' c',
    slots_handle (Slots ct g m (Some a)) o acc k c = Ok (sl', acc') c' ->
    exists ct' g' m' a' n c0 c1,
      sl' = Slots ct' g' m' (Some a') /\ later c c0 /\ adapter_handle histogram_update a o k c0 = Ok (a', n) c1 /\ later c1 c'.
  Proof.
    intros ct g m a o acc k c sl' acc' c' E. unfold_slots E.
    destruct (opt_tally _ _ _ _ _ _ _ _ _ E4) as (a' & n & c5 & -> & Ea & L). exists s1, s2, s3, a', n, c3, c5.
    split; [reflexivity|]. split.
    { eapply later_trans; [|eapply later_trans].
      - refine (opt_tally_ticks _ _ _ _ _ _ _ _ _ E1). intros. apply adapter_handle_ticks. intros. apply counter_update_ticks.
      - refine (opt_tally_ticks _ _ _ _ _ _ _ _ _ E2). intros. apply ga_handle_ticks.
      - refine (opt_tally_ticks _ _ _ _ _ _ _ _ _ E3). intros. apply adapter_handle_ticks. intros. apply meter_update_ticks. }
    split; [exact Ea | exact L].
  Qed.

  Lemma all_ticks : forall A (f : A -> M (A * Z)), (forall a, ticks (f a)) -> forall l, Forall (fun x => ticks (f x)) l.
  Proof. intros. apply Forall_forall. auto. Qed.

  (** A panel handles an observation: nothing behind a closed filter, otherwise
      slots, panels and handlers. *)
  Lemma panel_handle_inv : forall d sl ps hs (ss : list (snapshooter X)) o k c p' n c',
    panel_handle (Panel d sl ps hs ss) o k c = Ok (p', n) c' ->
    (accepts (lab_eqb X) (pd_filter d) (obs_label o) = false /\ p' = Panel d sl ps hs ss /\ c' = c)
    \/ accepts (lab_eqb X) (pd_filter d) (obs_label o) = true
       /\ exists sl' ps' hs' n1 n2 c1 c2,
            p' = Panel d sl' ps' hs' ss
            /\ slots_handle sl o 0 k c = Ok (sl', n1) c1
            /\ traverse (tally (fun x => panel_handle x o)) ps n1 k c1 = Ok (ps', n2) c2
            /\ traverse (tally (fun x => handler_handle x o)) hs n2 k c2 = Ok (hs', n) c'
            /\ later c c1 /\ later c1 c2 /\ later c2 c'.
  Proof.
    intros d sl ps hs ss o k c p' n c' E. rewrite panel_handle_eq in E.
    destruct (accepts (lab_eqb X) (pd_filter d) (obs_label o)) eqn:Ea; cbn [negb] in E.
    - right. split; [reflexivity|].
      apply bind_ok in E. destruct E as ([s1 a1] & c1 & E1 & E).
      apply bind_ok in E. destruct E as ([s2 a2] & c2 & E2 & E).
      apply bind_ok in E. destruct E as ([s3 a3] & c3 & E3 & E). injection E as <- <- <-.
      destruct (tree_handle_ticks HX o) as (Tp & Th & _).
      exists s1, s2, s3, a1, a2, c1, c2. repeat (split; [first [reflexivity | eassumption]|]).
      split; [exact (slots_handle_ticks HX _ _ _ _ _ _ _ E1)|].
      split; [exact (traverse_tally_ticks _ _ _ _ (all_ticks _ _ Tp _) _ _ _ _ E2)
             | exact (traverse_tally_ticks _ _ _ _ (all_ticks _ _ Th _) _ _ _ _ E3)].
    - left. injection E as <- <- <-. auto.
  Qed.

  Lemma closed_felt : forall k o (on : lab X -> bool) x c c', on (obs_label o) = false -> felt k o on x x c c'.
  Proof. intros. unfold felt. rewrite H. reflexivity. Qed.

  Lemma site_handle : forall o,
    (forall p at_ names gs on x, panel_site p at_ names gs on x ->
       site_handles o (fun p => panel_handle p o) panel_site p at_ names gs on x)
    /\ (forall h at_ names gs on x, handler_site h at_ names gs on x ->
       site_handles o (fun h => handler_handle h o) handler_site h at_ names gs on x)
    /\ (forall c at_ names gs on x, cockpit_site c at_ names gs on x ->
       site_handles o (fun c => cockpit_handle c o) cockpit_site c at_ names gs on x).
  Proof.
    intros o. destruct (tree_handle_ticks HX o) as (Tp & Th & Tc & _). apply site_ind.
    - intros d a g m h ps hs ss on Hon k c p' n c' E.
      destruct (panel_handle_inv _ _ _ _ _ _ _ _ _ _ _ E)
        as [(Ea & -> & ->)|(Ea & sl' & ps' & hs' & n1 & n2 & c1 & c2 & -> & E1 & E2 & E3 & L1 & L2 & L3)].
      { exists [panel_guard d]. eexists. split; [split; [apply si_counter, Hon | al]|]. apply closed_felt. rewrite Hon, Ea. reflexivity. }
      destruct (slots_counter _ _ _ _ _ _ _ _ _ _ _ E1) as (a' & g' & m' & h' & n' & c3 & -> & E4 & L4).
      destruct (adapter_felt _ ICounter _ _ _ _ _ _ _ _ (fun i u k c => eq_refl) E4) as (Ef & F).
      exists [panel_guard d]. eexists. split; [split; [apply si_counter; intros l; rewrite Hon, Ef; reflexivity | al]|].
      eapply felt_on; [|eapply felt_widen; [apply later_refl | | exact F]].
      + rewrite Hon, Ea. reflexivity.
      + eauto using later_trans.
    - intros d ct a m h ps hs ss on Hon k c p' n c' E.
      destruct (panel_handle_inv _ _ _ _ _ _ _ _ _ _ _ E)
        as [(Ea & -> & ->)|(Ea & sl' & ps' & hs' & n1 & n2 & c1 & c2 & -> & E1 & E2 & E3 & L1 & L2 & L3)].
      { exists [panel_guard d]. eexists. split; [split; [apply si_gauge, Hon | al]|]. apply closed_felt. rewrite Hon, Ea. reflexivity. }
      destruct (slots_gauge _ _ _ _ _ _ _ _ _ _ _ E1) as (ct' & a' & m' & h' & n' & c3 & c4 & -> & L4 & E4 & L5).
      destruct (gauge_felt _ _ _ _ _ _ _ E4) as (Ef & F).
      exists [panel_guard d]. eexists.
      split; [split; [apply si_gauge; intros l; rewrite Hon, (listens_strategy l _ _ Ef); reflexivity | al]|].
      eapply felt_on; [|eapply felt_widen; [exact L4 | | exact F]].
      + rewrite Hon, Ea. reflexivity.
      + eauto using later_trans.
    - intros d ct g a h ps hs ss on Hon k c p' n c' E.
      destruct (panel_handle_inv _ _ _ _ _ _ _ _ _ _ _ E)
        as [(Ea & -> & ->)|(Ea & sl' & ps' & hs' & n1 & n2 & c1 & c2 & -> & E1 & E2 & E3 & L1 & L2 & L3)].
      { exists [panel_guard d]. eexists. split; [split; [apply si_meter, Hon | al]|]. apply closed_felt. rewrite Hon, Ea. reflexivity. }
      destruct (slots_meter _ _ _ _ _ _ _ _ _ _ _ E1) as (ct' & g' & a' & h' & n' & c3 & c4 & -> & L4 & E4 & L5).
      destruct (adapter_felt _ IMeter _ _ _ _ _ _ _ _ (fun i u k c => eq_refl) E4) as (Ef & F).
      exists [panel_guard d]. eexists. split; [split; [apply si_meter; intros l; rewrite Hon, Ef; reflexivity | al]|].
      eapply felt_on; [|eapply felt_widen; [exact L4 | | exact F]].
      + rewrite Hon, Ea. reflexivity.
      + eauto using later_trans.
    - intros d ct g m a ps hs ss on Hon k c p' n c' E.
      destruct (panel_handle_inv _ _ _ _ _ _ _ _ _ _ _ E)
        as [(Ea & -> & ->)|(Ea & sl' & ps' & hs' & n1 & n2 & c1 & c2 & -> & E1 & E2 & E3 & L1 & L2 & L3)].
      { exists [panel_guard d]. eexists. split; [split; [apply si_histogram, Hon | al]|]. apply closed_felt. rewrite Hon, Ea. reflexivity. }
      destruct (slots_histogram _ _ _ _ _ _ _ _ _ _ _ E1) as (ct' & g' & m' & a' & n' & c3 & c4 & -> & L4 & E4 & L5).
      destruct (adapter_felt _ IHistogram _ _ _ _ _ _ _ _ (fun i u k c => eq_refl) E4) as (Ef & F).
      exists [panel_guard d]. eexists. split; [split; [apply si_histogram; intros l; rewrite Hon, Ef; reflexivity | al]|].
      eapply felt_on; [|eapply felt_widen; [exact L4 | | exact F]].
      + rewrite Hon, Ea. reflexivity.
      + eauto using later_trans.
    - intros d sl ps hs ss j p at_ names gs on on' x Hn Hs IH Hon k c p' n c' E.
      destruct (panel_handle_inv _ _ _ _ _ _ _ _ _ _ _ E)
        as [(Ea & -> & ->)|(Ea & sl' & ps' & hs' & n1 & n2 & c1 & c2 & -> & E1 & E2 & E3 & L1 & L2 & L3)].
      { exists (panel_guard d :: gs), x. split; [split; [eapply si_panel; eassumption | al]|]. apply closed_felt. rewrite Hon, Ea. reflexivity. }
      destruct (traverse_tally_nth _ _ _ _ _ Hn (all_ticks _ _ Tp _) _ _ _ _ _ _ E2) as (q & m & c3 & c4 & L4 & E4 & L5 & Hj).
      destruct (IH _ _ _ _ _ E4) as (gs' & x' & (S & A) & F).
      exists (panel_guard d :: gs'), x'. split; [split; [eapply si_panel; eassumption | al]|].
      eapply felt_on; [|eapply felt_widen; [| | exact F]]; eauto using later_trans.
      rewrite Hon, Ea. reflexivity.
    - intros d sl ps hs ss j p at_ names gs on on' x Hn Hs IH Hon k c p' n c' E.
      destruct (panel_handle_inv _ _ _ _ _ _ _ _ _ _ _ E)
        as [(Ea & -> & ->)|(Ea & sl' & ps' & hs' & n1 & n2 & c1 & c2 & -> & E1 & E2 & E3 & L1 & L2 & L3)].
      { exists (panel_guard d :: gs), x. split; [split; [eapply si_handler; eassumption | al]|]. apply closed_felt. rewrite Hon, Ea. reflexivity. }
      destruct (traverse_tally_nth _ _ _ _ _ Hn (all_ticks _ _ Th _) _ _ _ _ _ _ E3) as (q & m & c3 & c4 & L4 & E4 & L5 & Hj).
      destruct (IH _ _ _ _ _ E4) as (gs' & x' & (S & A) & F).
      exists (panel_guard d :: gs'), x'. split; [split; [eapply si_handler; eassumption | al]|].
      eapply felt_on; [|eapply felt_widen; [| | exact F]]; eauto using later_trans.
      rewrite Hon, Ea. reflexivity.
    - intros d sl ps hs ss j s on Hn Hon k c p' n c' E.
      destruct (panel_handle_inv _ _ _ _ _ _ _ _ _ _ _ E)
        as [(Ea & -> & ->)|(Ea & sl' & ps' & hs' & n1 & n2 & c1 & c2 & -> & _)];
        (exists [panel_guard d], (LShown s); split; [split; [apply si_shown; assumption | al]|]; apply closed_felt, Hon).
    - intros a on Hon k c p' n c' E. cbn [handler_handle] in E. unfold wrap in E.
      apply bind_ok in E. destruct E as ([a' m] & c1 & E1 & E). injection E as <- <- <-.
      destruct (adapter_felt _ (fun i => i) _ _ _ _ _ _ _ _ (fun i u k c => wrap_self _ _ _ _ _) E1) as (Ef & F).
      exists []. eexists. split; [split; [apply si_instrument; intros l; rewrite Hon, Ef; reflexivity | al]|].
      eapply felt_on; [|exact F]. rewrite Hon. reflexivity.
    - intros a on Hon k c p' n c' E. cbn [handler_handle] in E. unfold wrap in E.
      apply bind_ok in E. destruct E as ([a' m] & c1 & E1 & E). injection E as <- <- <-.
      destruct (gauge_felt _ _ _ _ _ _ _ E1) as (Ef & F).
      exists []. eexists. split; [split; [apply si_gauge_handler; intros l; rewrite Hon, (listens_strategy l _ _ Ef); reflexivity | al]|].
      eapply felt_on; [|exact F]. rewrite Hon. reflexivity.
    - intros p at_ names gs on x Hs IH k c p' n c' E. cbn [handler_handle] in E. unfold wrap in E.
      apply bind_ok in E. destruct E as ([a' m] & c1 & E1 & E). injection E as <- <- <-.
      destruct (IH _ _ _ _ _ E1) as (gs' & x' & (S & A) & F). exists gs', x'. split; [split; [constructor; exact S | al] | exact F].
    - intros p at_ names gs on x Hs IH k c p' n c' E. cbn [handler_handle] in E. unfold wrap in E.
      apply bind_ok in E. destruct E as ([a' m] & c1 & E1 & E). injection E as <- <- <-.
      destruct (IH _ _ _ _ _ E1) as (gs' & x' & (S & A) & F). exists gs', x'. split; [split; [constructor; exact S | al] | exact F].
    - intros u on Hon k c p' n c' E. cbn [handler_handle] in E. unfold wrap in E.
      apply bind_ok in E. destruct E as ([u' m] & c1 & E1 & E). injection E as <- <- <-.
      exists [], (LUser u'). split; [split; [constructor; exact Hon | al]|]. unfold felt. rewrite Hon.
      exists c, m, c1. split; [apply later_refl|]. split; [|apply later_refl].
      unfold leaf_handle, bind. rewrite E1. reflexivity.
    - intros d ps hs ss j p at_ names gs on x Hn Hs IH k c p' n c' E. cbv beta in E. rewrite cockpit_handle_eq in E.
      apply bind_ok in E. destruct E as (t & c1 & E1 & E). injection E1 as <- <-.
      apply bind_ok in E. destruct E as ([hs' n2] & c2 & E2 & E).
      apply bind_ok in E. destruct E as ([ps' n3] & c3 & E3 & E). injection E as <- <- <-.
      destruct (traverse_tally_nth _ _ _ _ _ Hn (all_ticks _ _ Tp _) _ _ _ _ _ _ E3) as (q & m & c4 & c5 & L4 & E4 & L5 & Hj).
      destruct (IH _ _ _ _ _ E4) as (gs' & x' & (S & A) & F).
      exists (cockpit_guard (cockpit_touch d (c 0%nat)) :: gs'), x'.
      split; [split; [exact (si_cockpit_panel (cockpit_touch d (c 0%nat)) _ _ _ _ _ _ _ _ _ _ Hj S) | al]|].
      eapply felt_widen; [| exact L5 | exact F].
      eapply later_trans; [apply later_tail|]. eapply later_trans; [|exact L4].
      exact (traverse_tally_ticks _ _ _ _ (all_ticks _ _ Th _) _ _ _ _ E2).
    - intros d ps hs ss j p at_ names gs on x Hn Hs IH k c p' n c' E. cbv beta in E. rewrite cockpit_handle_eq in E.
      apply bind_ok in E. destruct E as (t & c1 & E1 & E). injection E1 as <- <-.
      apply bind_ok in E. destruct E as ([hs' n2] & c2 & E2 & E).
      apply bind_ok in E. destruct E as ([ps' n3] & c3 & E3 & E). injection E as <- <- <-.
      destruct (traverse_tally_nth _ _ _ _ _ Hn (all_ticks _ _ Th _) _ _ _ _ _ _ E2) as (q & m & c4 & c5 & L4 & E4 & L5 & Hj).
      destruct (IH _ _ _ _ _ E4) as (gs' & x' & (S & A) & F).
      exists (cockpit_guard (cockpit_touch d (c 0%nat)) :: gs'), x'.
      split; [split; [exact (si_cockpits_handler (cockpit_touch d (c 0%nat)) _ _ _ _ _ _ _ _ _ _ Hj S) | al]|].
      eapply felt_widen; [| | exact F].
      + eapply later_trans; [apply later_tail | exact L4].
      + eapply later_trans; [exact L5|]. exact (traverse_tally_ticks _ _ _ _ (all_ticks _ _ Tp _) _ _ _ _ E3).
    - intros d ps hs ss j s on Hn Hon k c p' n c' E. cbv beta in E. rewrite cockpit_handle_eq in E.
      apply bind_ok in E. destruct E as (t & c1 & E1 & E). injection E1 as <- <-.
      apply bind_ok in E. destruct E as ([hs' n2] & c2 & E2 & E).
      apply bind_ok in E. destruct E as ([ps' n3] & c3 & E3 & E). injection E as <- <- <-.
      exists [cockpit_guard (cockpit_touch d (c 0%nat))], (LShown s).
      split; [split; [exact (si_cockpit_shown (cockpit_touch d (c 0%nat)) _ _ _ _ _ _ Hn Hon) | al]|]. apply closed_felt, Hon.
  Qed.

  Lemma tele_site_handle : forall (t : tele X) at_ names gs on x, tele_site t at_ names gs on x ->
    forall o acc k c t' n c', tele_handle t o acc k c = Ok (t', n) c' ->
    exists gs' x', (tele_site t' at_ names gs' on x' /\ alike gs gs') /\ felt k o on x x' c c'.
  Proof.
    intros t at_ names gs on x S o acc k c t' n c' E. unfold tele_handle in E.
    apply bind_ok in E. destruct E as ([cs n1] & c1 & E1 & E).
    apply bind_ok in E. destruct E as ([hs n2] & c2 & E2 & E). injection E as <- <- <-.
    destruct (tree_handle_ticks HX o) as (_ & Th & Tc & _). destruct (site_handle o) as (_ & Hh & Hc).
    destruct S as [t j q at_ names gs on x Hn S|t j q at_ names gs on x Hn S|t j s on Hn Hon].
    - destruct (traverse_tally_nth _ _ _ _ _ Hn (all_ticks _ _ Tc _) _ _ _ _ _ _ E1) as (q' & m & c4 & c5 & L4 & E4 & L5 & Hj).
      destruct (Hc _ _ _ _ _ _ S _ _ _ _ _ E4) as (gs' & x' & (S' & A) & F).
      exists (tele_guard t :: gs'), x'. split; [split; [exact (si_cockpit (tele_with t cs hs) _ _ _ _ _ _ _ Hj S') | al]|].
      eapply felt_widen; [exact L4 | | exact F]. eapply later_trans; [exact L5|].
      exact (traverse_tally_ticks _ _ _ _ (all_ticks _ _ Th _) _ _ _ _ E2).
    - destruct (traverse_tally_nth _ _ _ _ _ Hn (all_ticks _ _ Th _) _ _ _ _ _ _ E2) as (q' & m & c4 & c5 & L4 & E4 & L5 & Hj).
      destruct (Hh _ _ _ _ _ _ S _ _ _ _ _ E4) as (gs' & x' & (S' & A) & F).
      exists (tele_guard t :: gs'), x'. split; [split; [exact (si_teles_handler (tele_with t cs hs) _ _ _ _ _ _ _ Hj S') | al]|].
      eapply felt_widen; [| exact L5 | exact F]. eapply later_trans; [|exact L4].
      exact (traverse_tally_ticks _ _ _ _ (all_ticks _ _ Tc _) _ _ _ _ E1).
    - exists [tele_guard t], (LShown s). split; [split; [exact (si_tele_shown (tele_with t cs hs) _ _ _ Hn Hon) | al]|].
      apply closed_felt, Hon.
  Qed.
End Handling.

Section Showing.
  Context {X : ext} (HX : parts_tick X) (HA : parts_append X).

  Lemma presented_lift : forall k c c1 c2 c' g names names' gs (x x' : leaf X) de added more,
    later c c1 -> later c2 c' ->
    (forall fields, contains names fields added -> contains names' fields more) ->
    presented k c1 names gs x x' de added c2 -> presented k c names' (g :: gs) x x' de more c'.
  Proof.
    intros k c c1 c2 c' g names names' gs x x' de added more L1 L2 Hc
      [(-> & h & c3 & Hin & M1 & M2 & Hh)|(level & fields & c3 & c4 & M1 & E & M2 & H)].
    - left. split; [reflexivity|]. exists h, c3. split; [right; exact Hin|]. eauto using later_trans.
    - right. exists level, fields, c3, c4. split; [eauto using later_trans|]. split; [exact E|].
      split; [eauto using later_trans | auto].
  Qed.

  Lemma presented_itself : forall k c (x x' : leaf X) de level added c',
    leaf_put x de level k c = Ok (x', level ++ added) c' -> presented k c [] [] x x' de added c'.
  Proof.
    intros k c x x' de level added c' E. right. exists level, added, c, c'.
    split; [apply later_refl|]. split; [exact E|]. split; [apply later_refl|].
    exists [], []. rewrite app_nil_r. reflexivity.
  Qed.

  Lemma opt_put : forall A (f : A -> snapshot -> M (A * snapshot)) a into k c r s c',
    traverse_opt f (Some a) into k c = Ok (r, s) c' -> exists a', r = Some a' /\ f a into k c = Ok (a', s) c'.
  Proof.
    intros A f a into k c r s c' E. cbn [traverse_opt] in E.
    apply bind_ok in E. destruct E as ([a' n] & c1 & E1 & E). injection E as <- <- <-. eauto.
  Qed.

  Lemma grows_opt : forall A (f : A -> snapshot -> M (A * snapshot)) o into,
    (forall a s, grows s (f a s)) -> grows into (traverse_opt f o into).
  Proof.
    intros A f [a|] into H k c x s c' E.
    - destruct (opt_put _ _ _ _ _ _ _ _ _ E) as (a' & -> & E1). exact (H _ _ _ _ _ _ _ E1).
    - injection E as <- <- <-. exists []. rewrite app_nil_r. reflexivity.
  Qed.

  Lemma adapter_put_inv : forall I put (a : adapter X I) de into k c a' s c',
    adapter_put put a de into k c = Ok (a', s) c' ->
    ad_filter a' = ad_filter a /\ ad_modify a' = ad_modify a
    /\ put (ad_instrument a) de into k c = Ok (ad_instrument a', s) c'.
  Proof.
    intros I put a de into k c a' s c' E. unfold adapter_put in E.
    apply bind_ok in E. destruct E as ([i s1] & c1 & E1 & E). injection E as <- <- <-. auto.
  Qed.

  Lemma ga_put_inv : forall (a : gauge_adapter (lab X)) de into k c a' s c',
    ga_put a de into k c = Ok (a', s) c' -> ga_strategy a' = ga_strategy a.
  Proof.
    intros a de into k c a' s c' E. unfold ga_put in E.
    apply bind_ok in E. destruct E as ([i s1] & c1 & E1 & E). injection E as <- <- <-. reflexivity.
  Qed.

  Lemma leaf_put_instrument : forall (i : instrument X) m de into k c i' s c',
    instrument_put i de into k c = Ok (i', s) c' -> leaf_put (LInstrument i m) de into k c = Ok (LInstrument i' m, s) c'.
  Proof. intros. cbn [leaf_put]. unfold bind. rewrite H. reflexivity. Qed.

  Lemma leaf_put_shown : forall (sn : snapshooter X) de into k c sn' s c',
    snapshooter_put sn de into k c = Ok (sn', s) c' -> leaf_put (LShown sn) de into k c = Ok (LShown sn', s) c'.
  Proof. intros. cbn [leaf_put]. unfold bind. rewrite H. reflexivity. Qed.

  Lemma slots_put_inv : forall de ct g m (h : option (adapter X (histogram (ex_histo X)))) into k c sl' s c',
    slots_put de (Slots ct g m h) into k c = Ok (sl', s) c' ->
    exists ct' g' m' h' c1 c2 c3 a1 a2 a3 a4,
      sl' = Slots ct' g' m' h'
      /\ traverse_opt (fun a => adapter_put (fun i d s => keep i (ret (counter_put i d s))) a de) ct into k c = Ok (ct', into ++ a1) c1
      /\ traverse_opt (fun a => ga_put a de) g (into ++ a1) k c1 = Ok (g', (into ++ a1) ++ a2) c2
      /\ traverse_opt (fun a => adapter_put meter_put a de) m ((into ++ a1) ++ a2) k c2 = Ok (m', ((into ++ a1) ++ a2) ++ a3) c3
      /\ traverse_opt (fun a => adapter_put (fun i d s => keep i (histogram_put i d s)) a de) h (((into ++ a1) ++ a2) ++ a3) k c3
         = Ok (h', (((into ++ a1) ++ a2) ++ a3) ++ a4) c'
      /\ later c c1 /\ later c1 c2 /\ later c2 c3 /\ later c3 c'
      /\ s = into ++ a1 ++ a2 ++ a3 ++ a4.
  Proof.
    intros de ct g m h into k c sl' s c' E. unfold slots_put in E. cbn [sl_counter sl_gauge sl_meter sl_histogram] in E.
    apply bind_ok in E. destruct E as ([ct' s1] & c1 & E1 & E).
    apply bind_ok in E. destruct E as ([g' s2] & c2 & E2 & E).
    apply bind_ok in E. destruct E as ([m' s3] & c3 & E3 & E).
    apply bind_ok in E. destruct E as ([h' s4] & c4 & E4 & E). injection E as <- <- <-.
    destruct (grows_opt _ _ ct into (fun a s => writes_appends _ _ (adapter_writes _ _ a counter_writes) de s) _ _ _ _ _ E1) as (a1 & ->).
    destruct (grows_opt _ _ g _ (fun a s => writes_appends _ _ (ga_writes a) de s) _ _ _ _ _ E2) as (a2 & ->).
    destruct (grows_opt _ _ m _ (fun a s => writes_appends _ _ (adapter_writes _ _ a meter_writes) de s) _ _ _ _ _ E3) as (a3 & ->).
    destruct (grows_opt _ _ h _ (fun a s => writes_appends _ _ (adapter_writes _ _ a (histogram_writes _)) de s) _ _ _ _ _ E4) as (a4 & ->).
    exists ct', g', m', h', c1, c2, c3, a1, a2, a3, a4.
    split; [reflexivity|]. split; [exact E1|]. split; [exact E2|]. split; [exact E3|]. split; [exact E4|].
    split. { refine (ticks_traverse_opt _ _ _ _ _ _ _ _ _ _ E1). intros. apply adapter_put_ticks. intros. apply ticks_keep, ticks_ret. }
    split. { refine (ticks_traverse_opt _ _ _ _ _ _ _ _ _ _ E2). intros. apply ga_put_ticks. }
    split. { refine (ticks_traverse_opt _ _ _ _ _ _ _ _ _ _ E3). intros. apply adapter_put_ticks. intros. apply meter_put_ticks. }
    split. { refine (ticks_traverse_opt _ _ _ _ _ _ _ _ _ _ E4). intros. apply adapter_put_ticks. intros. apply ticks_keep, histogram_put_ticks. }
    rewrite <- !app_assoc. reflexivity.
  Qed.

  Lemma all_put : forall A (f : A -> bool -> snapshot -> M (A * snapshot)) de, (forall a d s, ticks (f a d s)) ->
    forall l, Forall (fun x => forall s, ticks (f x de s)) l.
  Proof. intros. apply Forall_forall. auto. Qed.

  Lemma all_grow : forall A (f : A -> bool -> snapshot -> M (A * snapshot)) de, (forall a, appends (f a)) ->
    forall l, Forall (fun x => forall s, grows s (f x de s)) l.
  Proof. intros. apply Forall_forall. intros x _ s. exact (H x de s). Qed.

  Lemma panel_put_inv : forall d sl ps hs (ss : list (snapshooter X)) de into k c p' s c',
    panel_put (Panel d sl ps hs ss) de into k c = Ok (p', s) c' ->
    (p' = Panel d sl ps hs ss /\ (exists c1, later c c1 /\ later c1 c' /\ hides (panel_guard d) (c1 O)) /\ exists added, s = into ++ added)
    \/ exists sl' ps' hs' ss' level a1 a2 a3 a4 c0 c1 c2 c3,
         later c c0 /\ p' = Panel d sl' ps' hs' ss'
         /\ slots_put de sl level k c0 = Ok (sl', level ++ a1) c1
         /\ traverse (fun x => panel_put x de) ps (level ++ a1) k c1 = Ok (ps', (level ++ a1) ++ a2) c2
         /\ traverse (fun x => snapshooter_put x de) ss ((level ++ a1) ++ a2) k c2 = Ok (ss', ((level ++ a1) ++ a2) ++ a3) c3
         /\ traverse (fun x => handler_put x de) hs (((level ++ a1) ++ a2) ++ a3) k c3 = Ok (hs', (((level ++ a1) ++ a2) ++ a3) ++ a4) c'
         /\ later c0 c1 /\ later c1 c2 /\ later c2 c3 /\ later c3 c'
         /\ exists more, s = into ++ more
              /\ forall names fields, contains names fields (a1 ++ a2 ++ a3 ++ a4) -> contains (opt_list (pd_name d) ++ names) fields more.
  Proof.
    intros d sl ps hs ss de into k c p' s c' E. rewrite panel_put_eq in E.
    apply guarded_put in E. destruct E as [E|(level & s1 & c1 & L & E & H)]; [left; exact E | right].
    apply bind_ok in E. destruct E as ([sl' t1] & c2 & E1 & E).
    apply bind_ok in E. destruct E as ([ps' t2] & c3 & E2 & E).
    apply bind_ok in E. destruct E as ([ss' t3] & c4 & E3 & E).
    apply bind_ok in E. destruct E as ([hs' t4] & c5 & E4 & E). injection E as <- <- <-.
    destruct (tree_put_ticks HX) as (Tp & Th & Tc & Ts). destruct (tree_appends HA) as (Gp & Gh & Gc & Gs).
    destruct (writes_appends _ _ (slots_writes sl) de level _ _ _ _ _ E1) as (a1 & ->).
    destruct (grows_traverse _ _ _ _ (all_grow _ _ _ Gp _) _ _ _ _ _ E2) as (a2 & ->).
    destruct (grows_traverse _ _ _ _ (all_grow _ _ _ Gs _) _ _ _ _ _ E3) as (a3 & ->).
    destruct (grows_traverse _ _ _ _ (all_grow _ _ _ Gh _) _ _ _ _ _ E4) as (a4 & ->).
    exists sl', ps', hs', ss', level, a1, a2, a3, a4, c1, c2, c3, c4.
    split; [exact L|]. split; [reflexivity|]. split; [exact E1|]. split; [exact E2|]. split; [exact E3|]. split; [exact E4|].
    split; [exact (slots_put_ticks _ _ _ _ _ _ _ E1)|].
    split; [exact (ticks_traverse _ _ _ _ _ (all_put _ _ _ Tp _) _ _ _ _ E2)|].
    split; [exact (ticks_traverse _ _ _ _ _ (all_put _ _ _ Ts _) _ _ _ _ E3)|].
    split; [exact (ticks_traverse _ _ _ _ _ (all_put _ _ _ Th _) _ _ _ _ E4)|].
    destruct (H (a1 ++ a2 ++ a3 ++ a4)) as (more & -> & Hm); [rewrite <- !app_assoc; reflexivity|].
    exists more. split; [reflexivity | exact Hm].
  Qed.

  Definition site_puts {A} (put : A -> bool -> snapshot -> M (A * snapshot))
    (site : A -> list nat -> list string -> list guard -> (lab X -> bool) -> leaf X -> Prop)
    (p : A) (at_ : list nat) (names : list string) (gs : list guard) (on : lab X -> bool) (x : leaf X) : Prop :=
    forall de into k c p' s c', put p de into k c = Ok (p', s) c' ->
    exists x' added, site p' at_ names gs on x' /\ s = into ++ added /\ presented k c names gs x x' de added c'.

  Lemma presented_hidden : forall k c names g gs (x : leaf X) de added c',
    (exists c1, later c c1 /\ later c1 c' /\ hides g (c1 O)) -> presented k c names (g :: gs) x x de added c'.
  Proof. intros k c names g gs x de added c' (c1 & L1 & L2 & H). left. split; [reflexivity|]. exists g, c1. cbn. auto. Qed.

  Lemma contains_within : forall names fields s before after whole,
    whole = before ++ s ++ after -> contains names fields s -> contains names fields whole.
  Proof. intros. subst. apply contains_widen. assumption. Qed.

  Lemma presented_in : forall k c cA cB c' g name (x x' : leaf X) de level b before after whole more,
    later c cA -> leaf_put x de level k cA = Ok (x', level ++ b) cB -> later cB c' ->
    whole = before ++ b ++ after ->
    (forall names fields, contains names fields whole -> contains (opt_list name ++ names) fields more) ->
    presented k c (opt_list name) [g] x x' de more c'.
  Proof.
    intros k c cA cB c' g name x x' de level b before after whole more L1 E L2 Ew H.
    eapply presented_lift; [exact L1 | exact L2 | | exact (presented_itself _ _ _ _ _ _ _ _ E)].
    intros fields Hc. rewrite <- (app_nil_r (opt_list name)). apply H.
    eapply contains_within; eassumption.
  Qed.

  Ltac open_panel E :=
    destruct (panel_put_inv _ _ _ _ _ _ _ _ _ _ _ _ E)
      as [(-> & Hh & added & ->)|(sl' & ps' & hs' & ss' & level & a1 & a2 & a3 & a4 & c0 & c1 & c2 & c3 & L0 & -> & E1 & E2 & E5 & E3
            & L1 & L2 & L3 & L4 & more & -> & Hm)].
  Ltac open_slots E1 :=
    destruct (slots_put_inv _ _ _ _ _ _ _ _ _ _ _ E1)
      as (ct' & g' & m' & h' & d1 & d2 & d3 & b1 & b2 & b3 & b4 & -> & F1 & F2 & F3 & F4 & K1 & K2 & K3 & K4 & Es);
    apply app_inv_head in Es; subst.

  Lemma keep_inv : forall A (i : A) (m : M snapshot) k c j s c', keep i m k c = Ok (j, s) c' -> j = i /\ m k c = Ok s c'.
  Proof.
    intros A i m k c j s c' E. unfold keep in E. apply bind_ok in E. destruct E as (x & c1 & E1 & E). injection E as <- <- <-. auto.
  Qed.

  Lemma keep_eq : forall A (i : A) (m : M snapshot) k c s c', m k c = Ok s c' -> keep i m k c = Ok (i, s) c'.
  Proof. intros A i m k c s c' E. unfold keep, bind. rewrite E. reflexivity. Qed.

  Lemma wrap_eq : forall A B C (f : A -> B) (m : M (A * C)) k c a s c', m k c = Ok (a, s) c' -> wrap f m k c = Ok (f a, s) c'.
  Proof. intros A B C f m k c a s c' E. unfold wrap, bind. rewrite E. reflexivity. Qed.

  Lemma site_put :
    (forall p at_ names gs on x, panel_site p at_ names gs on x -> site_puts panel_put panel_site p at_ names gs on x)
    /\ (forall h at_ names gs on x, handler_site h at_ names gs on x -> site_puts handler_put handler_site h at_ names gs on x)
    /\ (forall c at_ names gs on x, cockpit_site c at_ names gs on x -> site_puts cockpit_put cockpit_site c at_ names gs on x).
  Proof.
    destruct (tree_put_ticks HX) as (Tp & Th & Tc & Ts). destruct (tree_appends HA) as (Gp & Gh & Gc & Gs).
    apply site_ind.
    - intros d a g m h ps hs ss on Hon de into k c p' s c' E. open_panel E.
      { eexists. exists added. split; [apply si_counter, Hon|]. split; [reflexivity|]. apply presented_hidden, Hh. }
      open_slots E1.
      destruct (opt_put _ _ _ _ _ _ _ _ _ F1) as (a' & -> & F5). apply adapter_put_inv in F5. destruct F5 as (Ef & Em & F5).
      apply keep_inv in F5. destruct F5 as (Ei & F5).
      eexists. exists more. split; [apply si_counter; intros l; rewrite Hon, Ef; reflexivity|]. split; [reflexivity|].
      rewrite Em, Ei.
      eapply (presented_in _ _ _ d1 _ _ _ _ _ _ level b1 [] (b2 ++ b3 ++ b4 ++ a2 ++ a3 ++ a4) _ _ L0); [| | | exact Hm].
      + apply leaf_put_instrument. apply (keep_eq _ (ICounter (ad_instrument a))). exact F5.
      + eauto 8 using later_trans.
      + rewrite <- !app_assoc. reflexivity.
    - intros d ct a m h ps hs ss on Hon de into k c p' s c' E. open_panel E.
      { eexists. exists added. split; [apply si_gauge, Hon|]. split; [reflexivity|]. apply presented_hidden, Hh. }
      open_slots E1.
      destruct (opt_put _ _ _ _ _ _ _ _ _ F2) as (a' & -> & F5). pose proof (ga_put_inv _ _ _ _ _ _ _ _ F5) as Ef.
      eexists. exists more. split; [apply si_gauge; intros l; rewrite Hon, (listens_strategy l _ _ Ef); reflexivity|].
      split; [reflexivity|].
      eapply (presented_in _ _ d1 d2 _ _ _ _ _ _ (level ++ b1) b2 b1 (b3 ++ b4 ++ a2 ++ a3 ++ a4) _ _ (later_trans _ _ _ L0 K1)); [| | | exact Hm].
      + cbn [leaf_put]. unfold bind. rewrite F5. reflexivity.
      + eauto 8 using later_trans.
      + rewrite <- !app_assoc. reflexivity.
    - intros d ct g a h ps hs ss on Hon de into k c p' s c' E. open_panel E.
      { eexists. exists added. split; [apply si_meter, Hon|]. split; [reflexivity|]. apply presented_hidden, Hh. }
      open_slots E1.
      destruct (opt_put _ _ _ _ _ _ _ _ _ F3) as (a' & -> & F5). apply adapter_put_inv in F5. destruct F5 as (Ef & Em & F5).
      eexists. exists more. split; [apply si_meter; intros l; rewrite Hon, Ef; reflexivity|]. split; [reflexivity|].
      rewrite Em.
      eapply (presented_in _ _ d2 d3 _ _ _ _ _ _ ((level ++ b1) ++ b2) b3 (b1 ++ b2) (b4 ++ a2 ++ a3 ++ a4) _ _
               (later_trans _ _ _ L0 (later_trans _ _ _ K1 K2))); [| | | exact Hm].
      + apply leaf_put_instrument. cbn [instrument_put]. apply wrap_eq. exact F5.
      + eauto 8 using later_trans.
      + rewrite <- !app_assoc. reflexivity.
    - intros d ct g m a ps hs ss on Hon de into k c p' s c' E. open_panel E.
      { eexists. exists added. split; [apply si_histogram, Hon|]. split; [reflexivity|]. apply presented_hidden, Hh. }
      open_slots E1.
      destruct (opt_put _ _ _ _ _ _ _ _ _ F4) as (a' & -> & F5). apply adapter_put_inv in F5. destruct F5 as (Ef & Em & F5).
      apply keep_inv in F5. destruct F5 as (Ei & F5).
      eexists. exists more. split; [apply si_histogram; intros l; rewrite Hon, Ef; reflexivity|]. split; [reflexivity|].
      rewrite Em, Ei.
      eapply (presented_in _ _ d3 c1 _ _ _ _ _ _ (((level ++ b1) ++ b2) ++ b3) b4 (b1 ++ b2 ++ b3) (a2 ++ a3 ++ a4) _ _
               (later_trans _ _ _ L0 (later_trans _ _ _ K1 (later_trans _ _ _ K2 K3)))); [| | | exact Hm].
      + apply leaf_put_instrument. apply (keep_eq _ (IHistogram (ad_instrument a))). exact F5.
      + eauto 8 using later_trans.
      + rewrite <- !app_assoc. reflexivity.
    - intros d sl ps hs ss j p at_ names gs on on' x Hn Hs IH Hon de into k c p' s c' E. open_panel E.
      { exists x, added. split; [eapply si_panel; eassumption|]. split; [reflexivity|]. apply presented_hidden, Hh. }
      destruct (traverse_put_nth _ _ _ _ _ Hn (all_put _ _ _ Tp _) (all_grow _ _ _ Gp _) _ _ _ _ _ _ E2)
        as (q & s0 & b & d1 & d2 & K1 & F & K2 & Hj & before & after & Es).
      rewrite <- !app_assoc in Es. do 2 apply app_inv_head in Es. subst a2.
      destruct (IH _ _ _ _ _ _ _ F) as (x' & b' & S & Eb & P). apply app_inv_head in Eb. subst b'.
      exists x', more. split; [eapply si_panel; eassumption|]. split; [reflexivity|].
      eapply presented_lift; [| | | exact P].
      + eauto 8 using later_trans.
      + eauto 8 using later_trans.
      + intros fields Hc. apply Hm. refine (contains_within _ _ b (a1 ++ before) (after ++ a3 ++ a4) _ _ Hc).
        rewrite <- !app_assoc. reflexivity.
    - intros d sl ps hs ss j p at_ names gs on on' x Hn Hs IH Hon de into k c p' s c' E. open_panel E.
      { exists x, added. split; [eapply si_handler; eassumption|]. split; [reflexivity|]. apply presented_hidden, Hh. }
      destruct (traverse_put_nth _ _ _ _ _ Hn (all_put _ _ _ Th _) (all_grow _ _ _ Gh _) _ _ _ _ _ _ E3)
        as (q & s0 & b & d1 & d2 & K1 & F & K2 & Hj & before & after & Es).
      rewrite <- !app_assoc in Es. do 4 apply app_inv_head in Es. subst a4.
      destruct (IH _ _ _ _ _ _ _ F) as (x' & b' & S & Eb & P). apply app_inv_head in Eb. subst b'.
      exists x', more. split; [eapply si_handler; eassumption|]. split; [reflexivity|].
      eapply presented_lift; [| | | exact P].
      + eauto 8 using later_trans.
      + eauto 8 using later_trans.
      + intros fields Hc. apply Hm. refine (contains_within _ _ b (a1 ++ a2 ++ a3 ++ before) after _ _ Hc).
        rewrite <- !app_assoc. reflexivity.
    - intros d sl ps hs ss j sn on Hn Hon de into k c p' s c' E. open_panel E.
      { exists (LShown sn), added. split; [apply si_shown; assumption|]. split; [reflexivity|]. apply presented_hidden, Hh. }
      destruct (traverse_put_nth _ _ _ _ _ Hn (all_put _ _ _ Ts _) (all_grow _ _ _ Gs _) _ _ _ _ _ _ E5)
        as (q & s0 & b & d1 & d2 & K1 & F & K2 & Hj & before & after & Es).
      rewrite <- !app_assoc in Es. do 3 apply app_inv_head in Es. subst a3.
      exists (LShown q), more. split; [apply si_shown; assumption|]. split; [reflexivity|].
      eapply (presented_in _ _ d1 d2 _ _ _ _ _ _ s0 b (a1 ++ a2 ++ before) (after ++ a4) _ _); [| | | | exact Hm].
      + eauto 8 using later_trans.
      + exact (leaf_put_shown _ _ _ _ _ _ _ _ F).
      + eauto 8 using later_trans.
      + rewrite <- !app_assoc. reflexivity.
    - intros a on Hon de into k c p' s c' E. cbn [handler_put] in E. unfold wrap in E.
      apply bind_ok in E. destruct E as ([a' s1] & c1 & E1 & E). injection E as <- <- <-.
      apply adapter_put_inv in E1. destruct E1 as (Ef & Em & E1).
      destruct (instrument_appends _ (pa_instr _ HA) _ _ _ _ _ _ _ E1) as (b & ->).
      eexists. exists b. split; [apply si_instrument; intros l; rewrite Hon, Ef; reflexivity|]. split; [reflexivity|].
      rewrite Em. eapply presented_itself. apply leaf_put_instrument. exact E1.
    - intros a on Hon de into k c p' s c' E. cbn [handler_put] in E. unfold wrap in E.
      apply bind_ok in E. destruct E as ([a' s1] & c1 & E1 & E). injection E as <- <- <-.
      pose proof (ga_put_inv _ _ _ _ _ _ _ _ E1) as Ef.
      destruct (writes_appends _ _ (ga_writes a) _ _ _ _ _ _ _ E1) as (b & ->).
      eexists. exists b. split; [apply si_gauge_handler; intros l; rewrite Hon, (listens_strategy l _ _ Ef); reflexivity|].
      split; [reflexivity|]. eapply presented_itself. cbn [leaf_put]. unfold bind. rewrite E1. reflexivity.
    - intros p at_ names gs on x Hs IH de into k c p' s c' E. cbn [handler_put] in E. unfold wrap in E.
      apply bind_ok in E. destruct E as ([a' s1] & c1 & E1 & E). injection E as <- <- <-.
      destruct (IH _ _ _ _ _ _ _ E1) as (x' & b & S & Eb & P). exists x', b. split; [constructor; exact S | auto].
    - intros p at_ names gs on x Hs IH de into k c p' s c' E. cbn [handler_put] in E. unfold wrap in E.
      apply bind_ok in E. destruct E as ([a' s1] & c1 & E1 & E). injection E as <- <- <-.
      destruct (IH _ _ _ _ _ _ _ E1) as (x' & b & S & Eb & P). exists x', b. split; [constructor; exact S | auto].
    - intros u on Hon de into k c p' s c' E. cbn [handler_put] in E. unfold wrap in E.
      apply bind_ok in E. destruct E as ([u' s1] & c1 & E1 & E). injection E as <- <- <-.
      destruct (pa_handler _ HA _ _ _ _ _ _ _ _ E1) as (b & ->).
      exists (LUser u'), b. split; [constructor; exact Hon|]. split; [reflexivity|].
      eapply presented_itself. cbn [leaf_put]. unfold bind. rewrite E1. reflexivity.
    - intros d ps hs ss j p at_ names gs on x Hn Hs IH de into k c p' s c' E. rewrite cockpit_put_eq in E.
      apply guarded_put in E. destruct E as [(-> & Hh & added & ->)|(level & s1 & c1 & L & E & H)].
      { exists x, added. split; [eapply si_cockpit_panel; eassumption|]. split; [reflexivity|]. apply presented_hidden, Hh. }
      apply bind_ok in E. destruct E as ([ps' t2] & c2 & E2 & E).
      apply bind_ok in E. destruct E as ([hs' t3] & c3 & E3 & E).
      apply bind_ok in E. destruct E as ([ss' t4] & c4 & E4 & E). injection E as <- <- <-.
      destruct (grows_traverse _ _ _ _ (all_grow _ _ _ Gh _) _ _ _ _ _ E3) as (a3 & ->).
      destruct (grows_traverse _ _ _ _ (all_grow _ _ _ Gs _) _ _ _ _ _ E4) as (a4 & ->).
      destruct (traverse_put_nth _ _ _ _ _ Hn (all_put _ _ _ Tp _) (all_grow _ _ _ Gp _) _ _ _ _ _ _ E2)
        as (q & s0 & b & d1 & d2 & K1 & F & K2 & Hj & before & after & ->).
      destruct (IH _ _ _ _ _ _ _ F) as (x' & b' & S & Eb & P). apply app_inv_head in Eb. subst b'.
      destruct (H (before ++ b ++ after ++ a3 ++ a4)) as (more & -> & Hm); [rewrite <- !app_assoc; reflexivity|].
      exists x', more. split; [eapply si_cockpit_panel; eassumption|]. split; [reflexivity|].
      eapply presented_lift; [| | | exact P].
      + eauto using later_trans.
      + eapply later_trans; [exact K2|]. eapply later_trans.
        * exact (ticks_traverse _ _ _ _ _ (all_put _ _ _ Th _) _ _ _ _ E3).
        * exact (ticks_traverse _ _ _ _ _ (all_put _ _ _ Ts _) _ _ _ _ E4).
      + intros fields Hc. apply Hm. apply contains_widen. exact Hc.
    - intros d ps hs ss j p at_ names gs on x Hn Hs IH de into k c p' s c' E. rewrite cockpit_put_eq in E.
      apply guarded_put in E. destruct E as [(-> & Hh & added & ->)|(level & s1 & c1 & L & E & H)].
      { exists x, added. split; [eapply si_cockpits_handler; eassumption|]. split; [reflexivity|]. apply presented_hidden, Hh. }
      apply bind_ok in E. destruct E as ([ps' t2] & c2 & E2 & E).
      apply bind_ok in E. destruct E as ([hs' t3] & c3 & E3 & E).
      apply bind_ok in E. destruct E as ([ss' t4] & c4 & E4 & E). injection E as <- <- <-.
      destruct (grows_traverse _ _ _ _ (all_grow _ _ _ Gp _) _ _ _ _ _ E2) as (a2 & ->).
      destruct (grows_traverse _ _ _ _ (all_grow _ _ _ Gs _) _ _ _ _ _ E4) as (a4 & ->).
      destruct (traverse_put_nth _ _ _ _ _ Hn (all_put _ _ _ Th _) (all_grow _ _ _ Gh _) _ _ _ _ _ _ E3)
        as (q & s0 & b & d1 & d2 & K1 & F & K2 & Hj & before & after & ->).
      destruct (IH _ _ _ _ _ _ _ F) as (x' & b' & S & Eb & P). apply app_inv_head in Eb. subst b'.
      destruct (H ((a2 ++ before) ++ b ++ after ++ a4)) as (more & -> & Hm); [rewrite <- !app_assoc; reflexivity|].
      exists x', more. split; [eapply si_cockpits_handler; eassumption|]. split; [reflexivity|].
      eapply presented_lift; [| | | exact P].
      + eapply later_trans; [exact L|]. eapply later_trans; [|exact K1].
        exact (ticks_traverse _ _ _ _ _ (all_put _ _ _ Tp _) _ _ _ _ E2).
      + eapply later_trans; [exact K2|]. exact (ticks_traverse _ _ _ _ _ (all_put _ _ _ Ts _) _ _ _ _ E4).
      + intros fields Hc. apply Hm. apply contains_widen. exact Hc.
    - intros d ps hs ss j sn on Hn Hon de into k c p' s c' E. rewrite cockpit_put_eq in E.
      apply guarded_put in E. destruct E as [(-> & Hh & added & ->)|(level & s1 & c1 & L & E & H)].
      { exists (LShown sn), added. split; [apply si_cockpit_shown; assumption|]. split; [reflexivity|]. apply presented_hidden, Hh. }
      apply bind_ok in E. destruct E as ([ps' t2] & c2 & E2 & E).
      apply bind_ok in E. destruct E as ([hs' t3] & c3 & E3 & E).
      apply bind_ok in E. destruct E as ([ss' t4] & c4 & E4 & E). injection E as <- <- <-.
      destruct (grows_traverse _ _ _ _ (all_grow _ _ _ Gp _) _ _ _ _ _ E2) as (a2 & ->).
      destruct (grows_traverse _ _ _ _ (all_grow _ _ _ Gh _) _ _ _ _ _ E3) as (a3 & ->).
      destruct (traverse_put_nth _ _ _ _ _ Hn (all_put _ _ _ Ts _) (all_grow _ _ _ Gs _) _ _ _ _ _ _ E4)
        as (q & s0 & b & d1 & d2 & K1 & F & K2 & Hj & before & after & ->).
      destruct (H ((a2 ++ a3 ++ before) ++ b ++ after)) as (more & -> & Hm); [rewrite <- !app_assoc; reflexivity|].
      exists (LShown q), more. split; [apply si_cockpit_shown; assumption|]. split; [reflexivity|].
      eapply (presented_in _ _ d1 d2 _ _ _ _ _ _ s0 b (a2 ++ a3 ++ before) after _ _); [| | exact K2 | reflexivity | exact Hm].
      + eapply later_trans; [exact L|]. eapply later_trans; [exact (ticks_traverse _ _ _ _ _ (all_put _ _ _ Tp _) _ _ _ _ E2)|].
        eapply later_trans; [exact (ticks_traverse _ _ _ _ _ (all_put _ _ _ Th _) _ _ _ _ E3) | exact K1].
      + exact (leaf_put_shown _ _ _ _ _ _ _ _ F).
  Qed.

  Lemma tele_site_put : forall (t : tele X) at_ names gs on x, tele_site t at_ names gs on x ->
    site_puts tele_put tele_site t at_ names gs on x.
  Proof.
    destruct (tree_put_ticks HX) as (Tp & Th & Tc & Ts). destruct (tree_appends HA) as (Gp & Gh & Gc & Gs).
    destruct site_put as (_ & Sh & Sc).
    intros t at_ names gs on x S0 de into k c t' s c' E. unfold tele_put in E.
    apply guarded_put in E. destruct E as [(-> & Hh & added & ->)|(level & s1 & c1 & L & E & H)].
    { destruct S0; eexists; exists added; (split; [econstructor; eassumption|]); (split; [reflexivity|]); apply presented_hidden, Hh. }
    apply bind_ok in E. destruct E as ([cs' t2] & c2 & E2 & E).
    apply bind_ok in E. destruct E as ([hs' t3] & c3 & E3 & E).
    apply bind_ok in E. destruct E as ([ss' t4] & c4 & E4 & E). injection E as <- <- <-.
    destruct S0 as [t j q at_ names gs on x Hn S0|t j q at_ names gs on x Hn S0|t j sn on Hn Hon].
    - destruct (grows_traverse _ _ _ _ (all_grow _ _ _ Gs _) _ _ _ _ _ E4) as (a4 & ->).
      destruct (grows_traverse _ _ _ _ (all_grow _ _ _ Gh _) _ _ _ _ _ E3) as (a3 & ->).
      destruct (traverse_put_nth _ _ _ _ _ Hn (all_put _ _ _ Tc _) (all_grow _ _ _ Gc _) _ _ _ _ _ _ E2)
        as (q' & s0 & b & d1 & d2 & K1 & F & K2 & Hj & before & after & ->).
      destruct (Sc _ _ _ _ _ _ S0 _ _ _ _ _ _ _ F) as (x' & b' & S & Eb & P). apply app_inv_head in Eb. subst b'.
      destruct (H (before ++ b ++ after ++ a3 ++ a4)) as (more & -> & Hm); [rewrite <- !app_assoc; reflexivity|].
      exists x', more. split; [exact (si_cockpit (Tele _ _ cs' hs' _ ss' _ _ _ _) _ _ _ _ _ _ _ Hj S)|]. split; [reflexivity|].
      eapply presented_lift; [| | | exact P].
      + eauto using later_trans.
      + eapply later_trans; [exact K2|]. eapply later_trans.
        * exact (ticks_traverse _ _ _ _ _ (all_put _ _ _ Th _) _ _ _ _ E3).
        * exact (ticks_traverse _ _ _ _ _ (all_put _ _ _ Ts _) _ _ _ _ E4).
      + intros fields Hc. apply Hm. apply contains_widen. exact Hc.
    - destruct (grows_traverse _ _ _ _ (all_grow _ _ _ Gs _) _ _ _ _ _ E4) as (a4 & ->).
      destruct (grows_traverse _ _ _ _ (all_grow _ _ _ Gc _) _ _ _ _ _ E2) as (a2 & ->).
      destruct (traverse_put_nth _ _ _ _ _ Hn (all_put _ _ _ Th _) (all_grow _ _ _ Gh _) _ _ _ _ _ _ E3)
        as (q' & s0 & b & d1 & d2 & K1 & F & K2 & Hj & before & after & ->).
      destruct (Sh _ _ _ _ _ _ S0 _ _ _ _ _ _ _ F) as (x' & b' & S & Eb & P). apply app_inv_head in Eb. subst b'.
      destruct (H ((a2 ++ before) ++ b ++ after ++ a4)) as (more & -> & Hm); [rewrite <- !app_assoc; reflexivity|].
      exists x', more. split; [exact (si_teles_handler (Tele _ _ cs' hs' _ ss' _ _ _ _) _ _ _ _ _ _ _ Hj S)|]. split; [reflexivity|].
      eapply presented_lift; [| | | exact P].
      + eapply later_trans; [exact L|]. eapply later_trans; [|exact K1].
        exact (ticks_traverse _ _ _ _ _ (all_put _ _ _ Tc _) _ _ _ _ E2).
      + eapply later_trans; [exact K2|]. exact (ticks_traverse _ _ _ _ _ (all_put _ _ _ Ts _) _ _ _ _ E4).
      + intros fields Hc. apply Hm. apply contains_widen. exact Hc.
    - destruct (grows_traverse _ _ _ _ (all_grow _ _ _ Gc _) _ _ _ _ _ E2) as (a2 & ->).
      destruct (grows_traverse _ _ _ _ (all_grow _ _ _ Gh _) _ _ _ _ _ E3) as (a3 & ->).
      destruct (traverse_put_nth _ _ _ _ _ Hn (all_put _ _ _ Ts _) (all_grow _ _ _ Gs _) _ _ _ _ _ _ E4)
        as (q & s0 & b & d1 & d2 & K1 & F & K2 & Hj & before & after & ->).
      destruct (H ((a2 ++ a3 ++ before) ++ b ++ after)) as (more & -> & Hm); [rewrite <- !app_assoc; reflexivity|].
      exists (LShown q), more. split; [exact (si_tele_shown (Tele _ _ cs' hs' _ ss' _ _ _ _) _ _ _ Hj Hon)|]. split; [reflexivity|].
      eapply (presented_in _ _ d1 d2 _ _ _ _ _ _ s0 b (a2 ++ a3 ++ before) after _ _); [| | exact K2 | reflexivity | exact Hm].
      + eapply later_trans; [exact L|]. eapply later_trans; [exact (ticks_traverse _ _ _ _ _ (all_put _ _ _ Tc _) _ _ _ _ E2)|].
        eapply later_trans; [exact (ticks_traverse _ _ _ _ _ (all_put _ _ _ Th _) _ _ _ _ E3) | exact K1].
      + exact (leaf_put_shown _ _ _ _ _ _ _ _ F).
  Qed.
End Showing.

(** ** Lives *)

Section Lives.
  Context {X : ext} (HX : parts_tick X) (HA : parts_append X).

  Lemma life_later : forall k c0 c (x : leaf X) os x' c', later c0 c -> leaf_life k c x os x' c' -> leaf_life k c0 x os x' c'.
  Proof.
    intros k c0 c x os x' c' L H.
    destruct H as [c x c' L1|c c1 o x x1 n c2 os x2 c3 L1 E H|c c1 x de into x1 s c2 os x2 c3 L1 E H].
    - apply ll_end. exact (later_trans _ _ _ L L1).
    - exact (ll_handles _ _ _ _ _ _ _ _ _ _ _ (later_trans _ _ _ L L1) E H).
    - exact (ll_shown _ _ _ _ _ _ _ _ _ _ _ _ (later_trans _ _ _ L L1) E H).
  Qed.

  Lemma life_app : forall k c (x : leaf X) os x1 c1, leaf_life k c x os x1 c1 ->
    forall os2 x2 c2, leaf_life k c1 x1 os2 x2 c2 -> leaf_life k c x (os ++ os2) x2 c2.
  Proof.
    intros k c x os x1 c1 H. induction H; intros os2' x2' c2' H2; cbn [app].
    - eapply life_later; eassumption.
    - eapply ll_handles; [eassumption..|]. auto.
    - eapply ll_shown; [eassumption..|]. auto.
  Qed.

  Lemma felt_life : forall k o on (x x' : leaf X) c c', later c c' -> felt k o on x x' c c' ->
    leaf_life k c x (if on (obs_label o) then [o] else []) x' c'.
  Proof.
    intros k o on x x' c c' L H. unfold felt in H. destruct (on (obs_label o)).
    - destruct H as (c0 & n & c1 & L1 & E & L2). eapply ll_handles; [exact L1 | exact E | apply ll_end, L2].
    - subst x'. apply ll_end, L.
  Qed.

  (** ** Names stay *)

  Lemma traverse_map : forall A B C (f : A -> B -> M (A * B)) (g : A -> C) l,
    (forall x b k c x' b' c', f x b k c = Ok (x', b') c' -> g x' = g x) ->
    forall b k c l' b' c', traverse f l b k c = Ok (l', b') c' -> map g l' = map g l.
  Proof.
    intros A B C f g l H. induction l as [|x l IH]; intros b k c l' b' c' E; cbn [traverse] in E.
    - injection E as <- <- <-. reflexivity.
    - apply bind_ok in E. destruct E as ([x' b1] & c1 & E1 & E).
      apply bind_ok in E. destruct E as ([l1 b2] & c2 & E2 & E). injection E as <- <- <-.
      cbn [map]. f_equal; [exact (H _ _ _ _ _ _ _ E1) | exact (IH _ _ _ _ _ _ E2)].
  Qed.

  Lemma tally_map : forall A C (f : A -> M (A * Z)) (g : A -> C),
    (forall x k c x' n c', f x k c = Ok (x', n) c' -> g x' = g x) ->
    forall x b k c x' b' c', tally f x b k c = Ok (x', b') c' -> g x' = g x.
  Proof.
    intros A C f g H x b k c x' b' c' E. unfold tally in E.
    apply bind_ok in E. destruct E as ([y n] & c1 & E1 & E).
    apply bind_ok in E. destruct E as (q & c2 & E2 & E). injection E as <- <- <-. exact (H _ _ _ _ _ _ E1).
  Qed.

  Lemma panel_handle_name : forall (p : panel X) o k c p' n c', panel_handle p o k c = Ok (p', n) c' -> panel_name p' = panel_name p.
  Proof.
    intros [d sl ps hs ss] o k c p' n c' E.
    destruct (panel_handle_inv HX _ _ _ _ _ _ _ _ _ _ _ E) as [(_ & -> & _)|(_ & sl' & ps' & hs' & n1 & n2 & c1 & c2 & -> & _)]; reflexivity.
  Qed.

  Lemma panel_put_name : forall (p : panel X) de into k c p' s c', panel_put p de into k c = Ok (p', s) c' -> panel_name p' = panel_name p.
  Proof.
    intros [d sl ps hs ss] de into k c p' s c' E.
    destruct (panel_put_inv HX HA _ _ _ _ _ _ _ _ _ _ _ _ E)
      as [(-> & _)|(sl' & ps' & hs' & ss' & level & a1 & a2 & a3 & a4 & c0 & c1 & c2 & c3 & _ & -> & _)]; reflexivity.
  Qed.

  Definition cockpit_layout (c : cockpit X) := (cockpit_name c, map panel_name (c_panels c)).

  Lemma cockpit_handle_layout : forall (q : cockpit X) o k c q' n c',
    cockpit_handle q o k c = Ok (q', n) c' -> cockpit_layout q' = cockpit_layout q.
  Proof.
    intros [d ps hs ss] o k c q' n c' E. rewrite cockpit_handle_eq in E.
    apply bind_ok in E. destruct E as (t & c1 & E1 & E).
    apply bind_ok in E. destruct E as ([hs' n2] & c2 & E2 & E).
    apply bind_ok in E. destruct E as ([ps' n3] & c3 & E3 & E). injection E as <- <- <-.
    unfold cockpit_layout. cbn [cockpit_name c_data cockpit_touch cd_name c_panels]. f_equal.
    refine (traverse_map _ _ _ _ _ _ _ _ _ _ _ _ _ E3). apply tally_map. intros. eapply panel_handle_name; eassumption.
  Qed.

  Lemma cockpit_put_layout : forall (q : cockpit X) de into k c q' s c',
    cockpit_put q de into k c = Ok (q', s) c' -> cockpit_layout q' = cockpit_layout q.
  Proof.
    intros [d ps hs ss] de into k c q' s c' E. rewrite cockpit_put_eq in E.
    apply guarded_put in E. destruct E as [(-> & _)|(level & s1 & c1 & L & E & H)]; [reflexivity|].
    apply bind_ok in E. destruct E as ([ps' t2] & c2 & E2 & E).
    apply bind_ok in E. destruct E as ([hs' t3] & c3 & E3 & E).
    apply bind_ok in E. destruct E as ([ss' t4] & c4 & E4 & E). injection E as <- <- <-.
    unfold cockpit_layout. cbn [cockpit_name c_data c_panels]. f_equal.
    refine (traverse_map _ _ _ _ _ _ _ _ _ _ _ _ _ E2). intros. eapply panel_put_name; eassumption.
  Qed.

  Lemma tele_handle_layout : forall (t : tele X) o acc k c t' n c', tele_handle t o acc k c = Ok (t', n) c' -> layout t' = layout t.
  Proof.
    intros t o acc k c t' n c' E. unfold tele_handle in E.
    apply bind_ok in E. destruct E as ([cs n1] & c1 & E1 & E).
    apply bind_ok in E. destruct E as ([hs n2] & c2 & E2 & E). injection E as <- <- <-.
    unfold layout. cbn [tp_cockpits tele_with].
    refine (traverse_map _ _ _ _ cockpit_layout _ _ _ _ _ _ _ _ E1). apply tally_map. intros. eapply cockpit_handle_layout; eassumption.
  Qed.

  Lemma tele_put_layout : forall (t : tele X) de into k c t' s c', tele_put t de into k c = Ok (t', s) c' -> layout t' = layout t.
  Proof.
    intros t de into k c t' s c' E. unfold tele_put in E.
    apply guarded_put in E. destruct E as [(-> & _)|(level & s1 & c1 & L & E & H)]; [reflexivity|].
    apply bind_ok in E. destruct E as ([cs' t2] & c2 & E2 & E).
    apply bind_ok in E. destruct E as ([hs' t3] & c3 & E3 & E).
    apply bind_ok in E. destruct E as ([ss' t4] & c4 & E4 & E). injection E as <- <- <-.
    unfold layout. cbn [tp_cockpits].
    refine (traverse_map _ _ _ _ cockpit_layout _ _ _ _ _ _ _ _ E2). intros. eapply cockpit_put_layout; eassumption.
  Qed.

  (** ** Messages *)

  Lemma filter_nth : forall A (P : A -> bool) l j x, nth_error l j = Some x -> P x = true ->
    exists i, nth_error (filter P l) i = Some x.
  Proof.
    intros A P l j x Hn HP. apply In_nth_error. apply filter_In. split; [eapply nth_error_In; eassumption | exact HP].
  Qed.

  Lemma nth_app : forall A (l m : list A) j x, nth_error l j = Some x -> nth_error (l ++ m) j = Some x.
  Proof. intros A l m j x H. rewrite nth_error_app1; [exact H|]. apply nth_error_Some. congruence. Qed.

  Lemma update_first_nth : forall n f (l : list (cockpit X)) j c, nth_error l j = Some c ->
    nth_error (update_first n f l) j = Some c
    \/ (cockpit_name c = Some n /\ nth_error (update_first n f l) j = Some (f c)).
  Proof.
    intros n f l. induction l as [|q l IH]; intros j c H; [destruct j; discriminate H|].
    cbn [update_first]. destruct (is_named n (cockpit_name q)) eqn:En.
    - destruct j as [|j]; cbn [nth_error] in *.
      + injection H as ->. right. split; [|reflexivity]. apply named_true. exact En.
      + left. exact H.
    - destruct j as [|j]; cbn [nth_error] in *; [left; exact H|]. apply IH, H.
  Qed.

  (** The cockpits and handlers after a message *)
  Lemma cockpit_kept : forall (t t' : tele X) j q q' at_ at' names gs gs' on x,
    nth_error (tp_cockpits t) j = Some q -> cockpit_site q at_ names gs on x ->
    tp_name t' = tp_name t ->
    (exists i, nth_error (tp_cockpits t') i = Some q') -> cockpit_site q' at' names gs' on x ->
    exists i, tele_site t' (0 :: i :: at')%nat (opt_list (tp_name t) ++ names) (tele_guard t' :: gs') on x.
  Proof.
    intros t t' j q q' at_ at' names gs gs' on x Hj S En (i & Hi) S'. exists i. rewrite <- En. econstructor; eassumption.
  Qed.

  Lemma owners_cockpit : forall (t : tele X) j q rest, nth_error (tp_cockpits t) j = Some q ->
    owners (0 :: j :: rest)%nat (layout t)
    = (cockpit_name q, match rest with O :: i :: _ => match nth_error (map panel_name (c_panels q)) i with Some n => n | None => None end | _ => None end).
  Proof.
    intros t j q rest H. unfold owners, layout. rewrite (map_nth_error _ _ _ H). reflexivity.
  Qed.

  Definition message_effect (k : cfg) (d : decider) (m : message X) (on : lab X -> bool) (x x' : leaf X) (c c' : clock) : Prop :=
    match m with
    | MObservation o => if should_be_processed d o then felt k o on x x' c c' else x' = x
    | _ => x' = x
    end.

  Lemma add_panel_site : forall (q : cockpit X) p at_ names gs on x, cockpit_site q at_ names gs on x ->
    cockpit_site (cockpit_add_panel q p) at_ names gs on x.
  Proof.
    intros q p at_ names gs on x S. unfold cockpit_add_panel.
    destruct S as [d ps hs ss j r at_ names gs on x Hn S|d ps hs ss j r at_ names gs on x Hn S|d ps hs ss j s on Hn Hon];
      (destruct (panel_name p); [destruct (existsb _ _)|]);
      first [eapply si_cockpit_panel; [|exact S] | eapply si_cockpits_handler; [|exact S] | apply si_cockpit_shown; assumption]; eauto using nth_app.
  Qed.

  Lemma add_panel_owner : forall (q : cockpit X) p i, (i < length (c_panels q))%nat ->
    nth_error (map panel_name (c_panels (cockpit_add_panel q p))) i = nth_error (map panel_name (c_panels q)) i.
  Proof.
    intros [d ps hs ss] p i H. cbn [c_panels] in H. unfold cockpit_add_panel.
    destruct (panel_name p); [destruct (existsb _ _)|]; cbn [c_panels]; try reflexivity;
      rewrite map_app; apply nth_error_app1; rewrite map_length; assumption.
  Qed.

  Lemma message_site : forall d (t : tele X) at_ names gs on x n m k c t1 n1 c1,
    tele_site t at_ names gs on x -> tele_message d t n m k c = Ok (t1, n1) c1 -> spares (owners at_ (layout t)) m ->
    exists at' gs' x',
      (tele_site t1 at' names gs' on x' /\ alike gs gs') /\ owners at' (layout t1) = owners at_ (layout t) /\ (lasting m -> at' = at_)
      /\ message_effect k d m on x x' c c1.
  Proof.
    intros d t at_ names gs on x n m k c t1 n1 c1 S E Hs. destruct m as [o|q|name|h|cn p|cn pn]; cbn [tele_message] in E.
    - unfold message_effect. destruct (should_be_processed d o).
      + apply bind_ok in E. destruct E as ([t2 u] & c2 & E1 & E).
        apply bind_ok in E. destruct E as (q & c3 & E2 & E). injection E as <- <- <-.
        destruct (tele_site_handle HX _ _ _ _ _ _ S _ _ _ _ _ _ _ E1) as (gs' & x' & (S' & A) & F).
        exists at_, gs', x'. split; [split; [exact S' | al]|].
        split; [rewrite (tele_handle_layout _ _ _ _ _ _ _ _ E1); reflexivity|]. split; [reflexivity|].
        eapply felt_widen; [apply later_refl | exact (add_usize_ticks _ _ _ _ _ _ E2) | exact F].
      + apply bind_ok in E. destruct E as (q & c3 & E2 & E). injection E as <- <- <-.
        exists at_, gs, x. split; [split; [exact S | al] | auto].
    - apply bind_ok in E. destruct E as (pr & c2 & E1 & E). injection E as <- <- <-.
      assert (H : tele_add_cockpit t q = t \/ tele_add_cockpit t q = tele_with t (tp_cockpits t ++ [q]) (tp_handlers t)).
      { unfold tele_add_cockpit. destruct (cockpit_name q); [destruct (existsb _ _)|]; auto. }
      destruct H as [->| ->]; [exists at_, gs, x; split; [split; [exact S | al] | cbn; auto]|].
      destruct S as [t j r at_ names gs on x Hn S|t j r at_ names gs on x Hn S|t j s on Hn Hon].
      + assert (Hn' := nth_app _ _ [q] _ _ Hn).
        exists (0 :: j :: at_)%nat, (tele_guard t :: gs), x.
        split; [split; [exact (si_cockpit (tele_with t (tp_cockpits t ++ [q]) (tp_handlers t)) _ _ _ _ _ _ _ Hn' S) | al]|].
        split; [rewrite (owners_cockpit _ _ _ _ Hn), (owners_cockpit (tele_with t _ _) _ _ _ Hn'); reflexivity|]. split; reflexivity.
      + exists (1 :: j :: at_)%nat, (tele_guard t :: gs), x.
        split; [split; [exact (si_teles_handler (tele_with t (tp_cockpits t ++ [q]) (tp_handlers t)) _ _ _ _ _ _ _ Hn S) | al]|].
        split; [reflexivity|]. split; reflexivity.
      + exists [2; j]%nat, [tele_guard t], (LShown s).
        split; [split; [exact (si_tele_shown (tele_with t (tp_cockpits t ++ [q]) (tp_handlers t)) _ _ _ Hn Hon) | al]|]. split; [reflexivity|]. split; reflexivity.
    - apply bind_ok in E. destruct E as (pr & c2 & E1 & E). injection E as <- <- <-. unfold tele_remove_cockpit.
      destruct S as [t j r at_ names gs on x Hn S|t j r at_ names gs on x Hn S|t j s on Hn Hon].
      + rewrite (owners_cockpit _ _ _ _ Hn) in Hs |- *. cbn [spares fst] in Hs.
        destruct (filter_nth _ (fun q => negb (is_named name (cockpit_name q))) _ _ _ Hn) as (i & Hi).
        { destruct (is_named name (cockpit_name r)) eqn:En; [|reflexivity]. apply named_true in En. congruence. }
        exists (0 :: i :: at_)%nat, (tele_guard t :: gs), x.
        split; [split; [exact (si_cockpit (tele_with t _ (tp_handlers t)) _ _ _ _ _ _ _ Hi S) | al]|].
        split; [rewrite (owners_cockpit (tele_with t _ _) _ _ _ Hi); reflexivity|]. split; [intros [] | reflexivity].
      + exists (1 :: j :: at_)%nat, (tele_guard t :: gs), x.
        split; [split; [exact (si_teles_handler (tele_with t _ (tp_handlers t)) _ _ _ _ _ _ _ Hn S) | al]|].
        split; [reflexivity|]. split; reflexivity.
      + exists [2; j]%nat, [tele_guard t], (LShown s).
        split; [split; [exact (si_tele_shown (tele_with t _ (tp_handlers t)) _ _ _ Hn Hon) | al]|]. split; [reflexivity|]. split; reflexivity.
    - apply bind_ok in E. destruct E as (pr & c2 & E1 & E). injection E as <- <- <-. unfold tele_add_handler.
      destruct S as [t j r at_ names gs on x Hn S|t j r at_ names gs on x Hn S|t j s on Hn Hon].
      + exists (0 :: j :: at_)%nat, (tele_guard t :: gs), x.
        split; [split; [exact (si_cockpit (tele_with t (tp_cockpits t) _) _ _ _ _ _ _ _ Hn S) | al]|]. split; [reflexivity|]. split; reflexivity.
      + exists (1 :: j :: at_)%nat, (tele_guard t :: gs), x.
        split; [split; [exact (si_teles_handler (tele_with t (tp_cockpits t) _) _ _ _ _ _ _ _ (nth_app _ _ _ _ _ Hn) S) | al]|].
        split; [reflexivity|]. split; reflexivity.
      + exists [2; j]%nat, [tele_guard t], (LShown s).
        split; [split; [exact (si_tele_shown (tele_with t (tp_cockpits t) _) _ _ _ Hn Hon) | al]|]. split; [reflexivity|]. split; reflexivity.
    - apply bind_ok in E. destruct E as (pr & c2 & E1 & E). injection E as <- <- <-.
      destruct S as [t j r at_ names gs on x Hn S|t j r at_ names gs on x Hn S|t j s on Hn Hon].
      + exists (0 :: j :: at_)%nat, (tele_guard t :: gs), x. rewrite (owners_cockpit _ _ _ _ Hn).
        destruct (update_first_nth cn (fun c => cockpit_add_panel c p) _ _ _ Hn) as [Hj|(En & Hj)].
        * split; [split; [exact (si_cockpit (tele_with t _ (tp_handlers t)) _ _ _ _ _ _ _ Hj S) | al]|].
          split; [rewrite (owners_cockpit (tele_with t _ _) _ _ _ Hj); reflexivity|]. split; reflexivity.
        * split; [split; [exact (si_cockpit (tele_with t _ (tp_handlers t)) _ _ _ _ _ _ _ Hj (add_panel_site _ _ _ _ _ _ _ S)) | al]|].
          split; [|split; reflexivity]. rewrite (owners_cockpit (tele_with t _ _) _ _ _ Hj), add_panel_name. f_equal.
          destruct S as [dd ps hs ss i r at_ names gs on x Hi S|dd ps hs ss i r at_ names gs on x Hi S|dd ps hs ss i s on Hi Hon]; [|reflexivity|reflexivity].
          rewrite add_panel_owner; [reflexivity|]. cbn [c_panels]. apply nth_error_Some. congruence.
      + exists (1 :: j :: at_)%nat, (tele_guard t :: gs), x.
        split; [split; [exact (si_teles_handler (tele_with t _ (tp_handlers t)) _ _ _ _ _ _ _ Hn S) | al]|].
        split; [reflexivity|]. split; reflexivity.
      + exists [2; j]%nat, [tele_guard t], (LShown s).
        split; [split; [exact (si_tele_shown (tele_with t _ (tp_handlers t)) _ _ _ Hn Hon) | al]|]. split; [reflexivity|]. split; reflexivity.
    - apply bind_ok in E. destruct E as (pr & c2 & E1 & E). injection E as <- <- <-.
      destruct S as [t j r at_ names gs on x Hn S|t j r at_ names gs on x Hn S|t j s on Hn Hon].
      + rewrite (owners_cockpit _ _ _ _ Hn) in Hs |- *. cbn [spares fst snd] in Hs.
        destruct (update_first_nth cn (fun c => cockpit_remove_panel c pn) _ _ _ Hn) as [Hj|(En & Hj)].
        * exists (0 :: j :: at_)%nat, (tele_guard t :: gs), x.
          split; [split; [exact (si_cockpit (tele_with t _ (tp_handlers t)) _ _ _ _ _ _ _ Hj S) | al]|].
          split; [rewrite (owners_cockpit (tele_with t _ _) _ _ _ Hj); reflexivity|]. split; [intros [] | reflexivity].
        * destruct S as [dd ps hs ss i r at_ names gs on x Hi S|dd ps hs ss i r at_ names gs on x Hi S|dd ps hs ss i s on Hi Hon].
          { cbn [c_panels] in Hs. rewrite (map_nth_error _ _ _ Hi) in Hs.
            destruct (filter_nth _ (fun q => negb (is_named pn (panel_name q))) _ _ _ Hi) as (i' & Hi').
            { destruct (is_named pn (panel_name r)) eqn:Ep; [|reflexivity]. apply named_true in Ep. tauto. }
            exists (0 :: j :: 0 :: i' :: at_)%nat, (tele_guard t :: cockpit_guard dd :: gs), x.
            split; [split; [refine (si_cockpit (tele_with t _ (tp_handlers t)) _ _ _ _ _ _ _ Hj _); econstructor; eassumption | al]|].
            split; [|split; [intros [] | reflexivity]].
            rewrite (owners_cockpit (tele_with t _ _) _ _ _ Hj). cbn [cockpit_remove_panel c_panels].
            rewrite (map_nth_error _ _ _ Hi), (map_nth_error _ _ _ Hi'). reflexivity. }
          { exists (0 :: j :: 1 :: i :: at_)%nat, (tele_guard t :: cockpit_guard dd :: gs), x.
            split; [split; [refine (si_cockpit (tele_with t _ (tp_handlers t)) _ _ _ _ _ _ _ Hj _); econstructor; eassumption | al]|].
            split; [|split; [intros [] | reflexivity]].
            rewrite (owners_cockpit (tele_with t _ _) _ _ _ Hj). reflexivity. }
          { exists [0; j; 2; i]%nat, [tele_guard t; cockpit_guard dd], (LShown s).
            split; [split; [refine (si_cockpit (tele_with t _ (tp_handlers t)) _ _ _ _ _ _ _ Hj _); apply si_cockpit_shown; assumption | al]|].
            split; [|split; [intros [] | reflexivity]].
            rewrite (owners_cockpit (tele_with t _ _) _ _ _ Hj). reflexivity. }
      + exists (1 :: j :: at_)%nat, (tele_guard t :: gs), x.
        split; [split; [exact (si_teles_handler (tele_with t _ (tp_handlers t)) _ _ _ _ _ _ _ Hn S) | al]|].
        split; [reflexivity|]. split; reflexivity.
      + exists [2; j]%nat, [tele_guard t], (LShown s).
        split; [split; [exact (si_tele_shown (tele_with t _ (tp_handlers t)) _ _ _ Hn Hon) | al]|]. split; [reflexivity|]. split; reflexivity.
  Qed.

  Lemma without_app : forall A (P : A -> Prop) l1 m1 l2 m2, without P l1 m1 -> without P l2 m2 -> without P (l1 ++ l2) (m1 ++ m2).
  Proof. intros A P l1 m1 l2 m2 H. induction H; intros H2; cbn [app]; [exact H2 | apply wo_gone; auto | apply wo_kept; auto]. Qed.

  Lemma observations_cons : forall (m : message X) ms, observations_in (m :: ms) = observations_in [m] ++ observations_in ms.
  Proof. intros. unfold observations_in. cbn [flat_map]. rewrite app_nil_r. reflexivity. Qed.

  Definition seen_one (on : lab X -> bool) (s : strategy) (start : Z) (ms : list (message X)) (os : list (observation (lab X))) : Prop :=
    without (fun o => ~ (kept_by s start o /\ on (obs_label o) = true)) (observations_in ms) os.

  Lemma message_life : forall s k c0 d c0' on (x x' : leaf X) m c c',
    strategy_decider s k c0 = Ok d c0' -> later c c' -> message_effect k d m on x x' c c' ->
    exists os, seen_one on s (c0 O) [m] os /\ leaf_life k c x os x' c'.
  Proof.
    intros s k c0 d c0' on x x' m c c' Ed L H. unfold seen_one.
    assert (Z : x' = x -> leaf_life k c x [] x' c') by (intros ->; apply ll_end, L).
    destruct m as [o|q|name|h|cn p|cn pn]; cbn [message_effect observations_in flat_map app] in *;
      try (exists []; split; [constructor | auto]; fail).
    pose proof (decider_keeps _ _ _ _ _ o Ed) as Hd. destruct (should_be_processed d o).
    - pose proof (felt_life _ _ _ _ _ _ _ L H) as F. destruct (on (obs_label o)) eqn:Eo.
      + exists [o]. split; [|exact F]. apply wo_kept; [|constructor]. rewrite Eo. tauto.
      + exists []. split; [|exact F]. apply wo_gone; [|constructor]. rewrite Eo. intros [_ Hf]. discriminate Hf.
    - exists []. split; [|auto]. apply wo_gone; [|constructor]. intros [Hk _]. apply Hd in Hk. discriminate Hk.
  Qed.

  Lemma handles_life : forall s k c0 d c0' on names, strategy_decider s k c0 = Ok d c0' ->
    forall t n c ms t' n' c', handles k d t n c ms t' n' c' ->
    forall at_ gs (x : leaf X), tele_site t at_ names gs on x -> Forall (spares (owners at_ (layout t))) ms ->
    exists at' gs' os x',
      seen_one on s (c0 O) ms os /\ leaf_life k c x os x' c' /\ (tele_site t' at' names gs' on x' /\ alike gs gs')
      /\ owners at' (layout t') = owners at_ (layout t) /\ (Forall lasting ms -> at' = at_).
  Proof.
    intros s k c0 d c0' on names Ed t n c ms t' n' c' H.
    induction H as [t n c|t n c m t1 n1 c1 ms t2 n2 c2 E H IH]; intros at_ gs x S Hs.
    - exists at_, gs, [], x. split; [constructor|]. split; [apply ll_end, later_refl|]. split; [split; [exact S | al] | auto].
    - inversion Hs as [|? ? Hm Hms]; subst.
      destruct (message_site _ _ _ _ _ _ _ _ _ _ _ _ _ _ S E Hm) as (at1 & gs1 & x1 & (S1 & K1) & O1 & A1 & F).
      destruct (message_life _ _ _ _ _ _ _ _ _ _ _ Ed (tele_message_ticks HX _ _ _ _ _ _ _ _ E) F) as (os1 & W1 & L1).
      destruct (IH at1 gs1 x1 S1) as (at2 & gs2 & os2 & x2 & W2 & L2 & (S2 & K2) & O2 & A2); [rewrite O1; exact Hms|].
      exists at2, gs2, (os1 ++ os2), x2.
      split; [unfold seen_one; rewrite observations_cons; exact (without_app _ _ _ _ _ _ W1 W2)|]. split; [eapply life_app; eassumption|]. split; [split; [exact S2 | eapply alike_trans; eassumption]|].
      split; [congruence|]. intros Hl. inversion Hl; subst. rewrite A2, A1; auto.
  Qed.

  Lemma touched_site : forall (t : tele X) u at_ names gs on x, tele_site t at_ names gs on x ->
    exists gs', tele_site (tele_touch t u) at_ names gs' on x /\ alike gs gs'.
  Proof.
    intros t u at_ names gs on x S. destruct S as [t j r at_ names gs on x Hn S|t j r at_ names gs on x Hn S|t j s on Hn Hon].
    - exists (tele_guard (tele_touch t u) :: gs). split; [exact (si_cockpit (tele_touch t u) _ _ _ _ _ _ _ Hn S) | al].
    - exists (tele_guard (tele_touch t u) :: gs). split; [exact (si_teles_handler (tele_touch t u) _ _ _ _ _ _ _ Hn S) | al].
    - exists [tele_guard (tele_touch t u)]. split; [exact (si_tele_shown (tele_touch t u) _ _ _ Hn Hon) | al].
  Qed.

  Lemma disconnected_site : forall (t : tele X) at_ names gs on x, tele_site t at_ names gs on x ->
    tele_site (tele_disconnect t) at_ names gs on x.
  Proof.
    intros t at_ names gs on x S. destruct S as [t j r at_ names gs on x Hn S|t j r at_ names gs on x Hn S|t j s on Hn Hon].
    - exact (si_cockpit (tele_disconnect t) _ _ _ _ _ _ _ Hn S).
    - exact (si_teles_handler (tele_disconnect t) _ _ _ _ _ _ _ Hn S).
    - exact (si_tele_shown (tele_disconnect t) _ _ _ Hn Hon).
  Qed.

  Lemma presented_life : forall k c names gs (x x' : leaf X) de added c', later c c' ->
    presented k c names gs x x' de added c' -> leaf_life k c x [] x' c'.
  Proof.
    intros k c names gs x x' de added c' L [(-> & _)|(level & fields & c1 & c2 & L1 & E & L2 & _)]; [apply ll_end, L|].
    eapply ll_shown; [exact L1 | exact E | apply ll_end, L2].
  Qed.

  Lemma chronicle_life : forall k on names c (t : tele X) es t' c', chronicle k c t es t' c' ->
    forall at_ gs x, tele_site t at_ names gs on x -> Forall (spares (owners at_ (layout t))) (flat_map en_messages es) ->
    exists at' gs' os x',
      seen on es os /\ leaf_life k c x os x' c' /\ (tele_site t' at' names gs' on x' /\ alike gs gs')
      /\ owners at' (layout t') = owners at_ (layout t)
      /\ (Forall lasting (flat_map en_messages es) -> at' = at_).
  Proof.
    intros k on names c t es t' c' H.
    induction H as [c t c' L|c c0 t s d c1 ms t1 n c2 t2 t3 es t4 c4 L Hd Ed Hh H2 H3 H IH|c c0 t s es t1 c1 L Hd H IH
                   |c c0 t de into t1 into1 c1 es t2 c2 L E H IH]; intros at_ gs x S Hs.
    - exists at_, gs, [], x. split; [constructor|]. split; [apply ll_end, L|]. split; [split; [exact S | al] | auto].
    - cbn [flat_map en_messages] in *. apply Forall_app in Hs. destruct Hs as [Hs1 Hs2].
      destruct (handles_life _ _ _ _ _ _ _ Ed _ _ _ _ _ _ _ Hh _ _ _ S Hs1) as (at1 & gs1 & os1 & x1 & W1 & L1 & (S1 & K1) & O1 & A1).
      assert (S2 : tele_site t2 at1 names gs1 on x1 /\ layout t2 = layout t1).
      { destruct H2 as [->| ->]; [auto | split; [apply disconnected_site, S1 | reflexivity]]. }
      destruct S2 as (S2 & O2).
      assert (S3 : exists gs3, (tele_site t3 at1 names gs3 on x1 /\ alike gs1 gs3) /\ layout t3 = layout t2).
      { destruct H3 as [->| ->]; [exists gs1; split; [split; [exact S2 | al] | reflexivity]|]. destruct (touched_site _ (c2 O) _ _ _ _ _ S2) as (gs3 & S3). exists gs3. split; [exact S3 | reflexivity]. }
      destruct S3 as (gs3 & (S3 & K3) & O3).
      destruct (IH at1 gs3 x1 S3) as (at2 & gs2 & os2 & x2 & W2 & L2 & (S4 & K4) & O4 & A2); [rewrite O3, O2, O1; exact Hs2|].
      exists at2, gs2, (os1 ++ os2), x2. split; [apply seen_entry; [exact W1 | exact W2]|].
      split.
      { eapply life_later; [exact L|]. eapply life_later; [exact (strategy_decider_ticks _ _ _ _ _ Ed)|]. eapply life_app; eassumption. }
      split; [split; [exact S4 | eauto using alike_trans]|]. split; [congruence|]. intros Hl. apply Forall_app in Hl. destruct Hl. rewrite A2, A1; auto.
    - destruct (IH at_ gs x S Hs) as (at2 & gs2 & os2 & x2 & W2 & L2 & S4 & O4 & A2).
      exists at2, gs2, os2, x2. split; [apply (seen_entry on (Entry (c0 O) s []) es [] os2); [constructor | exact W2]|].
      split; [eapply life_later; eassumption|]. auto.
    - destruct (tele_site_put HX HA _ _ _ _ _ _ S _ _ _ _ _ _ _ E) as (x1 & added & S1 & _ & P).
      destruct (IH at_ gs x1 S1) as (at2 & gs2 & os2 & x2 & W2 & L2 & S4 & O4 & A2).
      { rewrite (tele_put_layout _ _ _ _ _ _ _ _ E). exact Hs. }
      exists at2, gs2, os2, x2. split; [exact W2|]. split.
      { eapply life_later; [exact L|]. eapply (life_app _ _ _ []); [|exact L2].
        exact (presented_life _ _ _ _ _ _ _ _ _ (tele_put_ticks HX _ _ _ _ _ _ _ E) P). }
      split; [exact S4|]. split; [|exact A2]. rewrite O4, (tele_put_layout _ _ _ _ _ _ _ _ E). reflexivity.
  Qed.
End Lives.
