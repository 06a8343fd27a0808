(** Proofs about attaching labels to instruments. *)
From Coq Require Import ZArith Bool List Lia.
From Verif Require Import Base SpecRun MonadFacts ModelObservation ModelLabelFilter LabelFilterProofs ModelGauge ModelInstrument
  ModelConfig SpecAttach.
Import ListNotations.
Open Scope Z_scope.

Lemma label_of_eq {L} (o : observation L) : obs_label o = label_of o.
Proof. destruct o; reflexivity. Qed.
Lemma split_eq {L} (o : observation L) : split_observation o = (label_of o, content o).
Proof. destruct o; reflexivity. Qed.
Lemma time_of_eq {L} (o : observation L) : obs_timestamp o = time_of o.
Proof. destruct o; reflexivity. Qed.

Section Run.
  Context {A I O : Type} (handle : A -> O -> M (A * Z)) (upd : I -> update -> M (I * Z)) (inst : A -> I)
    (good : A -> Prop) (reaches : O -> list update).

  (** Each observation is handled by handling what reaches the instrument. *)
  Definition handles_by : Prop := forall a o k c a' n c',
    good a -> handle a o k c = Ok (a', n) c' ->
    good a' /\ exists ns, run_all upd (inst a) (reaches o) k c = Ok (inst a', ns) c' /\ n = sum ns.

  Lemma sum_app a b : sum (a ++ b) = sum a + sum b.
  Proof. induction a; cbn; lia. Qed.

  Lemma run_all_app us vs i k c i' ns c' j ms c'' :
    run_all upd i us k c = Ok (i', ns) c' -> run_all upd i' vs k c' = Ok (j, ms) c'' ->
    run_all upd i (us ++ vs) k c = Ok (j, ns ++ ms) c''.
  Proof.
    revert i c ns. induction us as [|u us IH]; intros i c ns R1 R2.
    - cbn in R1. injection R1 as <- <- <-. exact R2.
    - cbn [run_all app] in *. apply bind_ok in R1 as ([i1 n1] & c1 & E1 & R1).
      apply bind_ok in R1 as ([i2 n2] & c2 & E2 & R1). injection R1 as <- <- <-.
      unfold bind. rewrite E1. rewrite (IH _ _ _ E2 R2). reflexivity.
  Qed.

  Lemma run_reaches : handles_by -> forall os a k c a' ns c',
    good a -> run_all handle a os k c = Ok (a', ns) c' ->
    good a' /\ exists ns', run_all upd (inst a) (flat_map reaches os) k c = Ok (inst a', ns') c' /\ sum ns = sum ns'.
  Proof.
    intros H. induction os as [|o os IH]; intros a k c a' ns c' G R.
    - cbn in R. injection R as <- <- <-. split; [exact G|]. exists []. split; reflexivity.
    - cbn [run_all] in R. apply bind_ok in R as ([a1 n1] & c1 & E1 & R).
      apply bind_ok in R as ([a2 n2] & c2 & E2 & R). injection R as <- <- <-.
      destruct (H _ _ _ _ _ _ _ G E1) as (G1 & ms & R1 & ->).
      destruct (IH _ _ _ _ _ _ G1 E2) as (G2 & ms2 & R2 & S2). split; [exact G2|].
      exists (ms ++ ms2). cbn [flat_map]. split; [eapply run_all_app; eassumption|].
      rewrite sum_app, <- S2. reflexivity.
  Qed.
End Run.

Lemma run_one {I} (upd : I -> update -> M (I * Z)) i u k c i' n c' :
  upd i u k c = Ok (i', n) c' -> run_all upd i [u] k c = Ok (i', [n]) c'.
Proof. intros R. cbn [run_all]. unfold bind. rewrite R. reflexivity. Qed.

Section Instr.
  Context {X : ext} {I : Type} (upd : I -> update -> M (I * Z)).
  Context (eqb_ok : forall a b, lab_eqb X a b = true <-> a = b).

  Lemma attached_filter ch (i : I) (a : adapter X I) :
    In a (attached ch i) ->
    ad_instrument a = i /\ ad_modify a = None /\
    forall l, accepts (lab_eqb X) (ad_filter a) l = true <-> chosen ch l.
  Proof.
    destruct ch as [l0|ls| |p|]; cbn [attached In]; intros H;
      repeat (destruct H as [<-|H]); try contradiction; (split; [reflexivity|]); (split; [reflexivity|]); intros l;
      cbn [ad_filter adapter_for_label adapter_for_labels adapter_by_predicate adapter_accept adapter_new adapter_from adapter_deaf
           instr_for_label instr_for_labels instr_for_all_labels instr_for_labels_by_predicate instr_adapter instr_accept
           adapter_accept_all_labels adapter_accept_no_labels chosen];
      try (rewrite (proj1 (from_single_and_tuples_spec (lab_eqb X) eqb_ok l0 l0 l0 l0 l0 l)); cbn; intuition congruence);
      try apply (from_vec_spec (lab_eqb X) eqb_ok); cbn; intuition congruence.
  Qed.

  Lemma attached_sees ch (i : I) (a : adapter X I) os us k c a' ns c' :
    In a (attached ch i) -> sees ch os us ->
    run_all (adapter_handle upd) a os k c = Ok (a', ns) c' ->
    exists ns', run_all upd i us k c = Ok (ad_instrument a', ns') c' /\ sum ns = sum ns'.
  Proof.
    intros Ha S R. destruct (attached_filter _ _ _ Ha) as (Ei & Em & F).
    set (reaches := fun o : observation (lab X) => if accepts (lab_eqb X) (ad_filter a) (label_of o) then [content o] else []).
    assert (E : flat_map reaches os = us).
    { clear R. induction S as [|o os us C S IH|o os us C S IH]; [reflexivity| |]; cbn [flat_map]; rewrite IH; unfold reaches.
      - apply F in C. rewrite C. reflexivity.
      - destruct (accepts _ _ _) eqn:E; [apply F in E; contradiction | reflexivity]. }
    rewrite <- E, <- Ei.
    refine (proj2 (run_reaches (adapter_handle upd) upd (@ad_instrument X I)
              (fun b => ad_filter b = ad_filter a /\ ad_modify b = None) reaches _ os a k c a' ns c' (conj eq_refl Em) R)).
    intros b o k1 c1 b' n c2 [G1 G2] H. unfold adapter_handle in H. rewrite label_of_eq, split_eq, G1, G2 in H. unfold reaches.
    destruct (accepts _ _ _); cbn [negb] in H.
    - cbn [modify] in H. apply bind_ok in H as ([j m] & c3 & H1 & H). injection H as <- <- <-.
      split; [split; assumption|]. exists [m]. split; [apply run_one, H1 | cbn; lia].
    - injection H as <- <- <-. split; [split; assumption|]. exists []. split; reflexivity.
  Qed.

  Lemma modified_filter ch f (i : I) (a : adapter X I) :
    In a (attached_modified ch f i) ->
    ad_instrument a = i /\ ad_modify a = Some f /\
    forall l, accepts (lab_eqb X) (ad_filter a) l = true <-> chosen ch l.
  Proof.
    unfold attached_modified. intros H. apply in_app_or in H. destruct H as [H|H].
    - apply in_map_iff in H. destruct H as (b & <- & Hb). destruct (attached_filter _ _ _ Hb) as (E & _ & F). auto.
    - destruct ch; cbn [In] in H; try contradiction; destruct H as [<-|[]]; (split; [reflexivity|]); (split; [reflexivity|]); intros l; cbn; intuition congruence.
  Qed.

  Lemma modified_sees ch (i : I) f (a : adapter X I) os us k c a' ns c' :
    In a (attached_modified ch f i) -> sees_as ch f os us ->
    run_all (adapter_handle upd) a os k c = Ok (a', ns) c' ->
    exists ns', run_all upd i us k c = Ok (ad_instrument a', ns') c' /\ sum ns = sum ns'.
  Proof.
    intros Ha S R. destruct (modified_filter _ _ _ _ Ha) as (Ei & Em & F).
    set (reaches := fun o : observation (lab X) => if accepts (lab_eqb X) (ad_filter a) (label_of o) then [f (label_of o) (content o)] else []).
    assert (E : flat_map reaches os = us).
    { clear R. induction S as [|o os us C S IH|o os us C S IH]; [reflexivity| |]; cbn [flat_map]; rewrite IH; unfold reaches.
      - apply F in C. rewrite C. reflexivity.
      - destruct (accepts _ _ _) eqn:E; [apply F in E; contradiction | reflexivity]. }
    rewrite <- E, <- Ei.
    refine (proj2 (run_reaches (adapter_handle upd) upd (@ad_instrument X I)
              (fun b => ad_filter b = ad_filter a /\ ad_modify b = Some f) reaches _ os a k c a' ns c'
              (conj eq_refl Em) R)).
    intros b o k1 c1 b' n c2 [G1 G2] H. unfold adapter_handle in H. rewrite label_of_eq, split_eq, G1, G2 in H. unfold reaches.
    destruct (accepts _ _ _); cbn [negb] in H.
    - cbn [modify] in H. apply bind_ok in H as ([j m] & c3 & H1 & H). injection H as <- <- <-.
      split; [split; assumption|]. exists [m]. split; [apply run_one, H1 | cbn; lia].
    - injection H as <- <- <-. split; [split; assumption|]. exists []. split; reflexivity.
  Qed.
End Instr.

Section GaugeAttach.
  Context {L : Type} (eqb : L -> L -> bool) (eqb_ok : forall a b, eqb a b = true <-> a = b).

  Definition meant (f : label_filter L) (ch : choice L) : Prop :=
    forall l, accepts eqb f l = true <-> chosen ch l.

  Lemma attached_gauge_filter ch g a :
    In a (attached_gauge eqb ch g) -> exists f, a = GaugeAdapter (GFilter f) g None /\ meant f ch.
  Proof.
    destruct ch as [l0|ls| |p|]; cbn [attached_gauge In]; intros H;
      repeat (destruct H as [<-|H]); try contradiction; (eexists; split; [reflexivity|]); intros l; cbn [chosen];
      try (rewrite (proj1 (from_single_and_tuples_spec eqb eqb_ok l0 l0 l0 l0 l0 l)); cbn; intuition congruence);
      try apply (from_vec_spec eqb eqb_ok); cbn; intuition congruence.
  Qed.
  Lemma attached_deltas_filter ch g a :
    In a (attached_deltas eqb ch g) -> exists f, a = GaugeAdapter (GDeltasOnly f) g None /\ meant f ch.
  Proof.
    destruct ch as [l0|ls| |p|]; cbn [attached_deltas In]; intros H;
      repeat (destruct H as [<-|H]); try contradiction; (eexists; split; [reflexivity|]); intros l; cbn [chosen];
      try (rewrite (proj1 (from_single_and_tuples_spec eqb eqb_ok l0 l0 l0 l0 l0 l)); cbn; intuition congruence);
      try apply (from_vec_spec eqb eqb_ok); cbn; intuition congruence.
  Qed.
  Lemma attached_steps_filter inc dec g a :
    In a (attached_steps eqb inc dec g) ->
    exists f f', a = GaugeAdapter (GIncDecOnLabels f f') g None /\ meant f inc /\ meant f' dec.
  Proof.
    destruct inc as [l0|ls| |p|], dec as [l1|ls1| |p1|]; cbn [attached_steps In]; intros H;
      repeat (destruct H as [<-|H]); try contradiction; (do 2 eexists; split; [reflexivity|]); split; intros l; cbn [chosen];
      try (match goal with |- accepts eqb (from_label eqb ?l0) _ = true <-> _ =>
             rewrite (proj1 (from_single_and_tuples_spec eqb eqb_ok l0 l0 l0 l0 l0 l)); cbn; intuition congruence end);
      try apply (from_vec_spec eqb eqb_ok); cbn; intuition congruence.
  Qed.

  Lemma gauge_sees ch g a os us k c a' ns c' :
    In a (attached_gauge eqb ch g) -> sees ch os us ->
    run_all (ga_handle eqb) a os k c = Ok (a', ns) c' ->
    exists ns', run_all gauge_update g us k c = Ok (ga_gauge a', ns') c' /\ sum ns = sum ns'.
  Proof.
    intros Ha S R. destruct (attached_gauge_filter _ _ _ Ha) as (f & -> & F).
    set (reaches := fun o : observation L => if accepts eqb f (label_of o) then [content o] else []).
    assert (E : flat_map reaches os = us).
    { clear R. induction S as [|o os us C S IH|o os us C S IH]; [reflexivity| |]; cbn [flat_map]; rewrite IH; unfold reaches.
      - apply F in C. rewrite C. reflexivity.
      - destruct (accepts _ _ _) eqn:E; [apply F in E; contradiction | reflexivity]. }
    rewrite <- E.
    refine (proj2 (run_reaches (ga_handle eqb) gauge_update (@ga_gauge L)
              (fun b => ga_strategy b = GFilter f /\ ga_modify_update b = None) reaches _ os _ k c a' ns c' _ R));
      [|split; reflexivity].
    intros b o k1 c1 b' n c2 [G1 G2] H. unfold ga_handle in H. rewrite split_eq, G1, G2 in H. unfold reaches.
    destruct (accepts _ _ _); cbn [negb] in H.
    - cbn [modify] in H. apply bind_ok in H as ([j m] & c3 & H1 & H). injection H as <- <- <-.
      split; [split; assumption|]. exists [m]. split; [apply run_one, H1 | cbn; lia].
    - injection H as <- <- <-. split; [split; assumption|]. exists []. split; reflexivity.
  Qed.

  Definition changeb (u : update) : bool :=
    match u with ObservationWithValue (ChangedBy _) _ => true | _ => false end.
  Lemma changeb_spec u : changeb u = true <-> is_change u.
  Proof. destruct u as [| |[]]; cbn; intuition congruence. Qed.

  Lemma gauge_sees_changes ch g a os us k c a' ns c' :
    In a (attached_deltas eqb ch g) -> sees_changes ch os us ->
    run_all (ga_handle eqb) a os k c = Ok (a', ns) c' ->
    exists ns', run_all gauge_update g us k c = Ok (ga_gauge a', ns') c' /\ sum ns = sum ns'.
  Proof.
    intros Ha S R. destruct (attached_deltas_filter _ _ _ Ha) as (f & -> & F).
    set (reaches := fun o : observation L => if accepts eqb f (label_of o) && changeb (content o) then [content o] else []).
    assert (E : flat_map reaches os = us).
    { clear R. induction S as [|o os us C D S IH|o os us C S IH]; [reflexivity| |]; cbn [flat_map]; rewrite IH; unfold reaches.
      - apply F in C. apply changeb_spec in D. rewrite C, D. reflexivity.
      - destruct (accepts _ _ _) eqn:E; [|reflexivity]. destruct (changeb _) eqn:D; [|reflexivity].
        destruct C. split; [apply F, E | apply changeb_spec, D]. }
    rewrite <- E.
    refine (proj2 (run_reaches (ga_handle eqb) gauge_update (@ga_gauge L)
              (fun b => ga_strategy b = GDeltasOnly f /\ ga_modify_update b = None) reaches _ os _ k c a' ns c' _ R));
      [|split; reflexivity].
    intros b o k1 c1 b' n c2 [G1 G2] H. unfold ga_handle in H. rewrite split_eq, G1, G2 in H. unfold reaches.
    assert (Z0 : forall n1 (b1 : gauge_adapter L) c3, ret (b, 0) k1 c1 = Ok (b1, n1) c3 ->
      (ga_strategy b1 = GDeltasOnly f /\ ga_modify_update b1 = None) /\
      exists ns, run_all gauge_update (ga_gauge b) [] k1 c1 = Ok (ga_gauge b1, ns) c3 /\ n1 = sum ns).
    { intros n1 b1 c3 E1. injection E1 as <- <- <-. split; [split; assumption|]. exists []. split; reflexivity. }
    destruct (accepts _ _ _); cbn [negb andb] in *; [|apply Z0, H]. cbn [modify] in H.
    destruct (content o) as [| |[]]; cbn [changeb]; try (apply Z0, H).
    apply bind_ok in H as ([j m] & c3 & H1 & H). injection H as <- <- <-.
    split; [split; assumption|]. exists [m]. split; [apply run_one, H1 | cbn; lia].
  Qed.

  Lemma gauge_sees_steps inc dec g a os us k c a' ns c' :
    In a (attached_steps eqb inc dec g) -> sees_steps inc dec os us ->
    run_all (ga_handle eqb) a os k c = Ok (a', ns) c' ->
    exists ns', run_all gauge_update g us k c = Ok (ga_gauge a', ns') c' /\ sum ns = sum ns'.
  Proof.
    intros Ha S R. destruct (attached_steps_filter _ _ _ _ Ha) as (f & f' & -> & F & F').
    set (reaches := fun o : observation L =>
      if accepts eqb f (label_of o) then [ObservationWithValue (ChangedBy 1) (time_of o)]
      else if accepts eqb f' (label_of o) then [ObservationWithValue (ChangedBy (-1)) (time_of o)] else []).
    assert (E : flat_map reaches os = us).
    { clear R. induction S as [|o os us C S IH|o os us C D S IH|o os us C D S IH]; [reflexivity| | |]; cbn [flat_map]; rewrite IH; unfold reaches.
      - apply F in C. rewrite C. reflexivity.
      - destruct (accepts eqb f _) eqn:E; [apply F in E; contradiction|]. apply F' in D. rewrite D. reflexivity.
      - destruct (accepts eqb f _) eqn:E; [apply F in E; contradiction|].
        destruct (accepts eqb f' _) eqn:E'; [apply F' in E'; contradiction|]. reflexivity. }
    rewrite <- E.
    refine (proj2 (run_reaches (ga_handle eqb) gauge_update (@ga_gauge L)
              (fun b => ga_strategy b = GIncDecOnLabels f f') reaches _ os _ k c a' ns c' _ R)); [|reflexivity].
    intros b o k1 c1 b' n c2 G1 H. unfold ga_handle in H. rewrite split_eq, G1, time_of_eq in H. unfold reaches.
    destruct (accepts eqb f _); [|destruct (accepts eqb f' _)].
    - apply bind_ok in H as ([j m] & c3 & H1 & H). injection H as <- <- <-.
      split; [assumption|]. exists [m]. split; [apply run_one, H1 | cbn; lia].
    - apply bind_ok in H as ([j m] & c3 & H1 & H). injection H as <- <- <-.
      split; [assumption|]. exists [m]. split; [apply run_one, H1 | cbn; lia].
    - injection H as <- <- <-. split; [assumption|]. exists []. split; reflexivity.
  Qed.
End GaugeAttach.
