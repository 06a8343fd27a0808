(** Instruments, panels, cockpits and handlers with the same normal form cannot be
    told apart, and a snapshot does not change the normal form. *)
From Coq Require Import ZArith Bool String List Lia.
From Verif Require Import Base SpecRun MonadFacts ModelObservation ModelLabelFilter ModelSnapshot ModelBuckets
  ModelCounter ModelGauge ModelMeter ModelHistogram ModelSwitches ModelInstrument ModelTree ModelChannel
  ModelProcessor SpecReads TreeInd TreeEqs TreeProofs StaysProofs ReadsLeafProofs.
Import ListNotations.
Open Scope Z_scope.

(** ** Pairs of computations at one point in time *)

Section Sim.
  Variables (k : cfg) (t : Z).

  Definition sim {A B} (m1 : M A) (m2 : M B) (P : A -> B -> Prop) : Prop :=
    forall a b c d, m1 k (frozen t) = Ok a c -> m2 k (frozen t) = Ok b d ->
      c = frozen t /\ d = frozen t /\ P a b.

  Lemma sim_ret : forall A B (a : A) (b : B) (P : A -> B -> Prop), P a b -> sim (ret a) (ret b) P.
  Proof. intros A B a b P H x y c d E1 E2. injection E1 as <- <-. injection E2 as <- <-. auto. Qed.

  Lemma sim_bind : forall A B A' B' (m1 : M A) (m2 : M B) (f : A -> M A') (g : B -> M B') P Q,
    sim m1 m2 P -> (forall a b, P a b -> sim (f a) (g b) Q) -> sim (bind m1 f) (bind m2 g) Q.
  Proof.
    intros A B A' B' m1 m2 f g P Q H1 H2 x y c d E1 E2. apply bind_ok in E1, E2.
    destruct E1 as (a & c1 & E1 & F1), E2 as (b & c2 & E2 & F2).
    destruct (H1 _ _ _ _ E1 E2) as (-> & -> & HP). exact (H2 _ _ HP _ _ _ _ F1 F2).
  Qed.

  Lemma sim_same : forall A (m : M A), stays m -> sim m m eq.
  Proof.
    intros A m H a b c d E1 E2. rewrite E1 in E2. injection E2 as <- <-. pose proof (H _ _ _ _ E1). auto.
  Qed.

  Lemma sim_weak : forall A B (m1 : M A) (m2 : M B) (P Q : A -> B -> Prop),
    sim m1 m2 P -> (forall a b, P a b -> Q a b) -> sim m1 m2 Q.
  Proof. intros A B m1 m2 P Q H HPQ a b c d E1 E2. destruct (H _ _ _ _ E1 E2) as (? & ? & ?). auto. Qed.

  Lemma sim_panic_l : forall A B (m : M B) (P : A -> B -> Prop), sim panic m P.
  Proof. intros A B m P a b c d E1. discriminate E1. Qed.
  Lemma sim_panic_r : forall A B (m : M A) (P : A -> B -> Prop), sim m panic P.
  Proof. intros A B m P a b c d E1 E2. discriminate E2. Qed.

  (** Step over a computation that both sides share. *)
  Lemma sim_step : forall A A' B' (m : M A) (f : A -> M A') (g : A -> M B') Q,
    stays m -> (forall a, sim (f a) (g a) Q) -> sim (bind m f) (bind m g) Q.
  Proof. intros. eapply sim_bind; [apply sim_same; assumption|]. intros a b <-. auto. Qed.

  (** ** Components *)

  Definition alike {A C} (nf : A -> A) (r s : A * C) : Prop := nf (fst r) = nf (fst s) /\ snd r = snd s.

  (** An operation cannot tell [x] from what has the same normal form. *)
  Definition acts {A O C} (nf : A -> A) (op : A -> O -> M (A * C)) (x : A) : Prop :=
    forall y o, nf x = nf y -> sim (op x o) (op y o) (alike nf).

  (** The same for a snapshot, which in addition keeps the normal form. *)
  Definition kept {A C} (nf : A -> A) (x : A) (r s : A * C) : Prop :=
    nf (fst r) = nf x /\ nf (fst s) = nf x /\ snd r = snd s.
  Definition shows {A} (nf : A -> A) (put : A -> bool -> snapshot -> M (A * snapshot)) (x : A) : Prop :=
    forall y de s, nf x = nf y -> sim (put x de s) (put y de s) (kept nf x).

  (** Components that are not changed at all. *)
  Lemma acts_id : forall A O C (op : A -> O -> M (A * C)) x, (forall x o, stays (op x o)) ->
    acts (fun x => x) op x.
  Proof.
    intros A O C op x H y o <-. eapply sim_weak; [apply sim_same; auto|]. intros a b <-. split; reflexivity.
  Qed.

  Lemma shows_id : forall A (put : A -> bool -> snapshot -> M (A * snapshot)) x,
    (forall x de s, stays (put x de s)) -> unchanged put -> shows (fun x => x) put x.
  Proof.
    intros A put x H Hu y de s <- a b c d E1 E2. rewrite E1 in E2. injection E2 as <- <-.
    pose proof (H _ _ _ _ _ _ _ E1) as ->. destruct a as [a s']. apply Hu in E1. subst a.
    repeat split.
  Qed.

  Lemma keep_unchanged : forall A (f : A -> bool -> snapshot -> M snapshot),
    unchanged (fun i d s => keep i (f i d s)).
  Proof.
    intros A f x de s k' t' y s' c E. unfold keep in E. apply bind_ok in E. destruct E as (? & ? & _ & E).
    injection E as <- <- <-. reflexivity.
  Qed.

  (** ** Lists *)

  Lemma traverse_acts : forall A (nf : A -> A) (f : A -> M (A * Z)) l l' acc,
    Forall (fun x => forall y, nf x = nf y -> sim (f x) (f y) (alike nf)) l ->
    map nf l = map nf l' ->
    sim (traverse (tally f) l acc) (traverse (tally f) l' acc) (alike (map nf)).
  Proof.
    intros A nf f l l' acc H. revert l' acc. induction H as [|x l Hx H IH]; intros [|y l'] acc E;
      cbn [map] in E; try discriminate E; cbn [traverse].
    - apply sim_ret. split; reflexivity.
    - injection E as E1 E2. eapply sim_bind.
      + unfold tally. eapply sim_bind; [exact (Hx y E1)|]. intros [x' n] [y' m] [En Em]. cbn [fst snd] in En, Em.
        subst m. apply sim_step; [auto with stays|]. intros z. apply sim_ret.
        instantiate (1 := alike nf). split; [exact En|reflexivity].
      + intros [x' n] [y' m] [En Em]. cbn [fst snd] in En, Em. subst m.
        eapply sim_bind; [apply IH; exact E2|]. intros [xs n'] [ys m'] [Exs Em]. cbn [fst snd] in Exs, Em. subst m'.
        apply sim_ret. split; cbn; congruence.
  Qed.

  Lemma traverse_shows : forall A (nf : A -> A) (put : A -> bool -> snapshot -> M (A * snapshot)) de l l' s,
    Forall (shows nf put) l ->
    map nf l = map nf l' ->
    sim (traverse (fun x => put x de) l s) (traverse (fun x => put x de) l' s) (kept (map nf) l).
  Proof.
    intros A nf put de l l' s H. revert l' s. induction H as [|x l Hx H IH]; intros [|y l'] s E;
      cbn [map] in E; try discriminate E; cbn [traverse].
    - apply sim_ret. repeat split.
    - injection E as E1 E2. eapply sim_bind; [exact (Hx y de s E1)|].
      intros [x' n] [y' m] (Ex & Ey & Em). cbn [fst snd] in Ex, Ey, Em. subst m.
      eapply sim_bind; [apply IH; exact E2|]. intros [xs n'] [ys m'] (Exs & Eys & Em).
      cbn [fst snd] in Exs, Eys, Em. subst m'. apply sim_ret. repeat split; cbn; congruence.
  Qed.

  Lemma traverse_opt_acts : forall A (nf : A -> A) (f : A -> M (A * Z)) o o' acc,
    (forall x y, nf x = nf y -> sim (f x) (f y) (alike nf)) ->
    option_map nf o = option_map nf o' ->
    sim (traverse_opt (tally f) o acc) (traverse_opt (tally f) o' acc) (alike (option_map nf)).
  Proof.
    intros A nf f [x|] [y|] acc H E; cbn [option_map] in E; try discriminate E; cbn [traverse_opt].
    - injection E as E1. eapply sim_bind.
      + unfold tally. eapply sim_bind; [exact (H x y E1)|]. intros [x' n] [y' m] [En Em]. cbn [fst snd] in En, Em.
        subst m. apply sim_step; [auto with stays|]. intros z. apply sim_ret.
        instantiate (1 := alike nf). split; [exact En|reflexivity].
      + intros [x' n] [y' m] [En Em]. cbn [fst snd] in En, Em. subst m. apply sim_ret. split; cbn; congruence.
    - apply sim_ret. split; reflexivity.
  Qed.

  Lemma traverse_opt_shows : forall A (nf : A -> A) (put : A -> bool -> snapshot -> M (A * snapshot)) de o o' s,
    (forall x, shows nf put x) ->
    option_map nf o = option_map nf o' ->
    sim (traverse_opt (fun x => put x de) o s) (traverse_opt (fun x => put x de) o' s) (kept (option_map nf) o).
  Proof.
    intros A nf put de [x|] [y|] s H E; cbn [option_map] in E; try discriminate E; cbn [traverse_opt].
    - injection E as E1. eapply sim_bind; [exact (H x y de s E1)|].
      intros [x' n] [y' m] (Ex & Ey & Em). cbn [fst snd] in Ex, Ey, Em. subst m. apply sim_ret.
      repeat split; cbn; congruence.
    - apply sim_ret. repeat split.
  Qed.

  Lemma wrap_acts : forall A B C (nf : A -> A) (nfb : B -> B) (f : A -> B) (m1 m2 : M (A * C)),
    (forall x y, nf x = nf y -> nfb (f x) = nfb (f y)) ->
    sim m1 m2 (alike nf) -> sim (wrap f m1) (wrap f m2) (alike nfb).
  Proof.
    intros A B C nf nfb f m1 m2 Hf H. unfold wrap. eapply sim_bind; [exact H|].
    intros [x n] [y m] [En Em]. cbn [fst snd] in En, Em. subst m. apply sim_ret. split; cbn; auto.
  Qed.

  Lemma wrap_shows : forall A B C (nf : A -> A) (nfb : B -> B) (f : A -> B) x (m1 m2 : M (A * C)),
    (forall x y, nf x = nf y -> nfb (f x) = nfb (f y)) ->
    sim m1 m2 (kept nf x) -> sim (wrap f m1) (wrap f m2) (kept nfb (f x)).
  Proof.
    intros A B C nf nfb f x m1 m2 Hf H. unfold wrap. eapply sim_bind; [exact H|].
    intros [a n] [b m] (Ea & Eb & Em). cbn [fst snd] in Ea, Eb, Em. subst m. apply sim_ret. repeat split; cbn; auto.
  Qed.

  Lemma named_shows : forall A (nf : A -> A) x n (f g : snapshot -> M (A * snapshot)) s,
    (forall s, sim (f s) (g s) (kept nf x)) -> sim (put_named n f s) (put_named n g s) (kept nf x).
  Proof.
    intros A nf x [n|] f g s H; cbn [put_named]; [|apply H]. eapply sim_bind; [apply H|].
    intros [a n'] [b m] (Ea & Eb & Em). cbn [fst snd] in Ea, Eb, Em. subst m. apply sim_ret. repeat split; auto.
  Qed.

  Lemma activity_shows : forall A (nf : A -> A) x y l sh last (f g : snapshot -> M (A * snapshot)) s,
    nf x = nf y ->
    (forall s, sim (f s) (g s) (kept nf x)) ->
    sim (check_activity l sh last x f s) (check_activity l sh last y g s) (kept nf x).
  Proof.
    intros A nf x y l sh last f g s E H. unfold check_activity. destruct l as [d|]; [|apply H].
    destruct sh; [|apply H]. apply sim_step; [auto with stays|]. intros e. destruct (d <? e); [|apply H].
    apply sim_ret. repeat split; auto.
  Qed.

  (** ** Gauges *)

  Local Notation ng := (norm_gauge t).

  Lemma norm_gauge_inv : forall g h, ng g = ng h ->
    g_name g = g_name h /\ g_descr g = g_descr h /\ g_value g = g_value h
    /\ g_display_time_unit g = g_display_time_unit h /\ g_group_values g = g_group_values h
    /\ option_map (norm_ring bucket_default t) (g_tracking g)
       = option_map (norm_ring bucket_default t) (g_tracking h).
  Proof. intros [] [] E. unfold norm_gauge, gauge_with in E. cbn in *. injection E. auto 10. Qed.

  Lemma next_value_unit : forall g h v o, g_display_time_unit g = g_display_time_unit h ->
    gauge_next_value (W := clock) g v o = gauge_next_value h v o.
  Proof. intros. unfold gauge_next_value. destruct o; try reflexivity. rewrite H. reflexivity. Qed.

  Lemma gauge_track_same : forall r1 r2 v,
    option_map (norm_ring bucket_default t) r1 = option_map (norm_ring bucket_default t) r2 ->
    sim (gauge_track r1 v) (gauge_track r2 v)
      (fun a b => option_map (norm_ring bucket_default t) a = option_map (norm_ring bucket_default t) b).
  Proof.
    intros [b1|] [b2|] v E; cbn [option_map] in E; try discriminate E; cbn [gauge_track].
    - injection E as E. eapply sim_bind.
      + instantiate (1 := fun a b => norm_ring bucket_default t a = norm_ring bucket_default t b).
        intros a b c d E1 E2. split; [|split].
        * exact (current_mut_stays _ _ _ (fun x => bucket_update_stays x v) _ _ _ _ E1).
        * exact (current_mut_stays _ _ _ (fun x => bucket_update_stays x v) _ _ _ _ E2).
        * exact (current_mut_same _ _ _ _ _ _ _ _ _ _ (fun x => bucket_update_stays x v) E E1 E2).
      + intros a b Eab. apply sim_ret. cbn. congruence.
    - apply sim_ret. reflexivity.
  Qed.

  Lemma gauge_with_norm : forall g h v r1 r2, ng g = ng h ->
    option_map (norm_ring bucket_default t) r1 = option_map (norm_ring bucket_default t) r2 ->
    ng (gauge_with g v r1) = ng (gauge_with h v r2).
  Proof.
    intros g h v r1 r2 E Er. apply norm_gauge_inv in E. destruct E as (E1 & E2 & E3 & E4 & E5 & _).
    unfold norm_gauge, gauge_with. cbn. congruence.
  Qed.

  Lemma gauge_set_same : forall g h v, ng g = ng h ->
    sim (gauge_set g v) (gauge_set h v) (fun a b => ng a = ng b).
  Proof.
    intros g h v E. pose proof (norm_gauge_inv _ _ E) as (E1 & E2 & E3 & E4 & E5 & E6). unfold gauge_set.
    rewrite <- E3. destruct (g_value g) as [x|];
      rewrite (next_value_unit g h _ v E4); (apply sim_step; [auto with stays|]); intros [nv|].
    - eapply sim_bind; [apply gauge_track_same; exact E6|]. intros r1 r2 Er. apply sim_ret.
      apply gauge_with_norm; assumption.
    - apply sim_ret. apply gauge_with_norm; assumption.
    - eapply sim_bind; [apply gauge_track_same; exact E6|]. intros r1 r2 Er. apply sim_ret.
      apply gauge_with_norm; assumption.
    - apply sim_ret. apply gauge_with_norm; assumption.
  Qed.

  Lemma gauge_acts : forall g, acts ng gauge_update g.
  Proof.
    intros g h u E. unfold gauge_update. destruct u; try (apply sim_ret; split; [exact E|reflexivity]).
    eapply sim_bind; [apply gauge_set_same; exact E|]. intros a b Eab. apply sim_ret. split; [exact Eab|reflexivity].
  Qed.

  Lemma from_buckets_same : forall b1 b2 v,
    norm_ring bucket_default t b1 = norm_ring bucket_default t b2 ->
    sim (from_buckets b1 v) (from_buckets b2 v) (kept (norm_ring bucket_default t) b1).
  Proof.
    intros b1 b2 v E. unfold from_buckets. eapply sim_bind.
    - instantiate (1 := fun r s => buckets_len (fst r) = buckets_len (fst s) /\ kept (norm_ring bucket_default t) b1 r s).
      intros [a xs] [b ys] c d E1 E2.
      destruct (iter_same _ _ _ _ _ _ _ _ _ _ _ E E1 E2) as (-> & -> & -> & EL & N1 & N2).
      repeat split; cbn; congruence.
    - intros [a xs] [b ys] (EL & Ea & Eb & Ex). cbn [fst snd] in EL, Ea, Eb, Ex. subst ys.
      apply sim_step; [apply stats_fold_stays|]. intros st. rewrite EL.
      destruct (negb (sa_total_count st =? 0)); [|destruct v]; apply sim_ret; repeat split; cbn; congruence.
  Qed.

  Lemma gauge_put_values_same : forall g h s, ng g = ng h ->
    sim (gauge_put_values g s) (gauge_put_values h s) (kept ng g).
  Proof.
    intros g h s E. pose proof (norm_gauge_inv _ _ E) as (E1 & E2 & E3 & E4 & E5 & E6). unfold gauge_put_values.
    rewrite <- E3, <- E5, <- E1. destruct (g_value g) as [x|] eqn:Ev; [|apply sim_ret; repeat split; auto].
    set (q := if g_group_values g then _ else _). destruct q as [into prefix].
    destruct (g_tracking g) as [b1|] eqn:T1, (g_tracking h) as [b2|] eqn:T2; cbn [option_map] in E6;
      try discriminate E6; [|apply sim_ret; repeat split; auto].
    injection E6 as E6. eapply sim_bind; [apply from_buckets_same; exact E6|].
    intros [a st] [b st'] (Ea & Eb & Es). cbn [fst snd] in Ea, Eb, Es. subst st'.
    assert (Na : ng (gauge_with g (Some x) (Some a)) = ng g).
    { unfold norm_gauge, gauge_with. cbn. rewrite Ev, T1. cbn. rewrite Ea. reflexivity. }
    assert (Nb : ng (gauge_with h (Some x) (Some b)) = ng g).
    { rewrite E. unfold norm_gauge, gauge_with. cbn. rewrite <- E3, T2. cbn. rewrite Eb, E6. reflexivity. }
    destruct st; apply sim_ret; repeat split; assumption.
  Qed.

  Lemma gauge_shows : forall g, shows ng gauge_put g.
  Proof.
    intros g h de s E. pose proof (norm_gauge_inv _ _ E) as (E1 & E2 & E3 & E4 & E5 & E6). unfold gauge_put.
    rewrite <- E1, <- E2, <- E5. destruct (g_group_values g).
    - eapply sim_bind; [apply gauge_put_values_same; exact E|].
      intros [a st] [b st'] (Ea & Eb & Es). cbn [fst snd] in Ea, Eb, Es. subst st'. apply sim_ret.
      repeat split; assumption.
    - apply gauge_put_values_same. exact E.
  Qed.

  (** ** Meters *)

  Local Notation nm := (norm_meter t).

  Lemma norm_std_idem : forall s, norm_std t (norm_std t s) = norm_std t s.
  Proof. intros. apply norm_std_norm. lia. Qed.

  Lemma norm_meter_inv : forall m n, nm m = nm n ->
    m_name m = m_name n /\ m_descr m = m_descr n /\ m_lower_cutoff m = m_lower_cutoff n
    /\ m_one_minute m = m_one_minute n /\ m_five_minute m = m_five_minute n
    /\ m_fifteen_minute m = m_fifteen_minute n /\ norm_std t (m_inner m) = norm_std t (m_inner n).
  Proof. intros [] [] E. unfold norm_meter, meter_with in E. cbn in *. injection E. auto 10. Qed.

  Lemma meter_with_norm : forall m n a b s s', nm m = nm n -> norm_std t s = norm_std t s' ->
    nm (meter_with m a s) = nm (meter_with n b s').
  Proof.
    intros m n a b s s' E Es. apply norm_meter_inv in E. destruct E as (E1 & E2 & E3 & E4 & E5 & E6 & _).
    unfold norm_meter, meter_with. cbn. congruence.
  Qed.

  Lemma maybe_tick_keeps : forall m m' c, meter_maybe_tick m k (frozen t) = Ok m' c -> c = frozen t /\ nm m' = nm m.
  Proof.
    intros m m' c E. split; [exact (maybe_tick_stays _ _ _ _ _ E)|]. unfold meter_maybe_tick in E.
    apply bind_ok in E. destruct E as (e & c1 & E1 & E). apply elapsed_stays in E1. subst c1.
    destruct (5 * nanos_per_sec <=? e); [|injection E as <- <-; reflexivity].
    apply bind_ok in E. destruct E as (s & c1 & E1 & E). apply tick_inner_catches_up in E1. destruct E1 as (-> & ->).
    apply bind_ok in E. destruct E as (t' & c1 & _ & E). injection E as <- <-.
    unfold norm_meter, meter_with. cbn. rewrite norm_std_idem. reflexivity.
  Qed.

  Lemma maybe_tick_sim : forall m n, nm m = nm n ->
    sim (meter_maybe_tick m) (meter_maybe_tick n) (fun a b => nm a = nm m /\ nm b = nm m).
  Proof.
    intros m n E a b c d E1 E2. apply maybe_tick_keeps in E1, E2. destruct E1 as (-> & ->), E2 as (-> & ->). auto.
  Qed.

  Lemma mark_same : forall m n v, nm m = nm n -> sim (meter_mark m v) (meter_mark n v) (fun a b => nm a = nm b).
  Proof.
    intros m n v E. pose proof (norm_meter_inv _ _ E) as (_ & _ & _ & _ & _ & _ & Es). unfold meter_mark.
    eapply sim_bind.
    - instantiate (1 := eq). unfold std_mark. eapply sim_bind.
      + instantiate (1 := eq). intros a b c d E1 E2. apply tick_inner_catches_up in E1, E2.
        destruct E1 as (-> & ->), E2 as (-> & ->). auto.
      + intros a b <-. apply sim_same. stay.
    - intros a b <-. apply sim_ret. apply meter_with_norm; auto.
  Qed.

  Lemma meter_acts : forall m, acts nm meter_update m.
  Proof.
    intros m n u E. unfold meter_update. eapply sim_bind; [apply maybe_tick_sim; exact E|].
    intros a b [Ea Eb]. assert (Eab : nm a = nm b) by congruence.
    assert (H : forall v, sim (let* m := meter_mark a v in ret (m, 1)) (let* m := meter_mark b v in ret (m, 1)) (alike nm)).
    { intros v. eapply sim_bind; [apply mark_same; exact Eab|]. intros x y Exy. apply sim_ret. split; auto. }
    destruct u as [x ts|ts|v ts]; auto. destruct ((x <=? i64_max) && negb (x =? 0)); auto.
    apply sim_ret. split; auto.
  Qed.

  Lemma get_snapshot_same : forall m n, nm m = nm n ->
    sim (meter_get_snapshot m) (meter_get_snapshot n) (kept nm m).
  Proof.
    intros m n E. unfold meter_get_snapshot. eapply sim_bind; [apply maybe_tick_sim; exact E|].
    intros a b [Ea Eb]. assert (Eab : nm a = nm b) by congruence.
    pose proof (norm_meter_inv _ _ Eab) as (E1 & E2 & E3 & E4 & E5 & E6 & Es).
    eapply sim_bind.
    - instantiate (1 := fun r s => fst r = norm_std t (m_inner a) /\ r = s).
      unfold std_snapshot. eapply sim_bind.
      + instantiate (1 := fun x y => x = norm_std t (m_inner a) /\ x = y). intros x y c d F1 F2.
        apply tick_inner_catches_up in F1, F2. destruct F1 as (-> & ->), F2 as (-> & ->). auto.
      + intros x y [-> <-]. apply sim_step; [auto with stays|]. intros mean. apply sim_ret. auto.
    - intros [x st] [y st'] [Ex Exy]. injection Exy as <- <-. cbn [fst] in Ex. subst x. cbn [meter_with m_lower_cutoff
        m_one_minute m_five_minute m_fifteen_minute]. rewrite <- E3, <- E4, <- E5, <- E6.
      apply sim_ret. repeat split; cbn [fst].
      + rewrite <- Ea. unfold norm_meter, meter_with. cbn. rewrite norm_std_idem. reflexivity.
      + rewrite <- Eb. unfold norm_meter, meter_with. cbn. rewrite norm_std_idem, Es. reflexivity.
  Qed.

  Lemma meter_shows : forall m, shows nm meter_put m.
  Proof.
    intros m n de s E. unfold meter_put. eapply sim_bind; [apply get_snapshot_same; exact E|].
    intros [a st] [b st'] (Ea & Eb & Es). cbn [fst snd] in Ea, Eb, Es. subst st'.
    assert (Eab : nm a = nm b) by congruence. destruct (norm_meter_inv _ _ Eab) as (E1 & E2 & _).
    rewrite E1, E2. apply sim_ret. repeat split; auto.
  Qed.

  Local Notation nv := (norm_value_meter t).

  Lemma norm_value_meter_inv : forall m n, nv m = nv n ->
    nm (vm_meter m) = nm (vm_meter n) /\ vm_display_time_unit m = vm_display_time_unit n.
  Proof. intros m n E. split; [exact (f_equal vm_meter E)|exact (f_equal vm_display_time_unit E)]. Qed.

  Lemma norm_value_meter_intro : forall m n u u', nm m = nm n -> u = u' -> nv (ValueMeter m u) = nv (ValueMeter n u').
  Proof. intros. unfold norm_value_meter. cbn. congruence. Qed.

  Lemma value_meter_acts : forall m, acts nv value_meter_update m.
  Proof.
    intros m n u E. destruct (norm_value_meter_inv _ _ E) as [E1 E2]. unfold value_meter_update.
    assert (H : forall v, sim (let* x := meter_mark (vm_meter m) v in ret (ValueMeter x (vm_display_time_unit m), 1))
                            (let* x := meter_mark (vm_meter n) v in ret (ValueMeter x (vm_display_time_unit n), 1))
                            (alike nv)).
    { intros v. eapply sim_bind; [apply mark_same; exact E1|]. intros x y Exy. apply sim_ret.
      split; [|reflexivity]. apply norm_value_meter_intro; assumption. }
    assert (Hn : sim (ret (m, 0)) (ret (n, 0)) (alike nv)) by (apply sim_ret; split; auto).
    destruct u as [x ts|ts|v ts]; auto.
    destruct v; try (destruct (convert_to_i64 _); auto; fail).
    rewrite <- E2 at 1. apply sim_step; [auto with stays|]. intros d. apply H.
  Qed.

  Lemma value_meter_shows : forall m, shows nv value_meter_put m.
  Proof.
    intros m n de s E. destruct (norm_value_meter_inv _ _ E) as [E1 E2]. unfold value_meter_put.
    eapply sim_bind; [apply meter_shows; exact E1|].
    intros [a st] [b st'] (Ea & Eb & Es). cbn [fst snd] in Ea, Eb, Es. subst st'. apply sim_ret.
    repeat split; cbn [fst]; unfold norm_value_meter in *; cbn; congruence.
  Qed.
End Sim.

(** ** Instruments *)

Section Instruments.
  Variables (k : cfg) (t : Z).
  Context {X : ext} (HX : parts_quiet X).

  Definition norm_instrument (i : instrument X) : instrument X :=
    match i with
    | IGauge g => IGauge (norm_gauge t g)
    | IMeter m => IMeter (norm_meter t m)
    | IValueMeter m => IValueMeter (norm_value_meter t m)
    | _ => i
    end.
  Local Notation ni := norm_instrument.

  Lemma IGauge_inj : forall a b, IGauge (X := X) a = IGauge b -> a = b.
  Proof. intros a b E. injection E. auto. Qed.
  Lemma IMeter_inj : forall a b, IMeter (X := X) a = IMeter b -> a = b.
  Proof. intros a b E. injection E. auto. Qed.
  Lemma IValueMeter_inj : forall a b, IValueMeter (X := X) a = IValueMeter b -> a = b.
  Proof. intros a b E. injection E. auto. Qed.

  Lemma instrument_acts : forall i, acts k t ni instrument_update i.
  Proof.
    intros i j u E.
    assert (Hs : forall l : instrument X, stays (instrument_update l u)) by (intros; apply instrument_update_stays; exact HX).
    destruct i, j; cbn [norm_instrument] in E; try discriminate E;
      try (injection E as <-; eapply sim_weak; [apply sim_same; apply Hs|]; intros a b <-; split; reflexivity);
      cbn [instrument_update].
    - apply IGauge_inj in E. eapply wrap_acts with (nf := norm_gauge t); [cbn; congruence|apply gauge_acts; exact E].
    - apply IMeter_inj in E. eapply wrap_acts with (nf := norm_meter t); [cbn; congruence|apply meter_acts; exact E].
    - apply IValueMeter_inj in E. eapply wrap_acts with (nf := norm_value_meter t); [cbn; congruence|apply value_meter_acts; exact E].
  Qed.

  Lemma wrap_ok : forall A B C (f : A -> B) (m : M (A * C)) kk c r c', wrap f m kk c = Ok r c' ->
    exists a, m kk c = Ok (a, snd r) c' /\ fst r = f a.
  Proof.
    intros A B C f m kk c r c' E. unfold wrap in E. apply bind_ok in E. destruct E as ([a x] & c1 & E1 & E).
    injection E as <- <-. exists a. auto.
  Qed.

  Lemma keep_ok : forall A C (a : A) (m : M C) kk c r c', keep a m kk c = Ok r c' -> fst r = a.
  Proof.
    intros A C a m kk c r c' E. unfold keep in E. apply bind_ok in E. destruct E as (x & c1 & E1 & E).
    injection E as <- <-. reflexivity.
  Qed.

  Lemma instrument_shows : forall i, shows k t ni instrument_put i.
  Proof.
    intros i j de s E.
    assert (Hs : forall l : instrument X, stays (instrument_put l de s)) by (intros; apply instrument_put_stays; exact HX).
    destruct i, j; cbn [norm_instrument] in E; try discriminate E.
    2:{ apply IGauge_inj in E. cbn [instrument_put]. eapply wrap_shows with (nf := norm_gauge t); [cbn; congruence|apply gauge_shows; exact E]. }
    2:{ apply IMeter_inj in E. cbn [instrument_put]. eapply wrap_shows with (nf := norm_meter t); [cbn; congruence|apply meter_shows; exact E]. }
    2:{ apply IValueMeter_inj in E. cbn [instrument_put]. eapply wrap_shows with (nf := norm_value_meter t);
          [cbn; congruence|apply value_meter_shows; exact E]. }
    all: injection E as E; subst; intros a b c d E1 E2; rewrite E1 in E2; injection E2 as <- <-;
      pose proof (Hs _ _ _ _ _ E1) as ->; (split; [reflexivity|split; [reflexivity|]]);
      cbn [instrument_put] in E1.
    all: try (apply keep_ok in E1; repeat split; rewrite E1; reflexivity).
    apply wrap_ok in E1. destruct E1 as (x & E1 & E2). apply (pq_instr_same X HX) in E1. subst x.
    repeat split; rewrite E2; reflexivity.
  Qed.

  (** ** Adapters *)

  Definition norm_adapter {I} (nf : I -> I) (a : adapter X I) : adapter X I := adapter_with a (nf (ad_instrument a)).

  Lemma norm_adapter_inv : forall I (nf : I -> I) (a b : adapter X I), norm_adapter nf a = norm_adapter nf b ->
    ad_filter a = ad_filter b /\ ad_modify a = ad_modify b /\ nf (ad_instrument a) = nf (ad_instrument b).
  Proof.
    intros I nf a b E. repeat split; [exact (f_equal ad_filter E)|exact (f_equal ad_modify E)|exact (f_equal ad_instrument E)].
  Qed.

  Lemma norm_adapter_with : forall I (nf : I -> I) (a b : adapter X I) i j,
    norm_adapter nf a = norm_adapter nf b -> nf i = nf j ->
    norm_adapter nf (adapter_with a i) = norm_adapter nf (adapter_with b j).
  Proof.
    intros I nf a b i j E Ei. apply norm_adapter_inv in E. destruct E as (E1 & E2 & _).
    unfold norm_adapter, adapter_with. cbn. congruence.
  Qed.

  Lemma adapter_acts : forall I (nf : I -> I) upd (a : adapter X I), (forall i, acts k t nf upd i) ->
    acts k t (norm_adapter nf) (adapter_handle upd) a.
  Proof.
    intros I nf upd a H b o E. pose proof (norm_adapter_inv _ _ _ _ E) as (E1 & E2 & E3). unfold adapter_handle.
    rewrite <- E1, <- E2. destruct (negb (accepts (lab_eqb X) (ad_filter a) (obs_label o))).
    - apply sim_ret. split; auto.
    - destruct (split_observation o) as [l u]. eapply sim_bind; [apply H; exact E3|].
      intros [i n] [j m] [Ei En]. cbn [fst snd] in Ei, En. subst m. apply sim_ret. split; [|reflexivity].
      apply norm_adapter_with; assumption.
  Qed.

  Lemma adapter_shows : forall I (nf : I -> I) put (a : adapter X I), (forall i, shows k t nf put i) ->
    shows k t (norm_adapter nf) (adapter_put put) a.
  Proof.
    intros I nf put a H b de s E. pose proof (norm_adapter_inv _ _ _ _ E) as (E1 & E2 & E3). unfold adapter_put.
    eapply sim_bind; [apply H; exact E3|].
    intros [i n] [j m] (Ei & Ej & En). cbn [fst snd] in Ei, Ej, En. subst m. apply sim_ret.
    unfold norm_adapter, adapter_with. repeat split; cbn; congruence.
  Qed.

  Definition norm_ga {L} (a : gauge_adapter L) : gauge_adapter L := ga_with a (norm_gauge t (ga_gauge a)).

  Lemma norm_ga_inv : forall L (a b : gauge_adapter L), norm_ga a = norm_ga b ->
    ga_strategy a = ga_strategy b /\ ga_modify_update a = ga_modify_update b
    /\ norm_gauge t (ga_gauge a) = norm_gauge t (ga_gauge b).
  Proof.
    intros L a b E. repeat split; [exact (f_equal ga_strategy E)|exact (f_equal ga_modify_update E)|exact (f_equal ga_gauge E)].
  Qed.

  Lemma ga_acts : forall (a : gauge_adapter (lab X)), acts k t norm_ga (ga_handle (lab_eqb X)) a.
  Proof.
    intros a b o E. pose proof (norm_ga_inv _ _ _ E) as (E1 & E2 & E3). unfold ga_handle.
    assert (H : forall u, sim k t (let* '(g, n) := gauge_update (ga_gauge a) u in ret (ga_with a g, n))
                            (let* '(g, n) := gauge_update (ga_gauge b) u in ret (ga_with b g, n)) (alike norm_ga)).
    { intros u. eapply sim_bind; [apply gauge_acts; exact E3|]. intros [i n] [j m] [Ei En].
      cbn [fst snd] in Ei, En. subst m. apply sim_ret. split; [|reflexivity].
      unfold norm_ga, ga_with. cbn. congruence. }
    assert (H0 : sim k t (ret (a, 0)) (ret (b, 0)) (alike norm_ga)) by (apply sim_ret; split; auto).
    destruct (split_observation o) as [l u]. rewrite <- E1, <- E2. destruct (ga_strategy a) as [f|f|inc dec].
    - destruct (negb (accepts (lab_eqb X) f l)); auto.
    - destruct (negb (accepts (lab_eqb X) f l)); auto.
      destruct (modify (ga_modify_update a) l u) as [| |v ts] eqn:Em; auto. destruct v; auto.
    - destruct (accepts (lab_eqb X) inc l); [apply H|]. destruct (accepts (lab_eqb X) dec l); auto.
  Qed.

  Lemma ga_shows : forall (a : gauge_adapter (lab X)), shows k t norm_ga ga_put a.
  Proof.
    intros a b de s E. pose proof (norm_ga_inv _ _ _ E) as (E1 & E2 & E3). unfold ga_put.
    eapply sim_bind; [apply gauge_shows; exact E3|].
    intros [i n] [j m] (Ei & Ej & En). cbn [fst snd] in Ei, Ej, En. subst m. apply sim_ret.
    unfold norm_ga, ga_with. repeat split; cbn; congruence.
  Qed.

  (** ** Trees *)

  Definition norm_slots (sl : slots X) : slots X :=
    Slots (option_map (norm_adapter (fun i => i)) (sl_counter sl)) (option_map norm_ga (sl_gauge sl))
      (option_map (norm_adapter (norm_meter t)) (sl_meter sl))
      (option_map (norm_adapter (fun i => i)) (sl_histogram sl)).

  Lemma norm_slots_inv : forall a b, norm_slots a = norm_slots b ->
    option_map (norm_adapter (fun i => i)) (sl_counter a) = option_map (norm_adapter (fun i => i)) (sl_counter b)
    /\ option_map norm_ga (sl_gauge a) = option_map norm_ga (sl_gauge b)
    /\ option_map (norm_adapter (norm_meter t)) (sl_meter a) = option_map (norm_adapter (norm_meter t)) (sl_meter b)
    /\ option_map (norm_adapter (fun i => i)) (sl_histogram a)
       = option_map (norm_adapter (fun i => i)) (sl_histogram b).
  Proof.
    intros a b E. repeat split; [exact (f_equal sl_counter E)|exact (f_equal sl_gauge E)|exact (f_equal sl_meter E)
      |exact (f_equal sl_histogram E)].
  Qed.

  Lemma slots_act : forall a b o acc, norm_slots a = norm_slots b ->
    sim k t (slots_handle a o acc) (slots_handle b o acc) (alike norm_slots).
  Proof.
    intros a b o acc E. apply norm_slots_inv in E. destruct E as (E1 & E2 & E3 & E4). unfold slots_handle.
    eapply sim_bind.
    { apply traverse_opt_acts with (nf := norm_adapter (fun i => i)); [|exact E1]. intros x y Exy.
      apply adapter_acts; [|exact Exy]. intros i. apply acts_id. auto with stays. }
    intros [x1 n] [y1 m] [N1 En]. cbn [fst snd] in N1, En. subst m.
    eapply sim_bind.
    { apply traverse_opt_acts with (nf := norm_ga); [|exact E2]. intros x y Exy. apply ga_acts. exact Exy. }
    intros [x2 n2] [y2 m] [N2 En]. cbn [fst snd] in N2, En. subst m.
    eapply sim_bind.
    { apply traverse_opt_acts with (nf := norm_adapter (norm_meter t)); [|exact E3]. intros x y Exy.
      apply adapter_acts; [|exact Exy]. apply meter_acts. }
    intros [x3 n3] [y3 m] [N3 En]. cbn [fst snd] in N3, En. subst m.
    eapply sim_bind.
    { apply traverse_opt_acts with (nf := norm_adapter (fun i => i)); [|exact E4]. intros x y Exy.
      apply adapter_acts; [|exact Exy]. intros i. apply acts_id. intros. apply histogram_update_stays. exact HX. }
    intros [x4 n4] [y4 m] [N4 En]. cbn [fst snd] in N4, En. subst m.
    apply sim_ret. split; [|reflexivity]. unfold norm_slots. cbn. congruence.
  Qed.

  Lemma slots_show : forall de a b s, norm_slots a = norm_slots b ->
    sim k t (slots_put de a s) (slots_put de b s) (kept norm_slots a).
  Proof.
    intros de a b s E. apply norm_slots_inv in E. destruct E as (E1 & E2 & E3 & E4). unfold slots_put.
    eapply sim_bind.
    { apply traverse_opt_shows with (nf := norm_adapter (fun i => i)); [|exact E1]. intros x.
      apply adapter_shows. intros i. apply shows_id; [auto with stays|].
      apply (keep_unchanged _ (fun i d s => ret (counter_put i d s))). }
    intros [x1 n] [y1 m] (N1 & M1 & En). cbn [fst snd] in N1, M1, En. subst m.
    eapply sim_bind.
    { apply traverse_opt_shows with (nf := norm_ga); [|exact E2]. apply ga_shows. }
    intros [x2 n2] [y2 m] (N2 & M2 & En). cbn [fst snd] in N2, M2, En. subst m.
    eapply sim_bind.
    { apply traverse_opt_shows with (nf := norm_adapter (norm_meter t)); [|exact E3]. intros x.
      apply adapter_shows. apply meter_shows. }
    intros [x3 n3] [y3 m] (N3 & M3 & En). cbn [fst snd] in N3, M3, En. subst m.
    eapply sim_bind.
    { apply traverse_opt_shows with (nf := norm_adapter (fun i => i)); [|exact E4]. intros x.
      apply adapter_shows. intros i. apply shows_id.
      - intros. apply stays_keep. apply histogram_put_stays.
      - apply (keep_unchanged _ (fun i d s => histogram_put i d s)). }
    intros [x4 n4] [y4 m] (N4 & M4 & En). cbn [fst snd] in N4, M4, En. subst m.
    apply sim_ret. unfold norm_slots. repeat split; cbn; congruence.
  Qed.

  Lemma Panel_inj : forall d sl ps hs (ss : list (snapshooter X)) d' sl' ps' hs' ss',
    Panel d sl ps hs ss = Panel d' sl' ps' hs' ss' -> d = d' /\ sl = sl' /\ ps = ps' /\ hs = hs' /\ ss = ss'.
  Proof. intros d sl ps hs ss d' sl' ps' hs' ss' E. injection E. auto 10. Qed.
  Lemma HInstrument_inj : forall a b, HInstrument (X := X) a = HInstrument b -> a = b.
  Proof. intros a b E. injection E. auto. Qed.
  Lemma HGauge_inj : forall a b, HGauge (X := X) a = HGauge b -> a = b.
  Proof. intros a b E. injection E. auto. Qed.
  Lemma SInstrument_inj : forall a b, SInstrument (X := X) a = SInstrument b -> a = b.
  Proof. intros a b E. injection E. auto. Qed.

  Fixpoint norm_panel (p : panel X) {struct p} : panel X :=
    match p with
    | Panel d sl ps hs ss =>
        Panel d (norm_slots sl) (map norm_panel ps) (map norm_handler hs) (map norm_snapshooter ss)
    end
  with norm_handler (h : handler X) {struct h} : handler X :=
    match h with
    | HInstrument a => HInstrument (norm_adapter norm_instrument a)
    | HGauge a => HGauge (norm_ga a)
    | HPanel p => HPanel (norm_panel p)
    | HCockpit c => HCockpit (norm_cockpit c)
    | HUser u => HUser u
    end
  with norm_cockpit (c : cockpit X) {struct c} : cockpit X :=
    match c with
    | Cockpit d ps hs ss => Cockpit d (map norm_panel ps) (map norm_handler hs) (map norm_snapshooter ss)
    end
  with norm_snapshooter (s : snapshooter X) {struct s} : snapshooter X :=
    match s with
    | SConstant v => SConstant v
    | SPolled n d g poll => SPolled n d g (norm_snapshooter poll)
    | SInstrument i => SInstrument (norm_instrument i)
    | SHandler h => SHandler (norm_handler h)
    | SUser u => SUser u
    end.

  Lemma tree_acts :
    (forall p, acts k t norm_panel panel_handle p)
    /\ (forall h, acts k t norm_handler handler_handle h)
    /\ (forall c, acts k t norm_cockpit cockpit_handle c)
    /\ (forall s : snapshooter X, True).
  Proof.
    apply tree_ind; auto.
    - intros d sl ps hs ss Hp Hh _ [d' sl' ps' hs' ss'] o E. cbn [norm_panel] in E.
      apply Panel_inj in E. destruct E as (<- & Esl & Eps & Ehs & Ess). rewrite !panel_handle_eq.
      destruct (negb (accepts (lab_eqb X) (pd_filter d) (obs_label o))).
      + apply sim_ret. split; [|reflexivity]. cbn [fst norm_panel]. congruence.
      + eapply sim_bind; [apply slots_act; exact Esl|].
        intros [sl1 n] [sl2 m] [N1 En]. cbn [fst snd] in N1, En. subst m.
        eapply sim_bind; [apply traverse_acts with (nf := norm_panel); [|exact Eps]; eapply Forall_impl; [|exact Hp];
          intros x Hx y Exy; exact (Hx y o Exy)|].
        intros [ps1 n1] [ps2 m] [N2 En]. cbn [fst snd] in N2, En. subst m.
        eapply sim_bind; [apply traverse_acts with (nf := norm_handler); [|exact Ehs]; eapply Forall_impl; [|exact Hh];
          intros x Hx y Exy; exact (Hx y o Exy)|].
        intros [hs1 n2] [hs2 m] [N3 En]. cbn [fst snd] in N3, En. subst m.
        apply sim_ret. split; [|reflexivity]. cbn [fst norm_panel]. congruence.
    - intros a [b| | | |] o E; cbn [norm_handler] in E; try discriminate E. apply HInstrument_inj in E. cbn [handler_handle].
      eapply wrap_acts with (nf := norm_adapter norm_instrument); [cbn; congruence|].
      apply adapter_acts; [apply instrument_acts|exact E].
    - intros a [|b| | |] o E; cbn [norm_handler] in E; try discriminate E. apply HGauge_inj in E. cbn [handler_handle].
      eapply wrap_acts with (nf := norm_ga); [cbn; congruence|]. apply ga_acts. exact E.
    - intros p Hp [| |q| |] o E; cbn [norm_handler] in E; try discriminate E. injection E as E.
      change (sim k t (wrap HPanel (panel_handle p o)) (wrap HPanel (panel_handle q o)) (alike norm_handler)).
      eapply wrap_acts with (nf := norm_panel); [|apply Hp; exact E].
      intros x y Exy. cbn [norm_handler]. congruence.
    - intros c Hc [| | |q|] o E; cbn [norm_handler] in E; try discriminate E. injection E as E.
      change (sim k t (wrap HCockpit (cockpit_handle c o)) (wrap HCockpit (cockpit_handle q o)) (alike norm_handler)).
      eapply wrap_acts with (nf := norm_cockpit); [|apply Hc; exact E].
      intros x y Exy. cbn [norm_handler]. congruence.
    - intros u [| | | |v] o E; cbn [norm_handler] in E; try discriminate E. injection E as <-. cbn [handler_handle].
      eapply sim_weak; [apply sim_same; apply stays_wrap; apply (pq_handler_handle X HX)|].
      intros x y <-. split; reflexivity.
    - intros d ps hs ss Hp Hh _ [d' ps' hs' ss'] o E. cbn [norm_cockpit] in E.
      injection E as <- Eps Ehs Ess. rewrite !cockpit_handle_eq.
      apply sim_step; [apply stays_now|]. intros t0.
      eapply sim_bind; [apply traverse_acts with (nf := norm_handler); [|exact Ehs]; eapply Forall_impl; [|exact Hh];
        intros x Hx y Exy; exact (Hx y o Exy)|].
      intros [hs1 n2] [hs2 m] [N3 En]. cbn [fst snd] in N3, En. subst m.
      eapply sim_bind; [apply traverse_acts with (nf := norm_panel); [|exact Eps]; eapply Forall_impl; [|exact Hp];
        intros x Hx y Exy; exact (Hx y o Exy)|].
      intros [ps1 n1] [ps2 m] [N2 En]. cbn [fst snd] in N2, En. subst m.
      apply sim_ret. split; [|reflexivity]. cbn [fst norm_cockpit]. congruence.
  Qed.

  Lemma tree_shows :
    (forall p, shows k t norm_panel panel_put p)
    /\ (forall h, shows k t norm_handler handler_put h)
    /\ (forall c, shows k t norm_cockpit cockpit_put c)
    /\ (forall s, shows k t norm_snapshooter snapshooter_put s).
  Proof.
    apply tree_ind.
    - intros d sl ps hs ss Hp Hh Hs [d' sl' ps' hs' ss'] de s E. pose proof E as E0. cbn [norm_panel] in E.
      apply Panel_inj in E. destruct E as (<- & Esl & Eps & Ehs & Ess). rewrite !panel_put_eq.
      apply named_shows. intros s1. apply activity_shows; [exact E0|]. intros s2.
      eapply sim_bind; [apply slots_show; exact Esl|].
      intros [sl1 n] [sl2 m] (N1 & M1 & En). cbn [fst snd] in N1, M1, En. subst m.
      eapply sim_bind; [apply traverse_shows with (nf := norm_panel); [exact Hp|exact Eps]|].
      intros [ps1 n1] [ps2 m] (N2 & M2 & En). cbn [fst snd] in N2, M2, En. subst m.
      eapply sim_bind; [apply traverse_shows with (nf := norm_snapshooter); [exact Hs|exact Ess]|].
      intros [ss1 n2] [ss2 m] (N3 & M3 & En). cbn [fst snd] in N3, M3, En. subst m.
      eapply sim_bind; [apply traverse_shows with (nf := norm_handler); [exact Hh|exact Ehs]|].
      intros [hs1 n3] [hs2 m] (N4 & M4 & En). cbn [fst snd] in N4, M4, En. subst m.
      apply sim_ret. repeat split; cbn [fst norm_panel]; congruence.
    - intros a [b| | | |] de s E; cbn [norm_handler] in E; try discriminate E. apply HInstrument_inj in E. cbn [handler_put].
      eapply wrap_shows with (nf := norm_adapter norm_instrument); [cbn; congruence|].
      apply adapter_shows; [apply instrument_shows|exact E].
    - intros a [|b| | |] de s E; cbn [norm_handler] in E; try discriminate E. apply HGauge_inj in E. cbn [handler_put].
      eapply wrap_shows with (nf := norm_ga); [cbn; congruence|]. apply ga_shows. exact E.
    - intros p Hp [| |q| |] de s E; cbn [norm_handler] in E; try discriminate E. injection E as E.
      change (sim k t (wrap HPanel (panel_put p de s)) (wrap HPanel (panel_put q de s)) (kept norm_handler (HPanel p))).
      eapply wrap_shows with (nf := norm_panel); [|apply Hp; exact E].
      intros x y Exy. cbn [norm_handler]. congruence.
    - intros c Hc [| | |q|] de s E; cbn [norm_handler] in E; try discriminate E. injection E as E.
      change (sim k t (wrap HCockpit (cockpit_put c de s)) (wrap HCockpit (cockpit_put q de s))
                (kept norm_handler (HCockpit c))).
      eapply wrap_shows with (nf := norm_cockpit); [|apply Hc; exact E].
      intros x y Exy. cbn [norm_handler]. congruence.
    - intros u [| | | |v] de s E; cbn [norm_handler] in E; try discriminate E. injection E as <-. cbn [handler_put].
      eapply wrap_shows with (nf := fun u => u); [intros x y <-; reflexivity|].
      apply shows_id; [apply (pq_handler_put X HX)|apply (pq_handler_same X HX)|reflexivity].
    - intros d ps hs ss Hp Hh Hs [d' ps' hs' ss'] de s E. pose proof E as E0. cbn [norm_cockpit] in E.
      injection E as <- Eps Ehs Ess. rewrite !cockpit_put_eq.
      apply named_shows. intros s1. apply activity_shows; [exact E0|]. intros s2.
      eapply sim_bind; [apply traverse_shows with (nf := norm_panel); [exact Hp|exact Eps]|].
      intros [ps1 n1] [ps2 m] (N2 & M2 & En). cbn [fst snd] in N2, M2, En. subst m.
      eapply sim_bind; [apply traverse_shows with (nf := norm_handler); [exact Hh|exact Ehs]|].
      intros [hs1 n3] [hs2 m] (N4 & M4 & En). cbn [fst snd] in N4, M4, En. subst m.
      eapply sim_bind; [apply traverse_shows with (nf := norm_snapshooter); [exact Hs|exact Ess]|].
      intros [ss1 n2] [ss2 m] (N3 & M3 & En). cbn [fst snd] in N3, M3, En. subst m.
      apply sim_ret. repeat split; cbn [fst norm_cockpit]; congruence.
    - intros v [w| | | |] de s E; cbn [norm_snapshooter] in E; try discriminate E. injection E as <-.
      cbn [snapshooter_put]. apply sim_ret. repeat split.
    - intros n d g x Hx [|n' d' g' y| | |] de s E; cbn [norm_snapshooter] in E; try discriminate E.
      injection E as <- <- <- E.
      change (sim k t (wrap (SPolled n d g) (polled_put (snapshooter_put x) n d g de s))
                (wrap (SPolled n d g) (polled_put (snapshooter_put y) n d g de s)) (kept norm_snapshooter (SPolled n d g x))).
      eapply wrap_shows with (nf := norm_snapshooter); [intros a b Eab; cbn [norm_snapshooter]; congruence|].
      unfold polled_put. destruct g; [|apply Hx; exact E]. eapply sim_bind; [apply Hx; exact E|].
      intros [a n1] [b m] (Ea & Eb & Em). cbn [fst snd] in Ea, Eb, Em. subst m. apply sim_ret. repeat split; auto.
    - intros i [| |j| |] de s E; cbn [norm_snapshooter] in E; try discriminate E. apply SInstrument_inj in E.
      cbn [snapshooter_put]. eapply wrap_shows with (nf := norm_instrument); [cbn; congruence|].
      apply instrument_shows. exact E.
    - intros h Hh [| | |j|] de s E; cbn [norm_snapshooter] in E; try discriminate E. injection E as E.
      change (sim k t (wrap SHandler (handler_put h de s)) (wrap SHandler (handler_put j de s))
                (kept norm_snapshooter (SHandler h))).
      eapply wrap_shows with (nf := norm_handler); [|apply Hh; exact E].
      intros x y Exy. cbn [norm_snapshooter]. congruence.
    - intros u [| | | |v] de s E; cbn [norm_snapshooter] in E; try discriminate E. injection E as <-.
      cbn [snapshooter_put]. eapply wrap_shows with (nf := fun u => u); [intros x y <-; reflexivity|].
      apply shows_id; [apply (pq_snap_put X HX)|apply (pq_snap_same X HX)|reflexivity].
  Qed.
End Instruments.
