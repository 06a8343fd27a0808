From Coq Require Import ZArith Bool String List Lia ZifyBool.
From Verif Require Import Base SpecRun MonadFacts SpecClock ClockProofs SpecCounting SpecGauge SpecMeter ModelObservation ModelLabelFilter
  ModelSnapshot ModelBuckets ModelCounter ModelGauge ModelMeter ModelHistogram ModelInstrument ModelTree SpecNames SpecTree SpecSite SpecLife
  CounterProofs GaugeProofs MeterProofs MeterHistoryProofs WritingProofs.
Import ListNotations.
Open Scope Z_scope.

Lemma taken_modify : forall L (m : update_modifier L) (o : observation L),
  modify m (obs_label o) (snd (split_observation o)) = taken_as m o.
Proof. intros L m [l n t|l t|l v t]; destruct m; reflexivity. Qed.

Lemma texts_only : forall seen a t, SpecWriting.adds_texts seen a t -> a = [] -> Forall (fun e => exists x, snd e = Text x) t.
Proof. intros seen a t H. induction H; intros Ha; [constructor | discriminate Ha | constructor; cbn; eauto]. Qed.

(** ** Counters *)

Section Lives.
  Context {X : ext}.

  Lemma counter_life : forall k c (ct : counter) m os (x' : leaf X) c',
    leaf_life k c (LInstrument (ICounter ct) m) os x' c' -> in_u64 (c_count ct) ->
    x' = LInstrument (ICounter (Counter (c_name ct) (c_descr ct) ((c_count ct + total (map (taken_as m) os)) mod two64))) m
    /\ (overflow_checks k = true -> Forall update_ok (map (taken_as m) os) -> c_count ct + total (map (taken_as m) os) <= u64_max).
  Proof.
    intros k c ct m os x' c' H. remember (LInstrument (ICounter ct) m) as x eqn:Ex. revert ct Ex.
    induction H as [c x c' L|c c0 o x x1 n c1 os x2 c2 L E H IH|c c0 x de into x1 s c1 os x2 c2 L E H IH]; intros ct -> Hin.
    - cbn [map]. change (total []) with 0. rewrite Z.add_0_r. unfold in_u64 in Hin. split; [|intros; lia].
      rewrite Z.mod_small by lia. destruct ct; reflexivity.
    - cbn [leaf_handle] in E. rewrite taken_modify in E.
      apply bind_ok in E. destruct E as ([i n1] & c3 & E1 & E). injection E as <- <- <-.
      cbn [instrument_update] in E1. unfold wrap in E1. apply bind_ok in E1. destruct E1 as ([ct1 n2] & c4 & E2 & E1). injection E1 as <- <- <-.
      rewrite counter_update_eq in E2. apply bind_ok in E2. destruct E2 as (v & c5 & E3 & E2). injection E2 as <- <- <-.
      apply u64_arith_inv in E3. destruct E3 as (-> & -> & Hc).
      destruct (IH _ eq_refl) as (-> & Hc2).
      { cbn [c_count]. unfold in_u64, wrap_u64. pose proof (Z.mod_pos_bound (c_count ct + occurrences (taken_as m o)) two64 eq_refl). lia. }
      cbn [c_name c_descr c_count map] in *. rewrite total_cons. split.
      + do 3 f_equal. unfold wrap_u64. rewrite Z.add_mod_idemp_l by discriminate. f_equal. lia.
      + intros Ho Hok. inversion Hok; subst. specialize (Hc Ho). specialize (Hc2 Ho ltac:(assumption)).
        unfold wrap_u64 in Hc2. rewrite Z.mod_small in Hc2 by lia. lia.
    - cbn [leaf_put instrument_put] in E. apply bind_ok in E. destruct E as ([i s1] & c3 & E1 & E). injection E as <- <- <-.
      unfold keep in E1. apply bind_ok in E1. destruct E1 as (s2 & c4 & E2 & E1). injection E2 as <- <-. injection E1 as <- <- <-.
      exact (IH _ eq_refl Hin).
  Qed.

  Lemma counter_fields : forall (ct : counter) m de into k c (x' : leaf X) fields c',
    leaf_put (LInstrument (ICounter ct) m) de into k c = Ok (x', into ++ fields) c' ->
    x' = LInstrument (ICounter ct) m /\ In (c_name ct, UInt (c_count ct)) fields.
  Proof.
    intros ct m de into k c x' fields c' E. cbn [leaf_put instrument_put] in E.
    apply bind_ok in E. destruct E as ([i s1] & c3 & E1 & E). unfold keep in E1.
    apply bind_ok in E1. destruct E1 as (s2 & c4 & E2 & E1). injection E2 as <- <-. injection E1 as <- <- <-.
    injection E as <- E <-. split; [reflexivity|].
    assert (T : exists texts, put_postfixed_descriptives (c_descr ct) (c_name ct) into de = into ++ texts).
    { destruct de; [|exists []; rewrite app_nil_r; reflexivity]. destruct (postfixed_added (c_descr ct) (c_name ct) into) as (t & Et & _). eauto. }
    destruct T as (texts & T). unfold counter_put, push in E. rewrite T, <- app_assoc in E. apply app_inv_head in E. subst fields.
    apply in_or_app. right. left. reflexivity.
  Qed.

  (** ** Gauges *)

  Lemma gauge_put_same : forall g de into k c g' s c', gauge_put g de into k c = Ok (g', s) c' ->
    same_gauge g g' /\ g_value g' = g_value g.
  Proof.
    assert (V : forall g into k c g' s c', gauge_put_values g into k c = Ok (g', s) c' -> same_gauge g g' /\ g_value g' = g_value g).
    { intros g into k c g' s c' E. unfold gauge_put_values in E. destruct (g_value g) as [z|] eqn:Ev; [|injection E as <- <- <-; repeat split; exact Ev].
      destruct (g_group_values g); (destruct (g_tracking g) as [b|]; [|injection E as <- <- <-; repeat split; exact Ev]);
        apply bind_ok in E; destruct E as ([b' [st|]] & c1 & _ & E); injection E as <- <- <-; repeat split. }
    intros g de into k c g' s c' E. unfold gauge_put in E. cbv zeta in E. destruct (g_group_values g) eqn:Eg; [|exact (V _ _ _ _ _ _ _ E)].
    apply bind_ok in E. destruct E as ([g1 l] & c1 & E1 & E). injection E as <- <- <-. exact (V _ _ _ _ _ _ _ E1).
  Qed.

  Lemma gauge_fields : forall g de into k c g' fields c', gauge_put g de into k c = Ok (g', into ++ fields) c' ->
    shows_gauge g (g_value g) fields.
  Proof.
    intros g de into k c g' fields c' E. unfold gauge_put in E. cbv zeta in E.
    assert (T : exists texts, put_postfixed_descriptives (g_descr g) (g_name g) into de = into ++ texts
      /\ Forall (fun e => exists t, snd e = Text t) texts).
    { destruct de; [|exists []; rewrite app_nil_r; split; [reflexivity | constructor]].
      destruct (postfixed_added (g_descr g) (g_name g) into) as (t & Et & Ht). exists t. split; [exact Et|]. exact (texts_only _ _ _ Ht eq_refl). }
    destruct T as (texts & T & Ht). rewrite T in E. unfold shows_gauge.
    destruct (g_group_values g) eqn:Eg.
    - apply bind_ok in E. destruct E as ([g1 l] & c1 & E1 & E). unfold push in E. injection E as <- E <-.
      rewrite <- app_assoc in E. apply app_inv_head in E. subst fields.
      unfold gauge_put_values in E1. rewrite Eg in E1. destruct (g_value g) as [z|].
      + destruct (g_tracking g) as [b|].
        * apply bind_ok in E1. destruct E1 as ([b' st] & c2 & _ & E1).
          assert (S : exists rest, l = ("current"%string, Int z) :: rest).
          { destruct st as [st|]; injection E1 as <- <- <-; [|eexists; reflexivity]. destruct st. eexists. reflexivity. }
          destruct S as (rest & ->). exists rest. apply in_or_app. right. left. reflexivity.
        * injection E1 as <- <- <-. exists []. apply in_or_app. right. left. reflexivity.
      + injection E1 as <- <- <-. apply in_or_app. right. left. reflexivity.
    - unfold gauge_put_values in E. rewrite Eg in E. destruct (g_value g) as [z|].
      + assert (S : exists rest, into ++ fields = (into ++ texts ++ [(g_name g, Int z)]) ++ rest).
        { destruct (g_tracking g) as [b|].
          - apply bind_ok in E. destruct E as ([b' st] & c2 & _ & E). unfold push in E. rewrite <- app_assoc in E.
            destruct st as [st|]; injection E as <- E <-; [|exists []; rewrite app_nil_r; auto].
            rewrite <- E. destruct st. unfold stats_add_to_snapshot, push. rewrite <- !(app_assoc (into ++ _)). eexists. reflexivity.
          - unfold push in E. injection E as <- E <-. exists []. rewrite app_nil_r, <- E, <- app_assoc. reflexivity. }
        destruct S as (rest & S). rewrite <- !app_assoc in S. apply app_inv_head in S. subst fields.
        apply in_or_app. right. left. reflexivity.
      + injection E as <- E <-. apply app_inv_head in E. subst fields. intros (z & Hz). rewrite Forall_forall in Ht.
        destruct (Ht _ Hz) as (t & Et). discriminate Et.
  Qed.
  Lemma gauge_reacts : forall (a : gauge_adapter (lab X)) o e k c a' n c',
    reacts (lab_eqb X) (ga_modify_update a) (g_display_time_unit (ga_gauge a)) (ga_strategy a) o e -> opt_in_i64 (g_value (ga_gauge a)) ->
    ga_handle (lab_eqb X) a o k c = Ok (a', n) c' ->
    exists g', a' = ga_with a g' /\ same_gauge (ga_gauge a) g'
      /\ g_value g' = wrap_opt (apply_effect e (g_value (ga_gauge a))) /\ opt_in_i64 (g_value g').
  Proof.
    intros a o e k c a' n c' R Hin E.
    assert (U : forall u, update_ok u -> update_effect (g_display_time_unit (ga_gauge a)) u e ->
      (let* '(g, n) := gauge_update (ga_gauge a) u in ret (ga_with a g, n)) k c = Ok (a', n) c' ->
      exists g', a' = ga_with a g' /\ same_gauge (ga_gauge a) g'
        /\ g_value g' = wrap_opt (apply_effect e (g_value (ga_gauge a))) /\ opt_in_i64 (g_value g')).
    { intros u Hok He F. apply bind_ok in F. destruct F as ([g' n1] & c1 & F1 & F). injection F as <- <- <-.
      destruct (gauge_update_value _ _ _ _ _ _ _ _ Hok He Hin F1) as (V1 & V2 & V3 & V4 & V5 & _ & V6).
      exists g'. repeat split; assumption. }
    assert (N : e = Nothing -> ret (a, 0) k c = Ok (a', n) c' ->
      exists g', a' = ga_with a g' /\ same_gauge (ga_gauge a) g'
        /\ g_value g' = wrap_opt (apply_effect e (g_value (ga_gauge a))) /\ opt_in_i64 (g_value g')).
    { intros -> F. injection F as <- <- <-. exists (ga_gauge a). split; [destruct a; reflexivity|]. split; [repeat split|]. split; [|exact Hin].
      cbn. destruct (g_value (ga_gauge a)) as [z|]; cbn; [|reflexivity]. rewrite wrap_i64_id; [reflexivity | exact Hin]. }
    unfold ga_handle in E. assert (Eo : split_observation o = (obs_label o, update_of o)) by (destruct o; reflexivity). rewrite Eo in E.
    assert (Et : modify (ga_modify_update a) (obs_label o) (update_of o) = taken_as (ga_modify_update a) o) by (unfold modify, taken_as; destruct (ga_modify_update a); reflexivity).
    cbv zeta in E. rewrite ?Et in E.
    destruct R as [f o Hf|f o e Hf Hok He|f o Hf|f o d t Hf Hd Ht|f o Hf Hn|i d o Hi|i d o Hi Hd|i d o Hi Hd]; rewrite ?Hf, ?Hi, ?Hd in E; cbn [negb] in E.
    - exact (N eq_refl E).
    - exact (U _ Hok He E).
    - exact (N eq_refl E).
    - rewrite Ht in E. refine (U _ _ _ E); [exact Hd | constructor; constructor].
    - destruct (taken_as (ga_modify_update a) o) as [? ?|?|v t]; [exact (N eq_refl E) | exact (N eq_refl E)|].
      destruct v; try exact (N eq_refl E). exfalso. exact (Hn _ _ eq_refl).
    - refine (U _ _ _ E); [cbn; unfold in_i64; lia | constructor; constructor].
    - refine (U _ _ _ E); [cbn; unfold in_i64; lia | constructor; constructor].
    - exact (N eq_refl E).
  Qed.

  Lemma same_gauge_refl : forall g, same_gauge g g.
  Proof. intros. repeat split. Qed.

  Lemma same_gauge_trans : forall a b c, same_gauge a b -> same_gauge b c -> same_gauge a c.
  Proof. unfold same_gauge. intros a b c H1 H2. intuition congruence. Qed.

  Lemma wrap_in : forall o, opt_in_i64 o -> wrap_opt o = o.
  Proof. intros [z|] H; cbn; [|reflexivity]. rewrite wrap_i64_id; [reflexivity | exact H]. Qed.

  Lemma gauge_life_exact : forall k c (a : gauge_adapter (lab X)) os x' c',
    leaf_life k c (LGauge a) os x' c' -> opt_in_i64 (g_value (ga_gauge a)) ->
    forall es, Forall2 (reacts (lab_eqb X) (ga_modify_update a) (g_display_time_unit (ga_gauge a)) (ga_strategy a)) os es ->
    exists g', x' = LGauge (ga_with a g') /\ same_gauge (ga_gauge a) g' /\ g_value g' = wrap_opt (exact es (g_value (ga_gauge a)))
      /\ opt_in_i64 (g_value g').
  Proof.
    intros k c a os x' c' H. remember (LGauge a) as x eqn:Ex. revert a Ex.
    induction H as [c x c' L|c c0 o x x1 n c1 os x2 c2 L E H IH|c c0 x de into x1 s c1 os x2 c2 L E H IH]; intros a -> Hin es F.
    - inversion F; subst. exists (ga_gauge a). split; [destruct a; reflexivity|]. split; [apply same_gauge_refl|].
      split; [cbn; symmetry; apply wrap_in, Hin | exact Hin].
    - inversion F as [|? e ? es' R F']; subst.
      cbn [leaf_handle] in E. apply bind_ok in E. destruct E as ([a1 n1] & c3 & E1 & E). injection E as <- <- <-.
      destruct (gauge_reacts _ _ _ _ _ _ _ _ R Hin E1) as (g1 & -> & S1 & V1 & I1).
      destruct (IH _ eq_refl I1 es') as (g2 & -> & S2 & V2 & I2).
      { cbn [ga_with ga_modify_update ga_gauge ga_strategy]. destruct S1 as (_ & _ & -> & _). exact F'. }
      cbn [ga_with ga_modify_update ga_gauge ga_strategy] in *.
      exists g2. split; [reflexivity|]. split; [eapply same_gauge_trans; eassumption|]. split; [|exact I2].
      rewrite V2, V1, wrap_exact. reflexivity.
    - cbn [leaf_put] in E. apply bind_ok in E. destruct E as ([a1 s1] & c3 & E1 & E). injection E as <- <- <-.
      unfold ga_put in E1. apply bind_ok in E1. destruct E1 as ([g1 s2] & c4 & E2 & E1). injection E1 as <- <- <-.
      destruct (gauge_put_same _ _ _ _ _ _ _ _ E2) as (S1 & V1).
      destruct (IH _ eq_refl) with (es := es) as (g2 & -> & S2 & V2 & I2); cbn [ga_with ga_modify_update ga_gauge ga_strategy] in *.
      { rewrite V1. exact Hin. }
      { destruct S1 as (_ & _ & -> & _). exact F. }
      exists g2. split; [reflexivity|]. split; [eapply same_gauge_trans; eassumption|]. split; [|exact I2]. rewrite V2, V1. reflexivity.
  Qed.

  Lemma exact_begins : forall v es r, exact_value (begins v ++ es) r -> exact es v = r.
  Proof. intros [z|] es r H; apply exact_value_exact in H; exact H. Qed.

  Lemma gauge_life : forall k c (a : gauge_adapter (lab X)) os x' c' es v,
    leaf_life k c (LGauge a) os x' c' -> opt_in_i64 (gauge_get (ga_gauge a)) ->
    Forall2 (reacts (lab_eqb X) (ga_modify_update a) (g_display_time_unit (ga_gauge a)) (ga_strategy a)) os es ->
    exact_value (begins (gauge_get (ga_gauge a)) ++ es) v ->
    exists g', x' = LGauge (ga_with a g') /\ same_gauge (ga_gauge a) g' /\ gauge_get g' = option_map wrap_i64 v.
  Proof.
    intros k c a os x' c' es v H Hin F Hv.
    destruct (gauge_life_exact _ _ _ _ _ _ H Hin _ F) as (g' & -> & S & V & _).
    exists g'. split; [reflexivity|]. split; [exact S|]. unfold gauge_get in *. rewrite V, (exact_begins _ _ _ Hv). reflexivity.
  Qed.

  Lemma gauge_leaf_fields : forall (a : gauge_adapter (lab X)) de into k c (x' : leaf X) fields c',
    leaf_put (LGauge a) de into k c = Ok (x', into ++ fields) c' -> shows_gauge (ga_gauge a) (gauge_get (ga_gauge a)) fields.
  Proof.
    intros a de into k c x' fields c' E. cbn [leaf_put] in E. apply bind_ok in E. destruct E as ([a1 s1] & c3 & E1 & E).
    unfold ga_put in E1. apply bind_ok in E1. destruct E1 as ([g1 s2] & c4 & E2 & E1). injection E1 as <- <- <-. injection E as <- -> <-.
    exact (gauge_fields _ _ _ _ _ _ _ _ E2).
  Qed.

  (** ** Meters *)

  Lemma monotone_later : forall c c', monotone c -> later c c' -> monotone c' /\ c O <= c' O.
  Proof.
    intros c c' H (n & Hn). split.
    - intros i. rewrite !Hn. rewrite Nat.add_succ_r. apply H.
    - rewrite Hn. apply monotone_le; [exact H | lia].
  Qed.

  Lemma between_widen : forall a b l a' b', between a b l -> a' <= a -> b <= b' -> between a' b' l.
  Proof.
    intros a b l a' b' H. revert a'. induction H as [a b Hab|a b t n l Ht H IH]; intros a' H1 H2; constructor; try lia.
    apply IH; lia.
  Qed.

  Lemma meter_life_metered : forall al start k c (m : meter) f os (x' : leaf X) c',
    leaf_life k c (LInstrument (IMeter m) f) os x' c' -> monotone c ->
    forall t l0, metered (m_inner m) al start t l0 -> t <= c O -> Forall update_ok (map (taken_as f) os) ->
    exists m' t' l, x' = LInstrument (IMeter m') f /\ same_settings m m' /\ metered (m_inner m') al start t' (l0 ++ l) /\ t' <= c' O
      /\ map snd l = marked_amounts (map (taken_as f) os) /\ between (c O) (c' O) l /\ monotone c'.
  Proof.
    intros al start k c m f os x' c' H. remember (LInstrument (IMeter m) f) as x eqn:Ex. revert m Ex.
    induction H as [c x c' L|c c0 o x x1 n c1 os x2 c2 L E H IH|c c0 x de into x1 s c1 os x2 c2 L E H IH]; intros m -> Hm t l0 M Ht Hok.
    - destruct (monotone_later _ _ Hm L) as (Hm' & Hc). exists m, t, []. split; [reflexivity|]. split; [apply same_settings_refl|].
      rewrite app_nil_r. split; [exact M|]. split; [lia|]. split; [reflexivity|]. split; [constructor; exact Hc | exact Hm'].
    - destruct (monotone_later _ _ Hm L) as (Hm0 & Hc0).
      cbn [leaf_handle] in E. rewrite taken_modify in E.
      apply bind_ok in E. destruct E as ([i n1] & c3 & E1 & E). injection E as <- <- <-.
      cbn [instrument_update] in E1. unfold wrap in E1. apply bind_ok in E1. destruct E1 as ([m1 n2] & c4 & E2 & E1). injection E1 as <- <- <-.
      cbn [map] in Hok. inversion Hok as [|? ? Hok1 Hok2]; subst.
      destruct (meter_update_metered _ _ _ _ _ _ _ _ _ _ _ Hok1 Hm0 M (Z.le_trans _ _ _ Ht Hc0) E2) as (P & S & t1 & Ht1 & A).
      destruct (passes_le _ _ Hm0 P) as (Hm1 & Hc1).
      cbn [map marked_amounts flat_map]. destruct (meter_amount (taken_as f o)) as [q|].
      + destruct A as (R & M1). destruct (read_during_le _ _ _ Hm0 R) as (R1 & R2).
        destruct (IH _ eq_refl Hm1 _ _ M1 Ht1 Hok2) as (m' & t' & l & -> & S' & M' & Ht' & Hl & Hb & Hm').
        exists m', t', ((t1, q) :: l). split; [reflexivity|]. split; [eapply same_settings_trans; eassumption|].
        rewrite <- app_assoc in M'. split; [exact M'|]. split; [exact Ht'|]. split; [cbn; f_equal; exact Hl|].
        split; [|exact Hm']. constructor; [lia|]. eapply between_widen; [exact Hb | lia | lia].
      + destruct (IH _ eq_refl Hm1 _ _ A Ht1 Hok2) as (m' & t' & l & -> & S' & M' & Ht' & Hl & Hb & Hm').
        exists m', t', l. split; [reflexivity|]. split; [eapply same_settings_trans; eassumption|].
        split; [exact M'|]. split; [exact Ht'|]. split; [exact Hl|]. split; [|exact Hm']. eapply between_widen; [exact Hb | lia | lia].
    - destruct (monotone_later _ _ Hm L) as (Hm0 & Hc0).
      cbn [leaf_put instrument_put] in E. apply bind_ok in E. destruct E as ([i s1] & c3 & E1 & E). injection E as <- <- <-.
      unfold wrap in E1. apply bind_ok in E1. destruct E1 as ([m1 s2] & c4 & E2 & E1). injection E1 as <- <- <-.
      destruct (meter_put_metered _ _ _ _ _ _ _ _ _ _ _ _ Hm0 M (Z.le_trans _ _ _ Ht Hc0) E2) as (P & S & t1 & R & Ht1 & M1 & _).
      destruct (passes_le _ _ Hm0 P) as (Hm1 & Hc1).
      destruct (IH _ eq_refl Hm1 _ _ M1 Ht1 Hok) as (m' & t' & l & -> & S' & M' & Ht' & Hl & Hb & Hm').
      exists m', t', l. split; [reflexivity|]. split; [eapply same_settings_trans; eassumption|].
      split; [exact M'|]. split; [exact Ht'|]. split; [exact Hl|]. split; [|exact Hm']. eapply between_widen; [exact Hb | lia | lia].
  Qed.

  Lemma meter_life : forall al name k c0 m0 c1 (m : meter) c f os (x' x'' : leaf X) c' c2 de into fields c3,
    monotone c0 -> meter_new al name k c0 = Ok m0 c1 -> m_inner m = m_inner m0 -> later c1 c ->
    leaf_life k c (LInstrument (IMeter m) f) os x' c' -> Forall update_ok (map (taken_as f) os) ->
    later c' c2 -> leaf_put x' de into k c2 = Ok (x'', into ++ fields) c3 ->
    exists start l t texts,
      read_during c0 c1 start /\ map snd l = marked_amounts (map (taken_as f) os) /\ between (c O) (c' O) l
      /\ read_during c2 c3 t /\ fields = texts ++ meter_shows m al start l t
      /\ Forall (fun e => exists x, snd e = Text x) texts.
  Proof.
    intros al name k c0 m0 c1 m c f os x' x'' c' c2 de into fields c3 Hm E0 Hi L1 H Hok L2 E.
    destruct (meter_new_inner _ _ _ _ _ _ E0) as (-> & M0 & _). rewrite <- Hi in M0.
    assert (P0 : passes c0 (clock_tail (clock_tail c0))) by (exists 1%nat; reflexivity).
    destruct (passes_le _ _ Hm P0) as (Hm1 & _). destruct (monotone_later _ _ Hm1 L1) as (Hmc & Hc).
    assert (T0 : c0 1%nat <= c O). { eapply Z.le_trans; [|exact Hc]. exact (Hm 1%nat). }
    destruct (meter_life_metered _ _ _ _ _ _ _ _ _ H Hmc _ _ M0 T0 Hok) as (m' & t' & l & -> & S & M & Ht & Hl & Hb & Hm').
    destruct (monotone_later _ _ Hm' L2) as (Hm2 & Hc2).
    cbn [leaf_put instrument_put] in E. apply bind_ok in E. destruct E as ([i s1] & c4 & E1 & E). injection E as <- -> <-.
    unfold wrap in E1. apply bind_ok in E1. destruct E1 as ([m1 s2] & c5 & E2 & E1). injection E1 as <- -> <-.
    destruct (meter_put_metered _ _ _ _ _ _ _ _ _ _ _ _ Hm2 M (Z.le_trans _ _ _ Ht Hc2) E2) as (P & S2 & t & R & _ & _ & Es).
    assert (T : exists texts, put_postfixed_descriptives (m_descr m') (m_name m') into de = into ++ texts
      /\ Forall (fun e => exists x, snd e = Text x) texts).
    { destruct de; [|exists []; rewrite app_nil_r; split; [reflexivity | constructor]].
      destruct (postfixed_added (m_descr m') (m_name m') into) as (q & Et & Hq). exists q. split; [exact Et|]. exact (texts_only _ _ _ Hq eq_refl). }
    destruct T as (texts & T & Hx). rewrite T, <- app_assoc in Es. apply app_inv_head in Es. subst fields.
    exists (c0 1%nat), l, t, texts. split; [exists 1%nat, 2%nat; split; [lia | split; reflexivity]|].
    split; [exact Hl|]. split; [exact Hb|]. split; [exact R|]. split; [|exact Hx].
    cbn [app] in *. f_equal. unfold meter_shows. destruct S as (-> & _ & -> & -> & -> & ->). reflexivity.
  Qed.
End Lives.
