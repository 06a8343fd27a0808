From Coq Require Import ZArith QArith Bool String List Lia ZifyBool Floats.SpecFloat.
From Verif Require Import Base SpecRun SpecCounting SpecObservation SpecGauge MonadFacts
  ModelObservation ModelLabelFilter ModelSnapshot ModelBuckets ModelGauge
  ObservationProofs FloatProofs.
Import ListNotations.
Open Scope Z_scope.

(** ** What an effect does to the value *)

Definition apply_effect (e : effect) (cur : option Z) : option Z :=
  match e with
  | Sets z => Some z
  | Changes d => Some (match cur with Some c => c + d | None => d end)
  | Nothing => cur
  end.

Definition exact (es : list effect) (cur : option Z) : option Z :=
  fold_left (fun c e => apply_effect e c) es cur.

Lemma not_set_Sets : forall z, ~ is_set (Sets z) -> False.
Proof. intros z H. apply H. exists z. reflexivity. Qed.

Lemma exact_no_sets : forall es cur, no_sets es ->
  exact es cur = match changes es, cur with
                 | [], _ => cur
                 | ds, Some c => Some (c + sum ds)
                 | ds, None => Some (sum ds)
                 end.
Proof.
  induction es as [|e es IH]; intros cur Hn; [reflexivity|].
  inversion Hn; subst. unfold exact. cbn [fold_left]. change (fold_left _ es ?x) with (exact es x).
  rewrite IH by assumption. destruct e as [z|d|]; cbn [apply_effect changes].
  - exfalso. eapply not_set_Sets; eauto.
  - destruct (changes es) eqn:E; destruct cur as [c|]; cbn; f_equal; lia.
  - reflexivity.
Qed.

Lemma exact_app : forall a b cur, exact (a ++ b) cur = exact b (exact a cur).
Proof. intros. unfold exact. apply fold_left_app. Qed.

Lemma exact_value_exact : forall es v, exact_value es v -> exact es None = v.
Proof.
  intros es v H. destruct H.
  - rewrite exact_app. unfold exact at 1. cbn [fold_left apply_effect].
    change (fold_left _ post ?x) with (exact post x). rewrite exact_no_sets by assumption.
    destruct (changes post); cbn; f_equal; lia.
  - rewrite exact_no_sets by assumption. destruct (changes es); [congruence|reflexivity].
  - rewrite exact_no_sets by assumption. rewrite H0. reflexivity.
Qed.

Lemma exact_value_total : forall es, exists v, exact_value es v.
Proof.
  intros es.
  assert (C : (exists pre z post, es = pre ++ Sets z :: post /\ no_sets post) \/ no_sets es).
  { induction es as [|e es IH]; [right; constructor|].
    destruct IH as [(pre & z & post & E & Hn)|Hn].
    - left. exists (e :: pre), z, post. subst. auto.
    - destruct e as [z|d|].
      + left. exists [], z, es. auto.
      + right. constructor; [|assumption]. intros [z Hz]. discriminate.
      + right. constructor; [|assumption]. intros [z Hz]. discriminate. }
  destruct C as [(pre & z & post & E & Hn)|Hn].
  - subst. eexists. apply exact_set. assumption.
  - destruct (changes es) eqn:E.
    + exists None. apply exact_nothing; assumption.
    + eexists. apply exact_changes_only; [assumption|congruence].
Qed.

(** ** One value *)

Definition wrap_opt (o : option Z) : option Z := option_map wrap_i64 o.

Definition opt_in_i64 (o : option Z) : Prop :=
  match o with Some z => in_i64 z | None => True end.

Lemma next_value_effect : forall W g v e k (w : W) cur,
  observed_value_ok v -> value_effect (g_display_time_unit g) v e -> opt_in_i64 cur ->
  gauge_next_value g cur v k w
  = match e, cur with
    | Sets z, _ => Ok (Some z) w
    | Changes d, Some c =>
        match add_i64 c d k w with Ok r w' => Ok (Some r) w' | Panic => Panic | NoFuel => NoFuel end
    | Changes d, None => Ok (Some d) w
    | Nothing, _ => Ok cur w
    end.
Proof.
  intros W g v e k w cur Hok He Hc. destruct He.
  - pose proof (to_i64_number v q z Hok H H0 H1) as E.
    destruct v; cbn in H; try discriminate; cbn [gauge_next_value]; rewrite E; reflexivity.
  - pose proof (proj1 (to_int_too_large v q Hok H) H0) as E.
    destruct v; cbn in H; try discriminate; cbn [gauge_next_value]; rewrite E; reflexivity.
  - reflexivity.
  - reflexivity.
  - reflexivity.
  - cbn [gauge_next_value]. cbn in Hok. unfold bind.
    rewrite display_fits by (assumption || lia). unfold ret.
    assert (0 <= t * nanos_in a / nanos_in (g_display_time_unit g)).
    { apply Z.div_pos; [|apply nanos_in_pos]. pose proof (nanos_in_pos a). unfold in_u64 in Hok. nia. }
    rewrite wrap_i64_id by lia. reflexivity.
  - cbn [gauge_next_value]. destruct cur; reflexivity.
Qed.

Lemma gauge_set_inv : forall g v k c g' c',
  gauge_set g v k c = Ok g' c' ->
  exists nv c1, gauge_next_value g (g_value g) v k c = Ok nv c1
    /\ g_value g' = (match nv with Some n => Some n | None => g_value g end)
    /\ g_name g' = g_name g /\ g_descr g' = g_descr g
    /\ g_display_time_unit g' = g_display_time_unit g
    /\ g_group_values g' = g_group_values g
    /\ (g_tracking g = None -> g_tracking g' = None).
Proof.
  intros g v k c g' c' H. unfold gauge_set in H.
  destruct (g_value g) as [val|] eqn:Ev; steps.
  all: match goal with H : gauge_next_value _ _ _ _ _ = Ok ?nv ?w |- _ =>
         exists nv, w; split; [exact H|destruct nv as [n|]] end.
  all: steps; cbn; repeat split; auto.
  all: intros HN; rewrite HN in *; cbn in *; steps; reflexivity.
Qed.

Lemma gauge_next_value_clock : forall W g cur v k (w w' : W) nv,
  gauge_next_value g cur v k w = Ok nv w' -> w' = w.
Proof.
  intros W g cur v k w w' nv H. destruct v as [z|z|f|b|t a|d]; cbn [gauge_next_value] in H.
  all: try (destruct (convert_to_i64 _); steps; reflexivity).
  - steps. match goal with A : duration_to_display_value _ _ _ _ _ = _ |- _ => rename A into D0 end.
    destruct (display_cases t a (g_display_time_unit g)) as [(q & _ & _ & _ & D)|(q & _ & _ & _ & D)];
      rewrite D in D0.
    + steps. reflexivity.
    + apply u64_arith_inv in D0. destruct D0; congruence.
  - destruct cur as [x|]; [|steps; reflexivity].
    steps. match goal with A : add_i64 _ _ _ _ = _ |- _ => apply i64_arith_inv in A; destruct A; congruence end.
Qed.

Lemma gauge_set_untracked : forall g v k c, g_tracking g = None ->
  gauge_set g v k c
  = match gauge_next_value g (g_value g) v k c with
    | Ok nv c' => Ok (gauge_with g (match nv with Some n => Some n | None => g_value g end) None) c'
    | Panic => Panic
    | NoFuel => NoFuel
    end.
Proof.
  intros g v k c Hn. unfold gauge_set, bind.
  destruct (g_value g) as [val|] eqn:Ev.
  all: destruct (gauge_next_value _ _ v k c) as [[n|] c'| |]; try reflexivity; rewrite Hn; reflexivity.
Qed.

(** One update on the value, in terms of effects. *)
Lemma gauge_update_value : forall g u e k c g' n c',
  update_ok u -> update_effect (g_display_time_unit g) u e -> opt_in_i64 (g_value g) ->
  gauge_update g u k c = Ok (g', n) c' ->
  g_value g' = wrap_opt (apply_effect e (g_value g))
  /\ g_name g' = g_name g /\ g_descr g' = g_descr g
  /\ g_display_time_unit g' = g_display_time_unit g
  /\ g_group_values g' = g_group_values g
  /\ n = (match u with ObservationWithValue _ _ => 1 | _ => 0 end)
  /\ opt_in_i64 (g_value g').
Proof.
  intros g u e k c g' n c' Hok He Hin H.
  assert (Hw : forall o, opt_in_i64 o -> wrap_opt o = o).
  { intros [z|] Hz; cbn; [|reflexivity]. rewrite wrap_i64_id; [reflexivity|exact Hz]. }
  destruct He as [v t e He|t|m t]; cbn in H.
  - apply bind_ok in H. destruct H as (g1 & w1 & E & H). steps. cbn in Hok.
    destruct (gauge_set_inv _ _ _ _ _ _ E) as (nv & c1 & Hnv & Hv & Hn1 & Hn2 & Hn3 & Hn4 & _).
    rewrite (next_value_effect _ g v e k c (g_value g) Hok He Hin) in Hnv.
    assert (Hval : g_value g' = wrap_opt (apply_effect e (g_value g))).
    { destruct e as [z|d|].
      - steps. rewrite Hv. cbn. rewrite wrap_i64_id; [reflexivity|].
        inversion He; subst; [assumption|].
        assert (0 <= t0 * nanos_in a / nanos_in (g_display_time_unit g)).
        { apply Z.div_pos; [|apply nanos_in_pos]. pose proof (nanos_in_pos a). cbn in Hok. unfold in_u64 in Hok. nia. }
        lia.
      - destruct (g_value g) as [z|] eqn:Eg.
        + destruct (add_i64 z d k c) as [r w'| |] eqn:Ea; inversion Hnv; subst.
          rewrite Hv. cbn. apply i64_arith_inv in Ea. destruct Ea as (_ & -> & _). reflexivity.
        + steps. rewrite Hv. cbn. rewrite wrap_i64_id; [reflexivity|].
          inversion He; subst. exact Hok.
      - steps. rewrite Hv. cbn. rewrite Hw by assumption. destruct (g_value g); reflexivity. }
    repeat split; auto.
    rewrite Hval. destruct (apply_effect e (g_value g)); cbn; [apply wrap_i64_range|exact I].
  - steps. repeat split; auto. cbn. rewrite Hw by assumption. reflexivity.
  - steps. repeat split; auto. cbn. rewrite Hw by assumption. reflexivity.
Qed.

Lemma wrap_apply : forall e o, wrap_opt (apply_effect e (wrap_opt o)) = wrap_opt (apply_effect e o).
Proof.
  intros e [z|]; destruct e; cbn; try reflexivity.
  - f_equal. rewrite wrap_i64_add_l. reflexivity.
  - f_equal. apply wrap_i64_id, wrap_i64_range.
Qed.

Lemma wrap_exact : forall es o, wrap_opt (exact es (wrap_opt o)) = wrap_opt (exact es o).
Proof.
  induction es as [|e es IH]; intros o; cbn.
  - destruct o as [z|]; cbn; [|reflexivity]. f_equal. apply wrap_i64_id, wrap_i64_range.
  - unfold exact in *. cbn [fold_left]. rewrite <- IH, wrap_apply, IH. reflexivity.
Qed.

Definition reports (u : update) : Z :=
  match u with ObservationWithValue _ _ => 1 | _ => 0 end.

Lemma gauge_run_value : forall us es g k c g' ns c',
  Forall update_ok us -> Forall2 (update_effect (g_display_time_unit g)) us es ->
  opt_in_i64 (g_value g) ->
  run_all gauge_update g us k c = Ok (g', ns) c' ->
  g_value g' = wrap_opt (exact es (g_value g)) /\ ns = map reports us /\ g_name g' = g_name g.
Proof.
  induction us as [|u us IH]; intros es g k c g' ns c' Hok He Hin H.
  - inversion He; subst. cbn in H. steps. repeat split.
    cbn. destruct (g_value g') as [z|]; cbn; [|reflexivity]. rewrite wrap_i64_id; [reflexivity|exact Hin].
  - inversion He as [|? e ? es' He1 He2]; subst. inversion Hok as [|? ? Hok1 Hok2]; subst. cbn in H.
    apply bind_ok in H. destruct H as ([g1 n] & w1 & E & H).
    apply bind_ok in H. destruct H as ([g2 ns2] & w2 & E0 & H). steps.
    destruct (gauge_update_value _ _ _ _ _ _ _ _ Hok1 He1 Hin E) as (Hv & Hn & _ & Hu & _ & Hr & Hi).
    rewrite <- Hu in He2.
    destruct (IH es' g1 _ _ _ _ _ Hok2 He2 Hi E0) as (Hv2 & Hns & Hnm).
    repeat split.
    + rewrite Hv2, Hv. rewrite wrap_exact. reflexivity.
    + cbn. subst. reflexivity.
    + congruence.
Qed.

Lemma gauge_last_set_plus_changes : forall g us es v k c g' ns c',
  gauge_get g = None ->
  Forall update_ok us -> Forall2 (update_effect (g_display_time_unit g)) us es -> exact_value es v ->
  run_all gauge_update g us k c = Ok (g', ns) c' ->
  gauge_get g' = option_map wrap_i64 v
  /\ (forall z, v = Some z -> in_i64 z -> gauge_get g' = Some z).
Proof.
  intros g us es v k c g' ns c' Hg Hok He Hv H. unfold gauge_get in *.
  destruct (gauge_run_value us es g k c g' ns c') as (Hr & _ & _); auto.
  { rewrite Hg. exact I. }
  rewrite Hg, (exact_value_exact es v Hv) in Hr. split; [exact Hr|].
  intros z -> Hz. rewrite Hr. cbn. rewrite wrap_i64_id; [reflexivity|exact Hz].
Qed.

Lemma gauge_continues : forall g z us es v k c g' ns c',
  gauge_get g = Some z -> in_i64 z ->
  Forall update_ok us -> Forall2 (update_effect (g_display_time_unit g)) us es ->
  exact_value (Sets z :: es) v ->
  run_all gauge_update g us k c = Ok (g', ns) c' ->
  gauge_get g' = option_map wrap_i64 v
  /\ (forall z, v = Some z -> in_i64 z -> gauge_get g' = Some z).
Proof.
  intros g z us es v k c g' ns c' Hg Hz Hok He Hv H. unfold gauge_get in *.
  destruct (gauge_run_value us es g k c g' ns c') as (Hr & _ & _); auto.
  { rewrite Hg. exact Hz. }
  apply exact_value_exact in Hv. rewrite Hg in Hr.
  change (exact (Sets z :: es) None) with (exact es (Some z)) in Hv. rewrite Hv in Hr. split; [exact Hr|].
  intros z' -> Hz'. rewrite Hr. cbn. rewrite wrap_i64_id; [reflexivity|exact Hz'].
Qed.

Lemma gauge_reports : forall g us es k c g' ns c',
  opt_in_i64 (gauge_get g) ->
  Forall update_ok us -> Forall2 (update_effect (g_display_time_unit g)) us es ->
  run_all gauge_update g us k c = Ok (g', ns) c' -> ns = map reports us.
Proof.
  intros g us es k c g' ns c' Hg Hok He H.
  destruct (gauge_run_value us es g k c g' ns c') as (_ & Hr & _); auto.
Qed.

(** What is shown. *)
Lemma gauge_shows_value : forall g k c g' s c',
  gauge_put g false [] k c = Ok (g', s) c' ->
  match gauge_get g with
  | None => s = (if g_group_values g then [(g_name g, ItemSnapshot [])] else [])
  | Some z =>
      if g_group_values g
      then exists rest, s = [(g_name g, ItemSnapshot (("current"%string, Int z) :: rest))]
                        /\ (g_tracking g = None -> rest = [])
      else exists rest, s = (g_name g, Int z) :: rest /\ (g_tracking g = None -> rest = [])
  end.
Proof.
  intros g k c g' s c' H. unfold gauge_put in H. cbn in H.
  unfold gauge_put_values in H. unfold gauge_get. destruct (g_group_values g).
  - destruct (g_value g) as [z|]; [|steps; reflexivity].
    apply bind_ok in H. destruct H as ([g1 s1] & w1 & H1 & H). steps.
    destruct (g_tracking g) as [b|].
    + apply bind_ok in H1. destruct H1 as ([b1 [st|]] & w2 & H2 & H1); steps; cbn;
        eexists; split; try reflexivity; discriminate.
    + steps. eexists. split; reflexivity.
  - destruct (g_value g) as [z|]; [|steps; reflexivity].
    destruct (g_tracking g) as [b|].
    + apply bind_ok in H. destruct H as ([b1 [st|]] & w2 & H2 & H1); steps; cbn;
        eexists; split; try reflexivity; discriminate.
    + steps. eexists. split; reflexivity.
Qed.

(** Durations of 2^63 units and more are shown as negative numbers. *)
Lemma gauge_huge_duration : forall g t ts k c,
  two63 <= t <= u64_max -> g_tracking g = None ->
  exists g', gauge_update g (ObservationWithValue (DurationValue t (g_display_time_unit g)) ts) k c = Ok (g', 1) c
             /\ gauge_get g' = Some (t - two64).
Proof.
  intros g t ts k c Ht Hn. cbn [gauge_update]. unfold bind at 1. rewrite gauge_set_untracked by assumption.
  cbn [gauge_next_value]. unfold bind.
  rewrite display_coarser by (unfold in_u64; lia).
  rewrite Z.div_mul by (pose proof (nanos_in_pos (g_display_time_unit g)); lia).
  eexists. split; [reflexivity|]. cbn. f_equal. unfold wrap_i64.
  replace (t + two63) with (t - two63 + 1 * two64) by ring. rewrite Z.mod_add, Z.mod_small by lia. ring.
Qed.

(** ** Panics of an untracked gauge *)

Lemma gauge_update_untracked_panics : forall g u e k c,
  g_tracking g = None -> update_ok u -> update_effect (g_display_time_unit g) u e ->
  opt_in_i64 (g_value g) ->
  (opt_in_i64 (apply_effect e (g_value g)) \/ overflow_checks k = false ->
   exists g', gauge_update g u k c = Ok (g', reports u) c /\ g_tracking g' = None)
  /\ (~ opt_in_i64 (apply_effect e (g_value g)) -> overflow_checks k = true ->
      gauge_update g u k c = Panic).
Proof.
  intros g u e k c Hn Hok He Hin.
  destruct He as [v t e He|t|m t]; cbn [gauge_update].
  - cbn in Hok. unfold bind. rewrite gauge_set_untracked by assumption.
    rewrite (next_value_effect _ g v e k c (g_value g) Hok He Hin).
    destruct e as [z|d|].
    + split.
      * intros _. eexists. split; reflexivity.
      * intros Hno. exfalso. apply Hno. cbn. inversion He; subst; [assumption|].
        assert (0 <= t0 * nanos_in a / nanos_in (g_display_time_unit g)).
        { apply Z.div_pos; [|apply nanos_in_pos]. pose proof (nanos_in_pos a). cbn in Hok. unfold in_u64 in Hok. nia. }
        unfold in_i64. lia.
    + destruct (g_value g) as [z|] eqn:Eg; cbn [apply_effect].
      * unfold add_i64. split.
        -- intros [Hf|Hf].
           ++ rewrite i64_arith_fits by exact Hf. eexists. split; reflexivity.
           ++ rewrite i64_arith_release by exact Hf. eexists. split; reflexivity.
        -- intros Hno Hk. rewrite i64_arith_checked by assumption. reflexivity.
      * split; [intros _; eexists; split; reflexivity|].
        intros Hno. exfalso. apply Hno. inversion He; subst. exact Hok.
    + split; [intros _; eexists; split; reflexivity|].
      intros Hno. exfalso. apply Hno. exact Hin.
  - split; [intros _; eexists; split; [reflexivity|assumption]|]. intros Hno; exfalso; apply Hno; exact Hin.
  - split; [intros _; eexists; split; [reflexivity|assumption]|]. intros Hno; exfalso; apply Hno; exact Hin.
Qed.

Lemma gauge_run_total_release : forall us es g k c,
  overflow_checks k = false -> g_tracking g = None ->
  Forall update_ok us -> Forall2 (update_effect (g_display_time_unit g)) us es ->
  opt_in_i64 (g_value g) ->
  exists g' ns, run_all gauge_update g us k c = Ok (g', ns) c.
Proof.
  induction us as [|u us IH]; intros es g k c Hk Hn Hok He Hin.
  - cbn. eexists _, _. reflexivity.
  - inversion He as [|? e ? es' He1 He2]; subst. inversion Hok as [|? ? Hok1 Hok2]; subst.
    destruct (gauge_update_untracked_panics g u e k c Hn Hok1 He1 Hin) as [Hex _].
    destruct (Hex (or_intror Hk)) as (g1 & Hg1 & Hn1).
    destruct (gauge_update_value _ _ _ _ _ _ _ _ Hok1 He1 Hin Hg1) as (_ & _ & _ & Hu & _ & _ & Hi).
    rewrite <- Hu in He2.
    destruct (IH es' g1 k c Hk Hn1 Hok2 He2 Hi) as (g2 & ns & Hg2).
    exists g2, (reports u :: ns). cbn [run_all]. unfold bind. rewrite Hg1, Hg2. reflexivity.
Qed.

Lemma gauge_run_checked : forall us es g k c,
  overflow_checks k = true -> g_tracking g = None ->
  Forall update_ok us -> Forall2 (update_effect (g_display_time_unit g)) us es ->
  opt_in_i64 (g_value g) ->
  ((forall p s, es = p ++ s -> opt_in_i64 (exact p (g_value g))) ->
   exists g' ns, run_all gauge_update g us k c = Ok (g', ns) c)
  /\ (forall p s, es = p ++ s -> ~ opt_in_i64 (exact p (g_value g)) ->
      run_all gauge_update g us k c = Panic).
Proof.
  induction us as [|u us IH]; intros es g k c Hk Hn Hok He Hin.
  - inversion He; subst. split.
    + intros _. cbn. eexists _, _. reflexivity.
    + intros p s Hp Hno. symmetry in Hp. apply app_eq_nil in Hp. destruct Hp; subst.
      exfalso. apply Hno. exact Hin.
  - inversion He as [|? e ? es' He1 He2]; subst. inversion Hok as [|? ? Hok1 Hok2]; subst.
    destruct (gauge_update_untracked_panics g u e k c Hn Hok1 He1 Hin) as [Hex Hpan].
    assert (Hdec : opt_in_i64 (apply_effect e (g_value g)) \/ ~ opt_in_i64 (apply_effect e (g_value g))).
    { destruct (apply_effect e (g_value g)) as [z|]; cbn; [|left; exact I].
      unfold in_i64. lia. }
    destruct Hdec as [Hfit|Hno].
    + destruct (Hex (or_introl Hfit)) as (g1 & Hg1 & Hn1).
      destruct (gauge_update_value _ _ _ _ _ _ _ _ Hok1 He1 Hin Hg1) as (Hv & _ & _ & Hu & _ & _ & Hi).
      assert (Hv' : g_value g1 = apply_effect e (g_value g)).
      { rewrite Hv. destruct (apply_effect e (g_value g)) as [z|]; cbn; [|reflexivity].
        rewrite wrap_i64_id; [reflexivity|exact Hfit]. }
      rewrite <- Hu in He2.
      destruct (IH es' g1 k c Hk Hn1 Hok2 He2 Hi) as [IHa IHb].
      split.
      * intros Hall. destruct IHa as (g2 & ns & Hg2).
        { intros p s Hp. specialize (Hall (e :: p) s). rewrite Hv'.
          unfold exact in Hall. cbn [fold_left] in Hall. apply Hall. subst. reflexivity. }
        exists g2, (reports u :: ns). cbn [run_all]. unfold bind. rewrite Hg1, Hg2. reflexivity.
      * intros p s Hp Hout. destruct p as [|e' p].
        { exfalso. apply Hout. exact Hin. }
        cbn in Hp. inversion Hp; subst e'. cbn [run_all]. unfold bind. rewrite Hg1.
        rewrite (IHb p s); auto. intros Hc. apply Hout. unfold exact. cbn [fold_left].
        rewrite <- Hv'. exact Hc.
    + split.
      * intros Hall. exfalso. apply Hno. apply (Hall [e] es'). reflexivity.
      * intros p s Hp Hout. cbn [run_all]. unfold bind. rewrite Hpan by assumption. reflexivity.
Qed.

Lemma gauge_release_never_panics : forall g us es k c,
  overflow_checks k = false -> g_tracking g = None -> gauge_get g = None ->
  Forall update_ok us -> Forall2 (update_effect (g_display_time_unit g)) us es ->
  exists g' ns, run_all gauge_update g us k c = Ok (g', ns) c.
Proof.
  intros g us es k c Hk Ht Hg Hok He. eapply gauge_run_total_release; eauto.
  unfold gauge_get in Hg. rewrite Hg. exact I.
Qed.

Lemma gauge_checked_panics : forall g us es k c,
  overflow_checks k = true -> g_tracking g = None -> gauge_get g = None ->
  Forall update_ok us -> Forall2 (update_effect (g_display_time_unit g)) us es ->
  (run_all gauge_update g us k c = Panic
   <-> exists p s z, es = p ++ s /\ exact_value p (Some z) /\ ~ in_i64 z).
Proof.
  intros g us es k c Hk Ht Hg Hok He. unfold gauge_get in Hg.
  destruct (gauge_run_checked us es g k c Hk Ht Hok He) as [Ha Hb]; rewrite Hg in *; [exact I|].
  split.
  - intros HP.
    assert (D : (forall p s, es = p ++ s -> opt_in_i64 (exact p None))
                \/ (exists p s z, es = p ++ s /\ exact p None = Some z /\ ~ in_i64 z)).
    { clear. generalize (@None Z). 
      induction es as [|e es IH]; intros cur.
      - destruct cur as [z|].
        + assert (in_i64 z \/ ~ in_i64 z) as [D|D] by (unfold in_i64; lia).
          * left. intros p s Hp. symmetry in Hp. apply app_eq_nil in Hp. destruct Hp; subst. exact D.
          * right. exists [], [], z. auto.
        + left. intros p s Hp. symmetry in Hp. apply app_eq_nil in Hp. destruct Hp; subst. exact I.
      - destruct (IH (apply_effect e cur)) as [D|(p & s & z & Hp & Hz & Hn)].
        + assert (opt_in_i64 cur \/ exists z, cur = Some z /\ ~ in_i64 z) as [D2|(z & -> & Hn)].
          { destruct cur as [z|]; [|left; exact I]. cbn. unfold in_i64.
            destruct (Z_lt_dec z i64_min); [right; exists z; split; [reflexivity|lia]|].
            destruct (Z_lt_dec i64_max z); [right; exists z; split; [reflexivity|lia]|left; lia]. }
          * left. intros p s Hp. destruct p as [|e' p]; [exact D2|].
            cbn in Hp. inversion Hp; subst. unfold exact. cbn [fold_left]. apply (D p s). reflexivity.
          * right. exists [], (e :: es), z. auto.
        + right. exists (e :: p), s, z. subst. auto. }
    destruct D as [D|(p & s & z & Hp & Hz & Hno)].
    + destruct (Ha D) as (g' & ns & Hgx). congruence.
    + exists p, s, z. split; [assumption|split; [|assumption]].
      destruct (exact_value_total p) as (v & Hv). pose proof (exact_value_exact p v Hv).
      congruence.
  - intros (p & s & z & Hp & Hz & Hno). apply (Hb p s Hp).
    rewrite (exact_value_exact p _ Hz). exact Hno.
Qed.
