From Coq Require Import ZArith Bool String List Lia ZifyBool.
From Verif Require Import Base SpecRun MonadFacts SpecClock ClockProofs SpecCounting SpecObservation SpecGauge SpecMeter SpecHistogram SpecSwitches ModelObservation
  ModelLabelFilter ModelSnapshot ModelBuckets ModelCounter ModelGauge ModelMeter ModelHistogram ModelSwitches ModelInstrument ModelTree SpecNames
  SpecTree SpecSite SpecLife SpecLives FloatProofs ObservationProofs GaugeProofs SwitchesProofs HistogramProofs MeterProofs MeterHistoryProofs WritingProofs LifeProofs
  LivesProofs.
Import ListNotations.
Open Scope Z_scope.

Lemma iter_later : forall j c, later c (Nat.iter j clock_tail c).
Proof.
  induction j as [|j IH]; intros c; [apply later_refl|]. cbn [Nat.iter]. eapply later_trans; [apply IH | apply later_tail].
Qed.

(** ** Visits *)

Lemma taken_app : forall a b, taken (a ++ b) = taken a ++ taken b.
Proof. intros. apply flat_map_app. Qed.

Lemma record_snoc : forall start vs l t r e, last_record start vs l ->
  last_record start (vs ++ [(t, r, e)]) (match e with Sets _ => r | _ => l end).
Proof.
  intros start vs l t r e Hl.
  assert (N : (forall z, e <> Sets z) -> last_record start (vs ++ [(t, r, e)]) l).
  { intros He. assert (Hs : taken [(t, r, e)] = []) by (destruct e as [z|d|]; [destruct (He z); reflexivity | reflexivity | reflexivity]).
    destruct Hl as [vs Hv|vs t' r' z vs' Hv].
    - apply lr_never. rewrite taken_app, Hv, Hs. reflexivity.
    - rewrite <- app_assoc. cbn [app]. apply lr_at. rewrite taken_app, Hv, Hs. reflexivity. }
  destruct e as [z|d|]; [apply lr_at; reflexivity | apply N; discriminate | apply N; discriminate].
Qed.

Lemma record_inv : forall start vs t r e l, last_record start (vs ++ [(t, r, e)]) l ->
  match e with Sets _ => l = r | _ => last_record start vs l end.
Proof.
  intros start vs t r e l Hl. inversion Hl as [vs' Hs E|vs1 t' r' z vs2 Hs E]; subst.
  - rewrite taken_app in Hs. apply app_eq_nil in Hs. destruct Hs as [Hs Hs'].
    destruct e; [discriminate Hs'| |]; apply lr_never; exact Hs.
  - destruct vs2 as [|x vs2 _] using rev_ind.
    + apply app_inj_tail in E. destruct E as [-> E]. injection E as <- <- <-. reflexivity.
    + change (vs1 ++ (t', l, Sets z) :: vs2 ++ [x]) with (vs1 ++ ((t', l, Sets z) :: vs2) ++ [x]) in E.
      rewrite app_assoc in E. apply app_inj_tail in E. destruct E as [<- ->].
      rewrite taken_app in Hs. apply app_eq_nil in Hs. destruct Hs as [Hs Hs'].
      destruct e; [discriminate Hs'| |]; apply lr_at; exact Hs.
Qed.

Lemma record_unique : forall start vs a b, last_record start vs a -> last_record start vs b -> a = b.
Proof.
  intros start vs. induction vs as [|[[t r] e] vs IH] using rev_ind; intros a b Ha Hb.
  - inversion Ha as [vs' Hs' E|vs1 t r z vs2 Hs' E]; [|destruct vs1; discriminate E].
    inversion Hb as [vs'' Hs'' E'|vs1 t r z vs2 Hs'' E']; [congruence|]. destruct vs1; discriminate E'.
  - apply record_inv in Ha. apply record_inv in Hb. destruct e; [congruence|eauto|eauto].
Qed.

Lemma no_clearing_snoc : forall start limit reset base vs v,
  no_clearing start limit reset base vs -> ~ clears start limit reset (base ++ vs) (arrived v) ->
  no_clearing start limit reset base (vs ++ [v]).
Proof.
  intros start limit reset base vs v Hn Ht a w b E.
  destruct b as [|x b _] using rev_ind.
  - apply app_inj_tail in E. destruct E as [<- <-]. exact Ht.
  - change (a ++ w :: b ++ [x]) with (a ++ (w :: b) ++ [x]) in E.
    rewrite app_assoc in E. apply app_inj_tail in E. destruct E as [E _]. eapply Hn; exact E.
Qed.

Lemma retained_snoc : forall start limit reset held vs l v,
  retained start limit reset held vs l -> ~ clears start limit reset vs (arrived v) ->
  retained start limit reset held (vs ++ [v]) (l ++ sample (snd v)).
Proof.
  intros start limit reset held vs l v Hk Ht. destruct Hk as [vs Hn|vs1 w vs2 Hr Hn].
  - replace ((held ++ taken vs) ++ sample (snd v)) with (held ++ taken (vs ++ [v])).
    + apply rt_all. apply no_clearing_snoc; [exact Hn|exact Ht].
    + rewrite taken_app. cbn. rewrite app_nil_r, app_assoc. reflexivity.
  - rewrite <- app_assoc. cbn [app].
    replace ((sample (snd w) ++ taken vs2) ++ sample (snd v)) with (sample (snd w) ++ taken (vs2 ++ [v])).
    + apply rt_since; [exact Hr|]. apply no_clearing_snoc; [exact Hn|]. rewrite <- app_assoc. exact Ht.
    + rewrite taken_app. cbn. rewrite app_nil_r, app_assoc. reflexivity.
Qed.

Lemma retained_snoc_cleared : forall start limit reset held vs v,
  clears start limit reset vs (arrived v) -> retained start limit reset held (vs ++ [v]) (sample (snd v)).
Proof.
  intros start limit reset held vs v Hr.
  replace (sample (snd v)) with (sample (snd v) ++ taken []) by apply app_nil_r.
  apply rt_since; [exact Hr|]. intros a w b E. destruct a; discriminate E.
Qed.

(** ** One update *)

Section Histogram.
  Context (H : histo_ops) (contents : histo H -> list Z) (Hc : counting H contents).

  Lemma recording : forall x v k c x' c', histogram_record x v k c = Ok x' c' -> monotone c ->
    contents (h_inner x') = contents (h_inner x) ++ [v] /\ HistogramProofs.same_settings H x x' /\ later c c' /\ c O <= h_last_update x' <= c' O.
  Proof.
    intros x v k c x' c' E Hm. unfold histogram_record in E. apply bind_ok in E. destruct E as (i & c1 & E1 & E2).
    apply (counting_update _ _ Hc) in E1. destruct E1 as (E1 & j & ->).
    apply bind_ok in E2. destruct E2 as (n & c2 & E2 & E3). injection E2 as <- <-. injection E3 as <- <-. cbn [h_inner h_last_update histogram_with].
    split; [exact E1|]. split; [repeat split|].
    assert (L1 := iter_later j c). destruct (monotone_later _ _ Hm L1) as [Hm1 B1].
    split; [eapply later_trans; [exact L1 | apply later_tail]|]. split; [exact B1 | exact (Hm1 O)].
  Qed.

  Lemma resetting : forall x k c x' c', histogram_maybe_reset x k c = Ok x' c' ->
    h_last_update x' = h_last_update x /\ HistogramProofs.same_settings H x x' /\ later c c'
    /\ contents (h_inner x') =
       match h_max_inactivity x with
       | Some d => if h_reset_after_inactivity x && (d <? Z.max 0 (c O - h_last_update x)) then [] else contents (h_inner x)
       | None => contents (h_inner x)
       end.
  Proof.
    intros x k c x' c' E. unfold histogram_maybe_reset in E. pose proof (later_refl c) as L0.
    destruct (h_max_inactivity x) as [d|] eqn:El; [|injection E as <- <-; repeat split; exact L0].
    destruct (h_reset_after_inactivity x) eqn:Er; [|injection E as <- <-; repeat split; exact L0].
    apply bind_ok in E. destruct E as (n & c2 & E2 & E3). rewrite elapsed_eq in E2. injection E2 as <- <-.
    cbn [andb]. destruct (d <? Z.max 0 (c O - h_last_update x)).
    - apply bind_ok in E3. destruct E3 as (i & c1 & E1 & E2).
      apply (counting_new _ _ Hc) in E1. destruct E1 as (E1 & j & ->). injection E2 as <- <-. cbn [h_inner h_last_update histogram_with]. rewrite E1.
      split; [reflexivity|]. split; [repeat split|]. split; [eapply later_trans; [apply later_tail | apply iter_later] | reflexivity].
    - injection E3 as <- <-. split; [reflexivity|]. split; [repeat split|]. split; [apply later_tail | reflexivity].
  Qed.

  Lemma updating : forall x u e k c x' n c', monotone c ->
    update_ok u -> update_effect (h_display_time_unit x) u e -> histogram_update x u k c = Ok (x', n) c' ->
    HistogramProofs.same_settings H x x' /\ later c c'
    /\ (exists r, c O <= r <= c' O /\ h_last_update x' = match e with Sets _ => r | _ => h_last_update x end)
    /\ contents (h_inner x') =
       match h_max_inactivity x with
       | Some d => if h_reset_after_inactivity x && (d <? Z.max 0 (c O - h_last_update x)) then [] else contents (h_inner x)
       | None => contents (h_inner x)
       end ++ sample e.
  Proof.
    intros x u e k c x' n c' Hm Hok He E. unfold histogram_update in E.
    apply bind_ok in E. destruct E as (x1 & c1 & E1 & E).
    apply resetting in E1. destruct E1 as (L1 & S1 & T1 & C1). rewrite <- C1. destruct (monotone_later _ _ Hm T1) as [Hm1 B1].
    assert (Hignore : Ok (x1, 0) c1 = Ok (x', n) c' -> sample e = [] -> (forall z, e <> Sets z) ->
       HistogramProofs.same_settings H x x' /\ later c c'
       /\ (exists r, c O <= r <= c' O /\ h_last_update x' = match e with Sets _ => r | _ => h_last_update x end)
       /\ contents (h_inner x') = contents (h_inner x1) ++ sample e).
    { intros Ee Hs Hn. injection Ee as <- <- <-. rewrite Hs, app_nil_r. split; [exact S1|]. split; [exact T1|]. split; [|reflexivity].
      exists (c O). split; [lia|]. destruct e; [exfalso; eapply Hn; reflexivity| |]; exact L1. }
    assert (Hrec : forall z, e = Sets z -> histogram_record x1 z k c1 = Ok x' c' ->
       HistogramProofs.same_settings H x x' /\ later c c'
       /\ (exists r, c O <= r <= c' O /\ h_last_update x' = match e with Sets _ => r | _ => h_last_update x end)
       /\ contents (h_inner x') = contents (h_inner x1) ++ sample e).
    { intros z -> R. destruct (recording _ _ _ _ _ _ R Hm1) as (R1 & R2 & R3 & R4).
      split; [eapply same_trans; eassumption|]. split; [eapply later_trans; eassumption|]. split; [exists (h_last_update x'); split; [lia | reflexivity] | exact R1]. }
    clear C1. destruct He as [v ts e He|ts|q ts].
    - cbn in Hok. destruct He as [v q z Hn Hz Hr|v q Hn Hq|b| | |tm a Hle|dl].
      + pose proof (to_i64_number v q z Hok Hn Hz Hr) as Ec.
        assert (E' : (let* h := histogram_record x1 z in ret (h, 1)) k c1 = Ok (x', n) c').
        { destruct v; cbn in Hn; try discriminate Hn; rewrite Ec in E; exact E. }
        apply bind_ok in E'. destruct E' as (x2 & c2 & R & E'). injection E' as <- <- <-. eapply Hrec; [reflexivity | exact R].
      + pose proof (proj1 (to_int_too_large v q Hok Hn) Hq) as Ec.
        assert (E' : ret (x1, 0) k c1 = Ok (x', n) c').
        { destruct v; cbn in Hn; try discriminate Hn; rewrite Ec in E; exact E. }
        apply (Hignore E'); [reflexivity | discriminate].
      + apply (Hignore E); [reflexivity | discriminate].
      + apply (Hignore E); [reflexivity | discriminate].
      + apply (Hignore E); [reflexivity | discriminate].
      + cbn in Hok. destruct S1 as (S11 & S12 & S13 & S14 & S15 & S16). rewrite S16 in E.
        apply bind_ok in E. destruct E as (dv & c2 & E2 & E3).
        rewrite display_fits in E2 by (assumption || lia). injection E2 as <- <-.
        assert (0 <= tm * nanos_in a / nanos_in (h_display_time_unit x)).
        { apply Z.div_pos; [|apply nanos_in_pos]. pose proof (nanos_in_pos a). unfold in_u64 in Hok. nia. }
        rewrite wrap_i64_id in E3 by lia.
        apply bind_ok in E3. destruct E3 as (x2 & c2 & R & E'). injection E' as <- <- <-. eapply Hrec; [reflexivity | exact R].
      + apply (Hignore E); [reflexivity | discriminate].
    - apply (Hignore E); [reflexivity | discriminate].
    - apply (Hignore E); [reflexivity | discriminate].
  Qed.
End Histogram.

(** ** The life *)

Section Life.
  Context {X : ext} (contents : histo (ex_histo X) -> list Z) (Hc : counting (ex_histo X) contents).
  Context (start : Z) (held : list Z).

  Lemma visits_before : forall a a' b vs, visits a b vs -> a' <= a -> visits a' b vs.
  Proof. intros a a' b vs H Ha. inversion H; subst; constructor; try assumption; lia. Qed.

  Lemma histogram_life_retained : forall k c (x : histogram (ex_histo X)) m os (x' : leaf X) c',
    leaf_life k c (LInstrument (IHistogram x) m) os x' c' -> monotone c -> (forall d, h_max_inactivity x = Some d -> 0 <= d) ->
    forall vs0 es, last_record start vs0 (h_last_update x) ->
    retained start (h_max_inactivity x) (h_reset_after_inactivity x) held vs0 (contents (h_inner x)) ->
    Forall update_ok (map (taken_as m) os) -> Forall2 (update_effect (h_display_time_unit x)) (map (taken_as m) os) es ->
    exists y vs, x' = LInstrument (IHistogram y) m /\ HistogramProofs.same_settings _ x y /\ map snd vs = es /\ visits (c O) (c' O) vs
      /\ last_record start (vs0 ++ vs) (h_last_update y)
      /\ retained start (h_max_inactivity x) (h_reset_after_inactivity x) held (vs0 ++ vs) (contents (h_inner y)) /\ monotone c'.
  Proof.
    intros k c x m os x' c' H. remember (LInstrument (IHistogram x) m) as v eqn:Ev. revert x Ev.
    induction H as [c v c' L|c c0 o v v1 n c1 os v2 c2 L E H IH|c c0 v de into v1 s c1 os v2 c2 L E H IH]; intros x -> Hm Hd vs0 es Hl Hr Hok He.
    - inversion He; subst. destruct (monotone_later _ _ Hm L) as (Hm' & Hb). exists x, []. split; [reflexivity|]. split; [repeat split|].
      split; [reflexivity|]. split; [constructor; exact Hb|]. rewrite app_nil_r. split; [exact Hl|]. split; [exact Hr | exact Hm'].
    - destruct (monotone_later _ _ Hm L) as (Hm0 & Hb0).
      cbn [leaf_handle] in E. rewrite taken_modify in E.
      apply bind_ok in E. destruct E as ([i n1] & c3 & E1 & E). injection E as <- <- <-.
      cbn [instrument_update] in E1. unfold wrap in E1. apply bind_ok in E1. destruct E1 as ([x1 n2] & c4 & E2 & E1). injection E1 as <- <- <-.
      cbn [map] in Hok, He. inversion Hok as [|? ? Hok1 Hok2]; subst. inversion He as [|? e ? es' He1 He2]; subst.
      destruct (updating _ _ Hc _ _ _ _ _ _ _ _ Hm0 Hok1 He1 E2) as (S1 & L1 & (r & Hr1 & Hr2) & C1).
      destruct (monotone_later _ _ Hm0 L1) as (Hm1 & Hb1). pose proof S1 as (N1 & N2 & N3 & N4 & N5 & N6).
      assert (Hl' : last_record start (vs0 ++ [(c0 O, r, e)]) (h_last_update x1)) by (rewrite Hr2; apply record_snoc; exact Hl).
      assert (Hr' : retained start (h_max_inactivity x1) (h_reset_after_inactivity x1) held (vs0 ++ [(c0 O, r, e)]) (contents (h_inner x1))).
      { rewrite N3, N4, C1. destruct (h_max_inactivity x) as [d|] eqn:Em.
        - specialize (Hd d eq_refl). destruct (h_reset_after_inactivity x) eqn:Er; cbn [andb].
          + destruct (d <? Z.max 0 (c0 O - h_last_update x)) eqn:Ed.
            * apply (retained_snoc_cleared _ _ _ _ _ (c0 O, r, e)). split; [reflexivity|]. exists d, (h_last_update x).
              split; [reflexivity|]. split; [exact Hl|]. cbn. lia.
            * apply (retained_snoc _ _ _ _ _ _ (c0 O, r, e)); [exact Hr|]. intros (_ & d' & r' & Hd' & Hr' & Hlt). injection Hd' as <-.
              rewrite (record_unique _ _ _ _ Hr' Hl) in Hlt. cbn in Hlt. lia.
          + apply (retained_snoc _ _ _ _ _ _ (c0 O, r, e)); [exact Hr|]. intros (Hx & _). discriminate Hx.
        - apply (retained_snoc _ _ _ _ _ _ (c0 O, r, e)); [exact Hr|]. intros (_ & d' & r' & Hd' & _). discriminate Hd'. }
      rewrite <- N6 in He2.
      destruct (IH x1 eq_refl Hm1 ltac:(rewrite N3; exact Hd) _ _ Hl' Hr' Hok2 He2) as (y & vs & -> & S2 & M & V & Hl2 & Hr2' & Hm2).
      exists y, ((c0 O, r, e) :: vs). split; [reflexivity|]. split; [eapply same_trans; eassumption|]. split; [cbn [map snd]; f_equal; exact M|].
      split; [constructor; [lia | lia|]; eapply visits_before; [exact V | lia]|].
      rewrite <- app_assoc in Hl2, Hr2'. cbn [app] in Hl2, Hr2'. split; [exact Hl2|]. rewrite N3, N4 in Hr2'. split; [exact Hr2' | exact Hm2].
    - destruct (monotone_later _ _ Hm L) as (Hm0 & Hb0).
      cbn [leaf_put instrument_put] in E. apply bind_ok in E. destruct E as ([i s1] & c3 & E1 & E). injection E as <- <- <-.
      unfold keep in E1. apply bind_ok in E1. destruct E1 as (s2 & c4 & E2 & E1). injection E1 as <- <- <-.
      assert (L1 : later c0 c4).
      { unfold histogram_put in E2. apply bind_ok in E2. destruct E2 as (l & c5 & E2 & E3). injection E3 as _ <-.
        unfold histogram_put_values in E2. apply bind_ok in E2. destruct E2 as (a & c6 & E2 & E3).
        assert (c5 = c6) by (destruct a; injection E3 as _ <-; reflexivity). subst c6. clear E3.
        destruct (h_max_inactivity x); [|injection E2 as _ <-; apply later_refl].
        apply bind_ok in E2. destruct E2 as (el & c7 & E2 & E3). injection E3 as _ <-. exact (elapsed_ticks _ _ _ _ _ E2). }
      destruct (monotone_later _ _ Hm0 L1) as (Hm1 & Hb1).
      destruct (IH x eq_refl Hm1 Hd _ _ Hl Hr Hok He) as (y & vs & -> & S2 & M & V & Hl2 & Hr2 & Hm2).
      exists y, vs. split; [reflexivity|]. split; [exact S2|]. split; [exact M|]. split; [eapply visits_before; [exact V | lia]|].
      split; [exact Hl2|]. split; [exact Hr2 | exact Hm2].
  Qed.
End Life.

Section Shown.
  Context {X : ext} (contents : histo (ex_histo X) -> list Z) (Hc : counting (ex_histo X) contents).

  Lemma histogram_life : forall k c (x : histogram (ex_histo X)) m os (x' x'' : leaf X) c' c2 de into fields c3 es,
    monotone c -> leaf_life k c (LInstrument (IHistogram x) m) os x' c' -> (forall d, h_max_inactivity x = Some d -> 0 < d) ->
    Forall update_ok (map (taken_as m) os) -> Forall2 (update_effect (h_display_time_unit x)) (map (taken_as m) os) es ->
    leaf_put x' de into k c2 = Ok (x'', into ++ fields) c3 ->
    exists vs inner a texts,
      map snd vs = es /\ visits (c O) (c' O) vs
      /\ retained (h_last_update x) (h_max_inactivity x) (h_reset_after_inactivity x) (contents (h_inner x)) vs (contents inner)
      /\ (a = true <-> awake (h_last_update x) (h_max_inactivity x) vs (c2 O))
      /\ only_texts texts
      /\ fields = texts ++ [(h_name x, ItemSnapshot
               ((match h_max_inactivity x with
                 | Some _ => if h_show_activity_state x then activity_fields a else []
                 | None => []
                 end)
                ++ (if a then statistics (histo_snapshot (ex_histo X) inner) (List.length (contents inner)) else [])))].
  Proof.
    intros k c x m os x' x'' c' c2 de into fields c3 es Hm H Hd Hok He E.
    assert (Hd' : forall d, h_max_inactivity x = Some d -> 0 <= d) by (intros d Ed; specialize (Hd d Ed); lia).
    assert (R0 : retained (h_last_update x) (h_max_inactivity x) (h_reset_after_inactivity x) (contents (h_inner x)) [] (contents (h_inner x))).
    { rewrite <- (app_nil_r (contents (h_inner x))) at 2. apply (rt_all _ _ _ _ []). intros a w b Ea. destruct a; discriminate Ea. }
    destruct (histogram_life_retained contents Hc (h_last_update x) (contents (h_inner x)) _ _ _ _ _ _ _ H Hm Hd' [] es
      (lr_never _ [] eq_refl) R0 Hok He) as (y & vs & -> & (S1 & S2 & S3 & S4 & S5 & S6) & M & V & Hl & Hr & _). cbn [app] in Hl, Hr.
    cbn [leaf_put instrument_put] in E. apply bind_ok in E. destruct E as ([i s1] & c4 & E1 & E). injection E as <- -> <-.
    unfold keep in E1. apply bind_ok in E1. destruct E1 as (s2 & c5 & E2 & E1). injection E1 as <- -> <-.
    unfold histogram_put in E2. destruct (added_texts (h_descr y) (h_name y) de into) as (texts & Et & Ht). rewrite Et in E2.
    apply bind_ok in E2. destruct E2 as (lvl & q1 & P1 & P2). unfold push in P2. injection P2 as P2 _. rewrite <- app_assoc in P2. apply app_inv_head in P2.
    unfold histogram_put_values in P1. apply bind_ok in P1. destruct P1 as (a & q2 & P1 & P3). rewrite S3 in P1, P3. rewrite S5 in P3.
    exists vs, (h_inner y), a, texts. split; [exact M|]. split; [exact V|]. split; [exact Hr|]. split; [|split; [exact Ht|]].
    - unfold awake. destruct (h_max_inactivity x) as [l|].
      + apply bind_ok in P1. destruct P1 as (e & q3 & P1 & P4). rewrite elapsed_eq in P1. injection P1 as <- <-.
        injection P4 as <- _. specialize (Hd l eq_refl). split.
        * intros Hlt. exists (h_last_update y). split; [exact Hl|]. lia.
        * intros (r & Hr' & Hlt). rewrite (record_unique _ _ _ _ Hr' Hl) in Hlt. lia.
      + injection P1 as <- _. tauto.
    - subst fields. rewrite S1. do 4 f_equal. rewrite <- (histo_values_shown _ _ Hc). change snapshot_default with (@nil (string * item_kind)) in P3.
      destruct (h_max_inactivity x); [destruct (h_show_activity_state x)|];
        (destruct a; [rewrite histo_values_app in P3|]; injection P3 as <- _; rewrite ?push_activity_shown, ?app_nil_r; reflexivity).
  Qed.
End Shown.

(** ** Value meters *)

Section Values.
  Context {X : ext}.

  Lemma value_meter_life_metered : forall amount al start k c (v : value_meter) f os (x' : leaf X) c',
    leaf_life k c (LInstrument (IValueMeter v) f) os x' c' -> monotone c ->
    forall t l0, metered (m_inner (vm_meter v)) al start t l0 -> t <= c O -> Forall (vm_good amount v) (map (taken_as f) os) ->
    exists v' t' l, x' = LInstrument (IValueMeter v') f /\ same_vm v v' /\ metered (m_inner (vm_meter v')) al start t' (l0 ++ l) /\ t' <= c' O
      /\ map snd l = summed amount (map (taken_as f) os) /\ between (c O) (c' O) l /\ monotone c'.
  Proof.
    intros amount al start k c v f os x' c' H. remember (LInstrument (IValueMeter v) f) as x eqn:Ex. revert v Ex.
    induction H as [c x c' L|c c0 o x x1 n c1 os x2 c2 L E H IH|c c0 x de into x1 s c1 os x2 c2 L E H IH]; intros v -> Hm t l0 M Ht Hok.
    - destruct (monotone_later _ _ Hm L) as (Hm' & Hc). exists v, t, []. split; [reflexivity|]. split; [apply same_vm_refl|].
      rewrite app_nil_r. split; [exact M|]. split; [lia|]. split; [reflexivity|]. split; [constructor; exact Hc | exact Hm'].
    - destruct (monotone_later _ _ Hm L) as (Hm0 & Hc0).
      cbn [leaf_handle] in E. rewrite taken_modify in E.
      apply bind_ok in E. destruct E as ([i n1] & c3 & E1 & E). injection E as <- <- <-.
      cbn [instrument_update] in E1. unfold wrap in E1. apply bind_ok in E1. destruct E1 as ([m1 n2] & c4 & E2 & E1). injection E1 as <- <- <-.
      cbn [map] in Hok. inversion Hok as [|? ? Hok1 Hok2]; subst.
      destruct (value_meter_upd_metered amount _ _ _ _ _ _ _ _ _ _ _ Hok1 Hm0 M (Z.le_trans _ _ _ Ht Hc0) E2) as (P & S & t1 & Ht1 & A).
      assert (B : monotone c4 /\ c0 O <= c4 O).
      { destruct P as [->|P]; [split; [exact Hm0 | lia] | exact (passes_le _ _ Hm0 P)]. }
      destruct B as (Hm1 & Hc1).
      assert (Hok3 : Forall (vm_good amount m1) (map (taken_as f) os)).
      { eapply Forall_impl; [|exact Hok2]. intros u. apply vm_good_same. exact S. }
      cbn [map summed flat_map]. destruct (amount (taken_as f o)) as [q|].
      + destruct A as (R & M1). destruct (read_during_le _ _ _ Hm0 R) as (R1 & R2).
        destruct (IH _ eq_refl Hm1 _ _ M1 Ht1 Hok3) as (m' & t' & l & -> & S' & M' & Ht' & Hl & Hb & Hm').
        exists m', t', ((t1, q) :: l). split; [reflexivity|]. split; [eapply same_vm_trans; eassumption|].
        rewrite <- app_assoc in M'. split; [exact M'|]. split; [exact Ht'|]. split; [cbn; f_equal; exact Hl|].
        split; [|exact Hm']. constructor; [lia|]. eapply between_widen; [exact Hb | lia | lia].
      + destruct (IH _ eq_refl Hm1 _ _ A Ht1 Hok3) as (m' & t' & l & -> & S' & M' & Ht' & Hl & Hb & Hm').
        exists m', t', l. split; [reflexivity|]. split; [eapply same_vm_trans; eassumption|].
        split; [exact M'|]. split; [exact Ht'|]. split; [exact Hl|]. split; [|exact Hm']. eapply between_widen; [exact Hb | lia | lia].
    - destruct (monotone_later _ _ Hm L) as (Hm0 & Hc0).
      cbn [leaf_put instrument_put] in E. apply bind_ok in E. destruct E as ([i s1] & c3 & E1 & E). injection E as <- <- <-.
      unfold wrap in E1. apply bind_ok in E1. destruct E1 as ([m1 s2] & c4 & E2 & E1). injection E1 as <- <- <-.
      destruct (value_meter_put_metered _ _ _ _ _ _ _ _ _ _ _ _ Hm0 M (Z.le_trans _ _ _ Ht Hc0) E2) as (P & S & t1 & R & Ht1 & M1).
      destruct (passes_le _ _ Hm0 P) as (Hm1 & Hc1).
      assert (Hok3 : Forall (vm_good amount m1) (map (taken_as f) os)).
      { eapply Forall_impl; [|exact Hok]. intros u. apply vm_good_same. exact S. }
      destruct (IH _ eq_refl Hm1 _ _ M1 Ht1 Hok3) as (m' & t' & l & -> & S' & M' & Ht' & Hl & Hb & Hm').
      exists m', t', l. split; [reflexivity|]. split; [eapply same_vm_trans; eassumption|].
      split; [exact M'|]. split; [exact Ht'|]. split; [exact Hl|]. split; [|exact Hm']. eapply between_widen; [exact Hb | lia | lia].
  Qed.

  Lemma value_meter_life : forall al name k c0 v0 c1 (v : value_meter) c f amount os (x' x'' : leaf X) c' c2 de into fields c3,
    monotone c0 -> value_meter_new al name k c0 = Ok v0 c1 -> m_inner (vm_meter v) = m_inner (vm_meter v0) -> later c1 c ->
    leaf_life k c (LInstrument (IValueMeter v) f) os x' c' ->
    Forall (fun u => update_ok u /\ value_counts (vm_display_time_unit v) u (amount u)) (map (taken_as f) os) ->
    later c' c2 -> leaf_put x' de into k c2 = Ok (x'', into ++ fields) c3 ->
    exists start l t texts,
      read_during c0 c1 start /\ map snd l = summed amount (map (taken_as f) os) /\ between (c O) (c' O) l
      /\ read_during c2 c3 t /\ fields = texts ++ meter_shows (vm_meter v) al start l t /\ only_texts texts.
  Proof.
    intros al name k c0 v0 c1 v c f amount os x' x'' c' c2 de into fields c3 Hm E0 Hi L1 H Hok L2 E.
    apply value_meter_new_inner in E0. destruct E0 as [E0 _].
    destruct (meter_new_inner _ _ _ _ _ _ E0) as (-> & M0 & _). rewrite <- Hi in M0.
    assert (P0 : passes c0 (clock_tail (clock_tail c0))) by (exists 1%nat; reflexivity).
    destruct (passes_le _ _ Hm P0) as (Hm1 & _). destruct (monotone_later _ _ Hm1 L1) as (Hmc & Hc).
    assert (T0 : c0 1%nat <= c O). { eapply Z.le_trans; [|exact Hc]. exact (Hm 1%nat). }
    destruct (value_meter_life_metered _ _ _ _ _ _ _ _ _ _ H Hmc _ _ M0 T0 Hok) as (m' & t' & l & -> & (S & _) & M & Ht & Hl & Hb & Hm').
    destruct (monotone_later _ _ Hm' L2) as (Hm2 & Hc2).
    cbn [leaf_put instrument_put] in E. apply bind_ok in E. destruct E as ([i s1] & c4 & E1 & E). injection E as <- -> <-.
    unfold wrap in E1. apply bind_ok in E1. destruct E1 as ([m1 s2] & c5 & E2 & E1). injection E1 as <- -> <-.
    unfold value_meter_put in E2. apply bind_ok in E2. destruct E2 as ([m2 s3] & c6 & E2 & E3). injection E3 as <- -> <-.
    destruct (meter_put_metered _ _ _ _ _ _ _ _ _ _ _ _ Hm2 M (Z.le_trans _ _ _ Ht Hc2) E2) as (P & S2 & t & R & _ & _ & Es).
    destruct (added_texts (m_descr (vm_meter m')) (m_name (vm_meter m')) de into) as (texts & T & Hx).
    rewrite T, <- app_assoc in Es. apply app_inv_head in Es. subst fields.
    exists (c0 1%nat), l, t, texts. split; [exists 1%nat, 2%nat; split; [lia | split; reflexivity]|].
    split; [exact Hl|]. split; [exact Hb|]. split; [exact R|]. split; [|exact Hx].
    cbn [app] in *. f_equal. unfold meter_shows. destruct S as (-> & _ & -> & -> & -> & ->). reflexivity.
  Qed.
End Values.
