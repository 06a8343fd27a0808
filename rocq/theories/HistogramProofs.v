From Coq Require Import ZArith QArith Bool String List Lia ZifyBool.
From Verif Require Import Base SpecRun SpecCounting SpecObservation SpecGauge SpecHistogram MonadFacts
  ModelObservation ModelSnapshot ModelHistogram FloatProofs ObservationProofs SwitchesProofs.
Import ListNotations.
Open Scope Z_scope.

Lemma iter_frozen : forall j t, Nat.iter j clock_tail (frozen t) = frozen t.
Proof. induction j as [|j IH]; intros t; [reflexivity|]. cbn [Nat.iter]. change (clock_tail (Nat.iter j clock_tail (frozen t)) = frozen t). rewrite IH. reflexivity. Qed.

Lemma samples_app : forall a b, samples (a ++ b) = samples a ++ samples b.
Proof. intros. apply flat_map_app. Qed.

Section Histogram.
  Context (H : histo_ops) (contents : histo H -> list Z) (Hc : counting H contents).

  Definition same_settings (a b : histogram H) : Prop :=
    h_name b = h_name a /\ h_descr b = h_descr a /\ h_max_inactivity b = h_max_inactivity a
    /\ h_reset_after_inactivity b = h_reset_after_inactivity a
    /\ h_show_activity_state b = h_show_activity_state a /\ h_display_time_unit b = h_display_time_unit a.

  Lemma record_inv : forall x v k t x' c',
    histogram_record x v k (frozen t) = Ok x' c' ->
    contents (h_inner x') = contents (h_inner x) ++ [v] /\ h_last_update x' = t
    /\ same_settings x x' /\ c' = frozen t.
  Proof.
    intros x v k t x' c' E. unfold histogram_record in E. apply bind_ok in E. destruct E as (i & c1 & E1 & E2).
    apply (counting_update _ _ Hc) in E1. destruct E1 as (E1 & j & ->). rewrite iter_frozen in E2.
    apply bind_ok in E2. destruct E2 as (n & c2 & E2 & E3). rewrite now_eq in E2. injection E2 as <- <-.
    injection E3 as <- <-. cbn. split; [exact E1|]. split; [reflexivity|]. split; [|reflexivity].
    repeat split.
  Qed.

  Lemma maybe_reset_inv : forall x k t x' c',
    histogram_maybe_reset x k (frozen t) = Ok x' c' ->
    h_last_update x' = h_last_update x /\ same_settings x x' /\ c' = frozen t
    /\ contents (h_inner x') =
       match h_max_inactivity x with
       | Some d => if h_reset_after_inactivity x && (d <? Z.max 0 (t - h_last_update x)) then [] else contents (h_inner x)
       | None => contents (h_inner x)
       end.
  Proof.
    intros x k t x' c' E. unfold histogram_maybe_reset in E.
    destruct (h_max_inactivity x) as [d|] eqn:El; [|injection E as <- <-; repeat split].
    destruct (h_reset_after_inactivity x) eqn:Er; [|injection E as <- <-; repeat split].
    apply bind_ok in E. destruct E as (n & c2 & E2 & E3). rewrite elapsed_eq in E2. injection E2 as <- <-.
    change (frozen t 0%nat) with t in E3. cbn [andb]. destruct (d <? Z.max 0 (t - h_last_update x)).
    - apply bind_ok in E3. destruct E3 as (i & c1 & E1 & E2).
      apply (counting_new _ _ Hc) in E1. destruct E1 as (E1 & j & ->).
      change (clock_tail (frozen t)) with (frozen t) in E2. rewrite iter_frozen in E2.
      injection E2 as <- <-. cbn. rewrite E1. repeat split.
    - injection E3 as <- <-. repeat split.
  Qed.

  Lemma same_trans : forall a b c, same_settings a b -> same_settings b c -> same_settings a c.
  Proof. unfold same_settings. intros a b c (A1 & A2 & A3 & A4 & A5 & A6) (B1 & B2 & B3 & B4 & B5 & B6). repeat split; congruence. Qed.

  Lemma update_inv : forall x u e k t x' n c',
    update_ok u -> update_effect (h_display_time_unit x) u e ->
    histogram_update x u k (frozen t) = Ok (x', n) c' ->
    same_settings x x'
    /\ h_last_update x' = (match e with Sets _ => t | _ => h_last_update x end)
    /\ n = Z.of_nat (List.length (sample e))
    /\ contents (h_inner x') =
       match h_max_inactivity x with
       | Some d => if h_reset_after_inactivity x && (d <? Z.max 0 (t - h_last_update x)) then [] else contents (h_inner x)
       | None => contents (h_inner x)
       end ++ sample e.
  Proof.
    intros x u e k t x' n c' Hok He E. unfold histogram_update in E.
    apply bind_ok in E. destruct E as (x1 & c1 & E1 & E).
    apply maybe_reset_inv in E1. destruct E1 as (L1 & S1 & -> & C1). rewrite <- C1.
    assert (Hignore : x' = x1 -> n = 0 -> sample e = [] -> e <> Sets 0 -> (forall z, e <> Sets z) ->
       same_settings x x' /\ h_last_update x' = (match e with Sets _ => t | _ => h_last_update x end)
       /\ n = Z.of_nat (List.length (sample e)) /\ contents (h_inner x') = contents (h_inner x1) ++ sample e).
    { intros -> -> Hs _ Hn. rewrite Hs, app_nil_r. split; [exact S1|]. split; [|auto].
      destruct e; [exfalso; eapply Hn; reflexivity| |]; exact L1. }
    assert (Hrec : forall z, e = Sets z -> (exists c2, histogram_record x1 z k (frozen t) = Ok x' c2) -> n = 1 ->
       same_settings x x' /\ h_last_update x' = (match e with Sets _ => t | _ => h_last_update x end)
       /\ n = Z.of_nat (List.length (sample e)) /\ contents (h_inner x') = contents (h_inner x1) ++ sample e).
    { intros z -> (c2 & R) ->. apply record_inv in R. destruct R as (R1 & R2 & R3 & _).
      split; [eapply same_trans; eassumption|]. cbn. auto. }
    clear C1. destruct He as [v ts e He|ts|m ts].
    - cbn in Hok. destruct He as [v q z Hn Hz Hr|v q Hn Hq|b| | |tm a Hle|dl].
      + pose proof (to_i64_number v q z Hok Hn Hz Hr) as Ec.
        assert (E' : (let* h := histogram_record x1 z in ret (h, 1)) k (frozen t) = Ok (x', n) c').
        { destruct v; cbn in Hn; try discriminate Hn; rewrite Ec in E; exact E. }
        apply bind_ok in E'. destruct E' as (x2 & c2 & R & E'). injection E' as <- <- <-.
        eapply Hrec; [reflexivity| |reflexivity]. eauto.
      + pose proof (proj1 (to_int_too_large v q Hok Hn) Hq) as Ec.
        assert (E' : ret (x1, 0) k (frozen t) = Ok (x', n) c').
        { destruct v; cbn in Hn; try discriminate Hn; rewrite Ec in E; exact E. }
        injection E' as <- <- <-. apply Hignore; try reflexivity; discriminate.
      + injection E as <- <- <-. apply Hignore; try reflexivity; discriminate.
      + injection E as <- <- <-. apply Hignore; try reflexivity; discriminate.
      + injection E as <- <- <-. apply Hignore; try reflexivity; discriminate.
      + cbn in Hok. destruct S1 as (S11 & S12 & S13 & S14 & S15 & S16). rewrite S16 in E.
        apply bind_ok in E. destruct E as (dv & c2 & E2 & E3).
        rewrite display_fits in E2 by (assumption || lia). injection E2 as <- <-.
        assert (0 <= tm * nanos_in a / nanos_in (h_display_time_unit x)).
        { apply Z.div_pos; [|apply nanos_in_pos]. pose proof (nanos_in_pos a). unfold in_u64 in Hok. nia. }
        rewrite wrap_i64_id in E3 by lia.
        apply bind_ok in E3. destruct E3 as (x2 & c2 & R & E'). injection E' as <- <- <-.
        eapply Hrec; [reflexivity| |reflexivity]. eauto.
      + injection E as <- <- <-. apply Hignore; try reflexivity; discriminate.
    - injection E as <- <- <-. apply Hignore; try reflexivity; discriminate.
    - injection E as <- <- <-. apply Hignore; try reflexivity; discriminate.
  Qed.

  (** *** Recordings *)

  Lemma recorded_snoc : forall start es r t e, last_recorded start es r ->
    last_recorded start (es ++ [(t, e)]) (match e with Sets _ => t | _ => r end).
  Proof.
    intros start es r t e Hl. destruct e as [z|d|].
    - apply recorded_at. reflexivity.
    - destruct Hl as [es Hs|es1 t' z es2 Hs].
      + apply recorded_never. rewrite samples_app, Hs. reflexivity.
      + rewrite <- app_assoc. cbn. apply recorded_at. rewrite samples_app, Hs. reflexivity.
    - destruct Hl as [es Hs|es1 t' z es2 Hs].
      + apply recorded_never. rewrite samples_app, Hs. reflexivity.
      + rewrite <- app_assoc. cbn. apply recorded_at. rewrite samples_app, Hs. reflexivity.
  Qed.

  Lemma recorded_unique : forall start es a b, last_recorded start es a -> last_recorded start es b -> a = b.
  Proof.
    intros start es. induction es as [|[t e] es IH] using rev_ind; intros a b Ha Hb.
    - inversion Ha as [es' Hs' E|es1 t z es2 Hs' E]; [|destruct es1; discriminate E].
      inversion Hb as [es'' Hs'' E'|es1 t z es2 Hs'' E']; [congruence|]. destruct es1; discriminate E'.
    - assert (Hinv : forall r, last_recorded start (es ++ [(t, e)]) r ->
        match e with Sets _ => r = t | _ => last_recorded start es r end).
      { clear. intros r Hl. inversion Hl as [es' Hs E|es1 t' z es2 Hs E]; subst.
        - rewrite samples_app in Hs. apply app_eq_nil in Hs. destruct Hs as [Hs Hs'].
          destruct e; [discriminate Hs'| |]; apply recorded_never; exact Hs.
        - destruct es2 as [|x es2 _] using rev_ind.
          + apply app_inj_tail in E. destruct E as [-> E]. injection E as <- <-. reflexivity.
          + change (es1 ++ (r, Sets z) :: es2 ++ [x]) with (es1 ++ ((r, Sets z) :: es2) ++ [x]) in E.
            rewrite app_assoc in E. apply app_inj_tail in E. destruct E as [<- ->].
            rewrite samples_app in Hs. apply app_eq_nil in Hs. destruct Hs as [Hs Hs'].
            destruct e; [discriminate Hs'| |]; apply recorded_at; exact Hs. }
      apply Hinv in Ha. apply Hinv in Hb. destruct e; [congruence|eauto|eauto].
  Qed.

  Lemma no_reset_snoc : forall start limit reset base es t e,
    no_reset start limit reset base es -> ~ resets start limit reset (base ++ es) t ->
    no_reset start limit reset base (es ++ [(t, e)]).
  Proof.
    intros start limit reset base es t e Hn Ht a t' e' b E.
    destruct b as [|x b _] using rev_ind.
    - apply app_inj_tail in E. destruct E as [<- E]. injection E as <- <-. exact Ht.
    - change (a ++ (t', e') :: b ++ [x]) with (a ++ ((t', e') :: b) ++ [x]) in E.
      rewrite app_assoc in E. apply app_inj_tail in E. destruct E as [E _]. eapply Hn; exact E.
  Qed.

  Lemma kept_snoc : forall start limit reset es vs t e,
    samples_kept start limit reset es vs -> ~ resets start limit reset es t ->
    samples_kept start limit reset (es ++ [(t, e)]) (vs ++ sample e).
  Proof.
    intros start limit reset es vs t e Hk Ht. destruct Hk as [es Hn|es1 t' e' es2 Hr Hn].
    - replace (samples es ++ sample e) with (samples (es ++ [(t, e)])).
      + apply kept_all. apply no_reset_snoc; [exact Hn|exact Ht].
      + rewrite samples_app. cbn. rewrite app_nil_r. reflexivity.
    - rewrite <- app_assoc. cbn [app].
      replace ((sample e' ++ samples es2) ++ sample e) with (sample e' ++ samples (es2 ++ [(t, e)])).
      + apply kept_since; [exact Hr|]. apply no_reset_snoc; [exact Hn|]. rewrite <- app_assoc. exact Ht.
      + rewrite samples_app. cbn. rewrite app_nil_r, app_assoc. reflexivity.
  Qed.

  Lemma kept_snoc_reset : forall start limit reset es t e,
    resets start limit reset es t -> samples_kept start limit reset (es ++ [(t, e)]) (sample e).
  Proof.
    intros start limit reset es t e Hr.
    replace (sample e) with (sample e ++ samples []) by apply app_nil_r.
    apply kept_since; [exact Hr|]. intros a t' e' b E. destruct a; discriminate E.
  Qed.

  Lemma histogram_history : forall start limit reset x0 us es k x,
    h_last_update x0 = start -> h_max_inactivity x0 = limit -> h_reset_after_inactivity x0 = reset ->
    contents (h_inner x0) = [] -> (forall d, limit = Some d -> 0 <= d) ->
    Forall update_ok (map snd us) -> effects_of (h_display_time_unit x0) us es ->
    run_timed histogram_op k x0 (at_instants us) = Some x ->
    same_settings x0 x /\ last_recorded start es (h_last_update x)
    /\ samples_kept start limit reset es (contents (h_inner x)).
  Proof.
    intros start limit reset x0 us es k x Hl Hm Hr Hc0 Hd. revert es x.
    induction us as [|[t u] us IH] using rev_ind; intros es x Hok He E.
    - inversion He; subst. cbn in E. injection E as <-. split; [repeat split|].
      split; [apply recorded_never; reflexivity|]. rewrite Hc0.
      apply (kept_all _ _ _ []). intros a t e b E. destruct a; discriminate E.
    - rewrite map_app in Hok. apply Forall_app in Hok. destruct Hok as [Hok Hoku].
      inversion Hoku as [|? ? Hu _]; subst. clear Hoku. cbn in Hu.
      apply Forall2_app_inv_l in He. destruct He as (es1 & es2 & He1 & He2 & ->).
      inversion He2 as [|? [t' e] ? ? [Ht He] He3]; subst. inversion He3; subst. cbn in Ht, He. subst t'.
      unfold at_instants in E. rewrite map_app in E. cbn [map] in E.
      apply run_timed_snoc in E. destruct E as (x1 & c' & E1 & E2).
      destruct (IH es1 x1 Hok He1 E1) as (S1 & L1 & K1).
      unfold histogram_op in E2. apply bind_ok in E2. destruct E2 as ([x2 n] & c2 & E2 & E3). injection E3 as -> _.
      cbn [fst snd] in E2. pose proof S1 as (S11 & S12 & S13 & S14 & S15 & S16). rewrite <- S16 in He.
      destruct (update_inv _ _ _ _ _ _ _ _ Hu He E2) as (U1 & U2 & _ & U4).
      rewrite S13, S14 in U4.
      split; [eapply same_trans; eassumption|]. rewrite U2. split; [apply recorded_snoc; exact L1|]. rewrite U4.
      destruct (h_max_inactivity x0) as [d|] eqn:Em.
      + specialize (Hd d eq_refl). destruct (h_reset_after_inactivity x0) eqn:Er; cbn [andb].
        * destruct (d <? Z.max 0 (t - h_last_update x1)) eqn:Ed.
          -- apply kept_snoc_reset. split; [reflexivity|]. exists d, (h_last_update x1).
             split; [reflexivity|]. split; [exact L1|]. lia.
          -- apply kept_snoc; [exact K1|]. intros (_ & d' & r & Hd' & Hr & Hlt). injection Hd' as <-.
             rewrite (recorded_unique _ _ _ _ Hr L1) in Hlt. lia.
        * apply kept_snoc; [exact K1|]. intros (Hx & _). discriminate Hx.
      + apply kept_snoc; [exact K1|]. intros (_ & d' & r & Hd' & _). discriminate Hd'.
  Qed.

  Lemma histo_values_shown : forall x,
    histogram_put_histo_values x [] = statistics (histo_snapshot H (h_inner x)) (List.length (contents (h_inner x))).
  Proof.
    intros x. unfold histogram_put_histo_values. rewrite (counting_count _ _ Hc).
    destruct (List.length (contents (h_inner x))) as [|n]; [reflexivity|].
    replace (0 <? Z.of_nat (S n)) with true by lia. reflexivity.
  Qed.

  Lemma push_activity_shown : forall s b, push_activity s b = s ++ activity_fields b.
  Proof. intros. unfold push_activity, push. rewrite <- app_assoc. reflexivity. Qed.

  Lemma histo_values_app : forall (x : histogram H) s, histogram_put_histo_values x s = s ++ histogram_put_histo_values x [].
  Proof.
    intros x s. unfold histogram_put_histo_values. destruct (0 <? _); unfold push; rewrite <- ?app_assoc; reflexivity.
  Qed.

  (** From the creation to the snapshot. *)
  Lemma histogram_shows : forall k name start x0 c0 x1 us es x d q s q',
    histogram_new H name k (frozen start) = Ok x0 c0 ->
    h_inner x1 = h_inner x0 -> h_last_update x1 = h_last_update x0 -> h_descr x1 = no_descr ->
    (forall l, h_max_inactivity x1 = Some l -> 0 < l) ->
    Forall update_ok (map snd us) -> effects_of (h_display_time_unit x1) us es ->
    run_timed histogram_op k x1 (at_instants us) = Some x ->
    histogram_put x d [] k q = Ok s q' ->
    exists vs a,
      samples_kept start (h_max_inactivity x1) (h_reset_after_inactivity x1) es vs
      /\ contents (h_inner x) = vs
      /\ (a = true <-> active start (h_max_inactivity x1) es (q O))
      /\ s = [(h_name x1, ItemSnapshot
               ((match h_max_inactivity x1 with
                 | Some _ => if h_show_activity_state x1 then activity_fields a else []
                 | None => []
                 end)
                ++ (if a then statistics (histo_snapshot H (h_inner x)) (List.length vs) else [])))].
  Proof.
    intros k name start x0 c0 x1 us es x d q s q' N Hi Hlu Hd Hlim Hok He E P.
    unfold histogram_new in N. apply bind_ok in N. destruct N as (i & c1 & N1 & N2).
    apply (counting_new _ _ Hc) in N1. destruct N1 as (N1 & j & ->). rewrite iter_frozen in N2.
    apply bind_ok in N2. destruct N2 as (t & c2 & N2 & N3). rewrite now_eq in N2. injection N2 as <- <-.
    injection N3 as <- <-. cbn [h_inner h_last_update] in Hi, Hlu.
    destruct (histogram_history start (h_max_inactivity x1) (h_reset_after_inactivity x1) x1 us es k x Hlu eq_refl eq_refl)
      as ((S1 & S2 & S3 & S4 & S5 & S6) & L & K); try assumption.
    { rewrite Hi. exact N1. }
    { intros l Hl. specialize (Hlim l Hl). lia. }
    unfold histogram_put in P. rewrite S2, Hd, S1 in P.
    apply bind_ok in P. destruct P as (lvl & q1 & P1 & P2). injection P2 as <- _.
    unfold histogram_put_values in P1. apply bind_ok in P1. destruct P1 as (a & q2 & P1 & P2).
    exists (contents (h_inner x)), a. split; [exact K|]. split; [reflexivity|]. rewrite S3 in P1, P2. rewrite S5 in P2.
    split.
    - unfold active. destruct (h_max_inactivity x1) as [l|].
      + apply bind_ok in P1. destruct P1 as (e & q3 & P1 & P3). rewrite elapsed_eq in P1. injection P1 as <- <-.
        injection P3 as <- _. specialize (Hlim l eq_refl). split.
        * intros Hlt. exists (h_last_update x). split; [exact L|]. lia.
        * intros (r & Hr & Hlt). rewrite (recorded_unique _ _ _ _ Hr L) in Hlt. lia.
      + injection P1 as <- _. tauto.
    - assert (Hl : lvl = (match h_max_inactivity x1 with
                 | Some _ => if h_show_activity_state x1 then activity_fields a else []
                 | None => []
                 end) ++ (if a then statistics (histo_snapshot H (h_inner x)) (List.length (contents (h_inner x))) else [])).
      { rewrite <- histo_values_shown. change snapshot_default with (@nil (string * item_kind)) in P2.
        destruct (h_max_inactivity x1); [destruct (h_show_activity_state x1)|];
          (destruct a; [rewrite histo_values_app in P2|]; injection P2 as <- _; rewrite ?push_activity_shown, ?app_nil_r; reflexivity). }
      rewrite <- Hl. destruct d; reflexivity.
  Qed.

  Lemma histogram_samples : forall k name start x0 c0 x1 us es x,
    histogram_new H name k (frozen start) = Ok x0 c0 ->
    h_inner x1 = h_inner x0 -> h_last_update x1 = h_last_update x0 ->
    (forall l, h_max_inactivity x1 = Some l -> 0 <= l) ->
    Forall update_ok (map snd us) -> effects_of (h_display_time_unit x1) us es ->
    run_timed histogram_op k x1 (at_instants us) = Some x ->
    samples_kept start (h_max_inactivity x1) (h_reset_after_inactivity x1) es (contents (h_inner x)).
  Proof.
    intros k name start x0 c0 x1 us es x N Hi Hlu Hlim Hok He E.
    unfold histogram_new in N. apply bind_ok in N. destruct N as (i & c1 & N1 & N2).
    apply (counting_new _ _ Hc) in N1. destruct N1 as (N1 & j & ->). rewrite iter_frozen in N2.
    apply bind_ok in N2. destruct N2 as (t & c2 & N2 & N3). rewrite now_eq in N2. injection N2 as <- <-.
    injection N3 as <- <-. cbn [h_inner h_last_update] in Hi, Hlu.
    apply (histogram_history start (h_max_inactivity x1) (h_reset_after_inactivity x1) x1 us es k x Hlu eq_refl eq_refl);
      try assumption.
    rewrite Hi. exact N1.
  Qed.

  (** The number of samples reported by an update. *)
  Lemma histogram_reports : forall (x : histogram H) u e k t x' n c',
    update_ok u -> update_effect (h_display_time_unit x) u e ->
    histogram_update x u k (frozen t) = Ok (x', n) c' -> n = Z.of_nat (List.length (sample e)).
  Proof. intros x u e k t x' n c' Hok He E. apply (update_inv _ _ _ _ _ _ _ _ Hok He E). Qed.
End Histogram.
