(** Inactive components. *)
From Coq Require Import ZArith Bool String List Lia.
From Verif Require Import Base SpecRun MonadFacts ModelObservation ModelLabelFilter ModelSnapshot ModelHistogram
  ModelInstrument ModelTree ModelChannel ModelProcessor SpecWriting WritingProofs TreeEqs AppendProofs TreeProofs
  SpecClock ClockProofs SpecActivity.
Import ListNotations.
Open Scope string_scope.
Open Scope list_scope.
Open Scope Z_scope.

Lemma lookup_in : forall k s v, lookup k s = Some v -> In k (keys s).
Proof.
  induction s as [|[n x] s IH]; cbn; intros v H; [discriminate H|].
  destruct (String.eqb_spec n k) as [->|Hn]; [left; reflexivity | right; eauto].
Qed.

Lemma text_once_field : forall k t into, put_text_once k t into = into ++ text_field k t into.
Proof.
  intros k [t|] into; unfold put_text_once, text_field; [|symmetry; apply app_nil_r].
  destruct (lookup k into) eqn:E.
  - destruct (in_dec string_dec k (keys into)) as [_|H]; [symmetry; apply app_nil_r|].
    destruct (H (lookup_in _ _ _ E)).
  - destruct (in_dec string_dec k (keys into)) as [H|_]; [|reflexivity].
    destruct (lookup_none _ _ E H).
Qed.

Lemma text_field_same : forall ds into,
  text_field "_description" (d_description ds) (into ++ text_field "_title" (d_title ds) into)
  = text_field "_description" (d_description ds) into.
Proof.
  intros ds into. unfold text_field at 1 3. destruct (d_description ds) as [t|]; [|reflexivity].
  rewrite keys_app.
  assert (H2 : ~ In "_description" (keys (text_field "_title" (d_title ds) into))).
  { unfold text_field. destruct (d_title ds); [|exact (fun H => H)].
    destruct (in_dec string_dec "_title" (keys into)); [exact (fun H => H)|].
    intros [H|H]; [discriminate H | exact H]. }
  destruct (in_dec string_dec "_description" (keys into)) as [H|H];
    destruct (in_dec string_dec "_description" (keys into ++ keys (text_field "_title" (d_title ds) into))) as [H1|H1];
    try reflexivity.
  - destruct H1. apply in_or_app. auto.
  - exfalso. apply in_app_or in H1. destruct H1; contradiction.
Qed.

Lemma texts_own : forall de ds into, put_default_descriptives ds into de = into ++ own_texts de ds into.
Proof.
  intros de ds into. destruct de; [|symmetry; apply app_nil_r].
  unfold put_default_descriptives, put_descriptives, own_texts. rewrite !text_once_field, <- app_assoc.
  do 2 f_equal. apply text_field_same.
Qed.

Lemma named_hidden : forall A name ds limit last (a : A) rest de into k c,
  limit < c O - last ->
  put_named name
    (fun into => check_activity (Some limit) true last a rest (put_default_descriptives ds into de)) into k c
  = Ok (a, inactive_fields de name ds into) (clock_tail c).
Proof.
  intros A name ds limit last a rest de into k c H. unfold put_named, check_activity.
  assert (E : limit <? Z.max 0 (c O - last) = true) by (apply Z.ltb_lt; lia).
  destruct name; unfold bind; rewrite elapsed_eq, E; rewrite texts_own; unfold ret, inactive_fields, placed;
    rewrite push_activity_app; cbn [level_of]; rewrite <- app_assoc; reflexivity.
Qed.

Lemma writes_pushes : forall A (f : bool -> snapshot -> M (A * snapshot)), writes f -> pushes (f false).
Proof.
  intros A f H k c. destruct (H k c) as [(x & a & c' & E & _)|[E|E]]; [|right; left; auto | right; right; auto].
  left. exists x, a, c'. exact E.
Qed.

Lemma named_shown : forall A name ds limit last (a : A) rest (f : A -> A) rest0 into k c,
  0 <= limit -> c O - last <= limit ->
  (forall into k c, rest into k c = renamed f (rest0 into k c)) -> pushes rest0 ->
  put_named name
    (fun into => check_activity (Some limit) true last a rest (put_default_descriptives ds into false)) into k c
  = match rest0 [] k (clock_tail c) with
    | Ok (x, values) c' => Ok (f x, placed name into (shown_active ++ values)) c'
    | Panic => Panic
    | NoFuel => NoFuel
    end.
Proof.
  intros A name ds limit last a rest f rest0 into k c Hl H Hr Hp.
  unfold put_named, check_activity, snapshot_default.
  assert (E : limit <? Z.max 0 (c O - last) = false) by (apply Z.ltb_ge; lia).
  assert (Hd : forall into, put_default_descriptives ds into false = into) by reflexivity.
  destruct name; unfold bind; rewrite elapsed_eq, E, Hd, push_activity_app, Hr;
    destruct (Hp k (clock_tail c)) as [(x & v & c' & Ev)|[Ev|Ev]]; rewrite !Ev; try reflexivity.
  cbn [renamed placed]. rewrite <- app_assoc. reflexivity.
Qed.

Section Shown.
  Context {X : ext}.

  Lemma panel_hidden : forall (p : panel X) limit de into k c,
    pd_limit (p_data p) = Some limit -> pd_show_activity (p_data p) = true ->
    limit < c O - pd_last_update (p_data p) ->
    panel_put p de into k c
    = Ok (p, inactive_fields de (panel_name p) (pd_descr (p_data p)) into) (clock_tail c).
  Proof.
    intros [d sl ps hs ss] limit de into k c Hl Hs H. cbn [p_data] in *.
    rewrite panel_put_eq, Hl, Hs. apply named_hidden. exact H.
  Qed.

  Lemma cockpit_hidden : forall (p : cockpit X) limit de into k c,
    cd_limit (c_data p) = Some limit -> cd_show_activity (c_data p) = true ->
    limit < c O - cd_last_activity (c_data p) ->
    cockpit_put p de into k c
    = Ok (p, inactive_fields de (cockpit_name p) (cd_descr (c_data p)) into) (clock_tail c).
  Proof.
    intros [d ps hs ss] limit de into k c Hl Hs H. cbn [c_data] in *.
    rewrite cockpit_put_eq, Hl, Hs. apply named_hidden. exact H.
  Qed.

  Lemma tele_hidden : forall (t : tele X) limit de into k c,
    tp_limit t = Some limit -> tp_show_activity t = true -> limit < c O - tp_last_activity t ->
    tele_put t de into k c = Ok (t, inactive_fields de (tp_name t) (tp_descr t) into) (clock_tail c).
  Proof.
    intros t limit de into k c Hl Hs H. unfold tele_put. rewrite Hl, Hs. apply named_hidden. exact H.
  Qed.

  Lemma mount_hidden : forall Y (m : mount X Y) limit de into k c,
    md_limit (m_data m) = Some limit -> limit < c O - md_last_activity (m_data m) ->
    mount_put m de into k c
    = Ok (m, inactive_fields de (md_name (m_data m)) (md_descr (m_data m)) into) (clock_tail c).
  Proof.
    intros Y [d ps ss] limit de into k c Hl H. cbn [m_data] in *.
    rewrite mount_put_eq, Hl. apply named_hidden. exact H.
  Qed.

  Context (HX : parts_write X).

  Lemma panel_shown : forall (p : panel X) limit into k c,
    pd_limit (p_data p) = Some limit -> pd_show_activity (p_data p) = true ->
    0 <= limit -> c O - pd_last_update (p_data p) <= limit ->
    panel_put p false into k c
    = match panel_put (panel_bare p) false [] k (clock_tail c) with
      | Ok (q, values) c' => Ok (panel_like p q, placed (panel_name p) into (shown_active ++ values)) c'
      | Panic => Panic
      | NoFuel => NoFuel
      end.
  Proof.
    intros p limit into k c Hl Hs H0 H.
    pose proof (writes_pushes _ _ (proj1 (tree_writes HX) (panel_bare p))) as Hp.
    destruct p as [d sl ps hs ss]. cbn [p_data] in *. rewrite panel_put_eq, Hl, Hs.
    apply (named_shown _ _ _ _ _ _ _ (panel_like (Panel d sl ps hs ss))); auto.
    clear. intros into k c. cbn [panel_bare]. rewrite panel_put_eq.
    cbn [pd_name pd_limit]. unfold put_named, check_activity. change (put_default_descriptives _ _ false) with into.
    unfold bind. destruct (slots_put false sl into k c) as [[sl1 i1] c1| |]; try reflexivity.
    destruct (traverse (fun x => panel_put x false) ps i1 k c1) as [[ps1 i2] c2| |]; try reflexivity.
    destruct (traverse (fun x => snapshooter_put x false) ss i2 k c2) as [[ss1 i3] c3| |]; try reflexivity.
    destruct (traverse (fun x => handler_put x false) hs i3 k c3) as [[hs1 i4] c4| |]; reflexivity.
  Qed.

  Lemma cockpit_shown : forall (p : cockpit X) limit into k c,
    cd_limit (c_data p) = Some limit -> cd_show_activity (c_data p) = true ->
    0 <= limit -> c O - cd_last_activity (c_data p) <= limit ->
    cockpit_put p false into k c
    = match cockpit_put (cockpit_bare p) false [] k (clock_tail c) with
      | Ok (q, values) c' => Ok (cockpit_like p q, placed (cockpit_name p) into (shown_active ++ values)) c'
      | Panic => Panic
      | NoFuel => NoFuel
      end.
  Proof.
    intros p limit into k c Hl Hs H0 H.
    pose proof (writes_pushes _ _ (proj1 (proj2 (proj2 (tree_writes HX))) (cockpit_bare p))) as Hp.
    destruct p as [d ps hs ss]. cbn [c_data] in *. rewrite cockpit_put_eq, Hl, Hs.
    apply (named_shown _ _ _ _ _ _ _ (cockpit_like (Cockpit d ps hs ss))); auto.
    clear. intros into k c. cbn [cockpit_bare]. rewrite cockpit_put_eq.
    cbn [cd_name cd_limit]. unfold put_named, check_activity. change (put_default_descriptives _ _ false) with into.
    unfold bind.
    destruct (traverse (fun x => panel_put x false) ps into k c) as [[ps1 i2] c2| |]; try reflexivity.
    destruct (traverse (fun x => handler_put x false) hs i2 k c2) as [[hs1 i3] c3| |]; try reflexivity.
    destruct (traverse (fun x => snapshooter_put x false) ss i3 k c3) as [[ss1 i4] c4| |]; reflexivity.
  Qed.

  Lemma tele_shown : forall (t : tele X) limit into k c,
    tp_limit t = Some limit -> tp_show_activity t = true -> 0 <= limit ->
    c O - tp_last_activity t <= limit ->
    tele_put t false into k c
    = match tele_put (tele_bare t) false [] k (clock_tail c) with
      | Ok (q, values) c' => Ok (tele_like t q, placed (tp_name t) into (shown_active ++ values)) c'
      | Panic => Panic
      | NoFuel => NoFuel
      end.
  Proof.
    intros t limit into k c Hl Hs H0 H.
    pose proof (writes_pushes _ _ (tele_writes HX (tele_bare t))) as Hp.
    unfold tele_put at 1. rewrite Hl, Hs.
    apply (named_shown _ _ _ _ _ _ _ (tele_like t)); auto.
    clear - Hl Hs. intros into k c. unfold tele_put, tele_bare.
    cbn [tp_name tp_limit tp_cockpits tp_handlers tp_snapshooters]. unfold put_named, check_activity.
    change (put_default_descriptives _ _ false) with into.
    unfold bind.
    destruct (traverse (fun x => cockpit_put x false) (tp_cockpits t) into k c) as [[ps1 i2] c2| |]; try reflexivity.
    destruct (traverse (fun x => handler_put x false) (tp_handlers t) i2 k c2) as [[hs1 i3] c3| |]; try reflexivity.
    destruct (traverse (fun x => snapshooter_put x false) (tp_snapshooters t) i3 k c3) as [[ss1 i4] c4| |]; try reflexivity.
    cbn [renamed]. unfold tele_like. rewrite Hl, Hs. reflexivity.
  Qed.

  Lemma mount_shown : forall Y, (forall u, writes (user_proc_put Y u)) ->
    (forall h, writes (driver_put (Y := Y) h)) ->
    forall (m : mount X Y) limit into k c,
    md_limit (m_data m) = Some limit -> 0 <= limit -> c O - md_last_activity (m_data m) <= limit ->
    mount_put m false into k c
    = match mount_put (mount_bare m) false [] k (clock_tail c) with
      | Ok (q, values) c' => Ok (mount_like m q, placed (md_name (m_data m)) into (shown_active ++ values)) c'
      | Panic => Panic
      | NoFuel => NoFuel
      end.
  Proof.
    intros Y HU HD m limit into k c Hl H0 H.
    pose proof (writes_pushes _ _ (proj2 (processor_writes HX Y HU HD) (mount_bare m))) as Hp.
    destruct m as [d ps ss]. cbn [m_data] in *. rewrite mount_put_eq, Hl.
    apply (named_shown _ _ _ _ _ _ _ (mount_like (Mount d ps ss))); auto.
    clear. intros into k c. cbn [mount_bare]. rewrite mount_put_eq.
    cbn [md_name md_limit]. unfold put_named, check_activity. change (put_default_descriptives _ _ false) with into.
    unfold bind.
    destruct (traverse (fun x => processor_put x false) ps into k c) as [[ps1 i2] c2| |]; try reflexivity.
    destruct (traverse (fun x => snapshooter_put x false) ss i2 k c2) as [[ss1 i4] c4| |]; reflexivity.
  Qed.
End Shown.

(** ** Without the activity state shown there is no limit *)

Section Unlimited.
  Context {X : ext}.

  Lemma panel_not_shown : forall (p : panel X) de into k c, pd_show_activity (p_data p) = false ->
    panel_put p de into k c
    = match panel_put (panel_unlimited p) de into k c with
      | Ok (q, s) c' => Ok (panel_like p q, s) c'
      | Panic => Panic
      | NoFuel => NoFuel
      end.
  Proof.
    intros [d sl ps hs ss] de into k c Hs. cbn [p_data panel_unlimited] in *. rewrite !panel_put_eq.
    cbn [pd_name pd_limit pd_descr]. unfold check_activity. rewrite Hs.
    destruct (pd_limit d); unfold put_named, bind; destruct (pd_name d);
    match goal with |- context [slots_put de sl ?i k c] => destruct (slots_put de sl i k c) as [[sl1 i1] c1| |] end;
    try reflexivity;
    (destruct (traverse (fun x => panel_put x de) ps i1 k c1) as [[ps1 i2] c2| |]; try reflexivity);
    (destruct (traverse (fun x => snapshooter_put x de) ss i2 k c2) as [[ss1 i3] c3| |]; try reflexivity);
    destruct (traverse (fun x => handler_put x de) hs i3 k c3) as [[hs1 i4] c4| |]; reflexivity.
  Qed.

  Lemma cockpit_not_shown : forall (p : cockpit X) de into k c, cd_show_activity (c_data p) = false ->
    cockpit_put p de into k c
    = match cockpit_put (cockpit_unlimited p) de into k c with
      | Ok (q, s) c' => Ok (cockpit_like p q, s) c'
      | Panic => Panic
      | NoFuel => NoFuel
      end.
  Proof.
    intros [d ps hs ss] de into k c Hs. cbn [c_data cockpit_unlimited] in *. rewrite !cockpit_put_eq.
    cbn [cd_name cd_limit cd_descr]. unfold check_activity. rewrite Hs.
    destruct (cd_limit d); unfold put_named, bind; destruct (cd_name d);
    match goal with |- context [traverse (fun x => panel_put x de) ps ?i k c] =>
      destruct (traverse (fun x => panel_put x de) ps i k c) as [[ps1 i1] c1| |] end; try reflexivity;
    (destruct (traverse (fun x => handler_put x de) hs i1 k c1) as [[hs1 i2] c2| |]; try reflexivity);
    destruct (traverse (fun x => snapshooter_put x de) ss i2 k c2) as [[ss1 i3] c3| |]; reflexivity.
  Qed.

  Lemma tele_not_shown : forall (t : tele X) de into k c, tp_show_activity t = false ->
    tele_put t de into k c
    = match tele_put (tele_unlimited t) de into k c with
      | Ok (q, s) c' => Ok (tele_like t q, s) c'
      | Panic => Panic
      | NoFuel => NoFuel
      end.
  Proof.
    intros [n ds cs hs r ss l lim sh di] de into k c Hs. unfold tele_put, tele_unlimited, tele_like, check_activity.
    cbn [tp_name tp_descr tp_cockpits tp_handlers tp_receiver tp_snapshooters tp_last_activity
       tp_limit tp_show_activity tp_disconnected] in *. subst sh.
    destruct lim; unfold put_named, bind; destruct n;
    match goal with |- context [traverse (fun x => cockpit_put x de) cs ?i k c] =>
      destruct (traverse (fun x => cockpit_put x de) cs i k c) as [[ps1 i1] c1| |] end; try reflexivity;
    (destruct (traverse (fun x => handler_put x de) hs i1 k c1) as [[hs1 i2] c2| |]; try reflexivity);
    destruct (traverse (fun x => snapshooter_put x de) ss i2 k c2) as [[ss1 i3] c3| |]; reflexivity.
  Qed.
End Unlimited.

(** ** Histories *)

Section History.
  Context {X : ext}.

  Lemma panel_handle_data : forall (p : panel X) o k c p' n c',
    panel_handle p o k c = Ok (p', n) c' -> p_data p' = p_data p.
  Proof.
    intros [d sl ps hs ss] o k c p' n c' E. rewrite panel_handle_eq in E.
    destruct (negb _); [injection E as <- <- <-; reflexivity|].
    apply bind_ok in E. destruct E as ([s1 a1] & c1 & E1 & E).
    apply bind_ok in E. destruct E as ([s2 a2] & c2 & E2 & E).
    apply bind_ok in E. destruct E as ([s3 a3] & c3 & E3 & E). injection E as <- <- <-. reflexivity.
  Qed.

  Lemma panel_history_data : forall k h (p p' : panel X),
    run_timed panel_observe k p h = Some p' -> p_data p' = p_data p.
  Proof.
    induction h as [|[c o] h IH]; intros p p' E; cbn [run_timed] in E; [congruence|].
    destruct (panel_observe p o k c) as [p1 c1| |] eqn:E1; try discriminate E.
    rewrite (IH _ _ E). unfold panel_observe in E1. apply bind_ok in E1.
    destruct E1 as ([p2 n] & c2 & E1 & E2). injection E2 as <- <-. exact (panel_handle_data _ _ _ _ _ _ _ E1).
  Qed.

  Lemma cockpit_handle_data : forall (p : cockpit X) o k c p' n c',
    cockpit_handle p o k c = Ok (p', n) c' -> c_data p' = cockpit_touch (c_data p) (c O).
  Proof.
    intros [d ps hs ss] o k c p' n c' E. rewrite cockpit_handle_eq in E.
    apply bind_ok in E. destruct E as (t & c1 & E1 & E).
    apply bind_ok in E. destruct E as ([s2 a2] & c2 & E2 & E).
    apply bind_ok in E. destruct E as ([s3 a3] & c3 & E3 & E). injection E as <- <- <-.
    injection E1 as <- <-. reflexivity.
  Qed.

  Lemma cockpit_history_data : forall k h c o (p p' : cockpit X),
    run_timed cockpit_observe k p (h ++ [(c, o)]) = Some p' -> c_data p' = cockpit_touch (c_data p) (c O).
  Proof.
    intros k h c o. induction h as [|[c1 o1] h IH]; intros p p' E; cbn [run_timed app] in E.
    - destruct (cockpit_observe p o k c) as [p1 c2| |] eqn:E1; try discriminate E. injection E as <-.
      unfold cockpit_observe in E1. apply bind_ok in E1. destruct E1 as ([p2 n] & c3 & E1 & E2).
      injection E2 as <- <-. exact (cockpit_handle_data _ _ _ _ _ _ _ E1).
    - destruct (cockpit_observe p o1 k c1) as [p1 c2| |] eqn:E1; try discriminate E.
      rewrite (IH _ _ E). unfold cockpit_observe in E1. apply bind_ok in E1.
      destruct E1 as ([p2 n] & c3 & E1 & E2). injection E2 as <- <-.
      rewrite (cockpit_handle_data _ _ _ _ _ _ _ E1). reflexivity.
  Qed.
End History.

Lemma histogram_hidden : forall H (h : histogram H) limit into k c,
  h_max_inactivity h = Some limit -> limit <= c O - h_last_update h ->
  histogram_put h false into k c
  = Ok (into ++ [(h_name h, ItemSnapshot (if h_show_activity_state h then shown_inactive else []))]) (clock_tail c).
Proof.
  intros H h limit into k c Hl Hd. unfold histogram_put, histogram_put_values, bind. rewrite Hl, elapsed_eq.
  unfold ret.
  assert (E : Z.max 0 (c O - h_last_update h) <? limit = false) by (apply Z.ltb_ge; lia). rewrite E.
  destruct (h_show_activity_state h); reflexivity.
Qed.

Section Theorems.
  Context {X : ext}.

  Lemma panel_hidden_after : forall k h (p0 p : panel X) limit de into c,
    run_timed panel_observe k p0 h = Some p ->
    pd_limit (p_data p0) = Some limit -> pd_show_activity (p_data p0) = true ->
    limit < c O - pd_last_update (p_data p0) ->
    panel_put p de into k c
    = Ok (p, inactive_fields de (panel_name p) (pd_descr (p_data p0)) into) (clock_tail c).
  Proof.
    intros k h p0 p limit de into c E. rewrite <- (panel_history_data _ _ _ _ E). apply panel_hidden.
  Qed.

  Lemma panel_shown_after : parts_write X -> forall k h (p0 p : panel X) limit into c,
    run_timed panel_observe k p0 h = Some p ->
    pd_limit (p_data p0) = Some limit -> pd_show_activity (p_data p0) = true ->
    0 <= limit -> c O - pd_last_update (p_data p0) <= limit ->
    panel_put p false into k c
    = match panel_put (panel_bare p) false [] k (clock_tail c) with
      | Ok (q, values) c' => Ok (panel_like p q, placed (panel_name p) into (shown_active ++ values)) c'
      | Panic => Panic
      | NoFuel => NoFuel
      end.
  Proof.
    intros HX k h p0 p limit into c E. rewrite <- (panel_history_data _ _ _ _ E). apply panel_shown. exact HX.
  Qed.

  Lemma cockpit_hidden_after : forall k h c1 o (p0 p : cockpit X) limit de into c,
    run_timed cockpit_observe k p0 (h ++ [(c1, o)]) = Some p ->
    cd_limit (c_data p0) = Some limit -> cd_show_activity (c_data p0) = true ->
    limit < c O - c1 O ->
    cockpit_put p de into k c
    = Ok (p, inactive_fields de (cockpit_name p0) (cd_descr (c_data p0)) into) (clock_tail c).
  Proof.
    intros k h c1 o p0 p limit de into c E Hl Hs H. pose proof (cockpit_history_data _ _ _ _ _ _ E) as Ed.
    rewrite (cockpit_hidden p limit); unfold cockpit_name; rewrite Ed; auto.
  Qed.

  Lemma cockpit_shown_after : parts_write X -> forall k h c1 o (p0 p : cockpit X) limit into c,
    run_timed cockpit_observe k p0 (h ++ [(c1, o)]) = Some p ->
    cd_limit (c_data p0) = Some limit -> cd_show_activity (c_data p0) = true ->
    0 <= limit -> c O - c1 O <= limit ->
    cockpit_put p false into k c
    = match cockpit_put (cockpit_bare p) false [] k (clock_tail c) with
      | Ok (q, values) c' => Ok (cockpit_like p q, placed (cockpit_name p0) into (shown_active ++ values)) c'
      | Panic => Panic
      | NoFuel => NoFuel
      end.
  Proof.
    intros HX k h c1 o p0 p limit into c E Hl Hs H0 H. pose proof (cockpit_history_data _ _ _ _ _ _ E) as Ed.
    rewrite (cockpit_shown HX p limit); unfold cockpit_name; rewrite ?Ed; auto.
  Qed.
End Theorems.

Lemma panel_new_time : forall X (f : label_filter (lab X)) k c p c',
  panel_new f k c = Ok p c' -> pd_last_update (p_data p) = c O.
Proof. intros X f k c p c' E. injection E as <- <-. reflexivity. Qed.

Lemma cockpit_new_time : forall X (p : cockpit X) k c c',
  cockpit_default k c = Ok p c' -> cd_last_activity (c_data p) = c O.
Proof. intros X p k c c' E. injection E as <- <-. reflexivity. Qed.
