(** Proofs about what a single instrument sees of the observations. *)
From Coq Require Import ZArith Bool String List Lia.
From Verif Require Import Base SpecRun SpecClock ModelObservation ModelLabelFilter ModelGauge ModelInstrument ModelTree
  ModelProcessor ModelChannel SpecTree SpecCounting SpecGauge SpecNames SpecCollect SpecFollow MonadFacts TreeInd TreeProofs ClockProofs
  GaugeProofs GaugeAdapterProofs NamesProofs.
Import ListNotations.
Open Scope Z_scope.

Section Follow.
  Context {X : ext}.
  Context (HX : parts_tick X).

  (** ** Leaves *)

  Lemma map_flat : forall A B (f g : A -> list B) C (h : B -> C) l,
    Forall (fun x => map h (f x) = map h (g x)) l -> map h (flat_map f l) = map h (flat_map g l).
  Proof.
    intros A B f g C h l H. induction H; [reflexivity|]. cbn [flat_map]. rewrite !map_app, H, IHForall. reflexivity.
  Qed.

  Lemma map_flat2 : forall A B (f : A -> list B) C (h : B -> C) (R : A -> A -> Prop) l l',
    Forall2 R l l' -> Forall (fun x => forall y, R x y -> map h (f x) = map h (f y)) l ->
    map h (flat_map f l) = map h (flat_map f l').
  Proof.
    intros A B f C h R l l' H. induction H; intros F; [reflexivity|]. inversion F as [|? ? F1 F2]; subst.
    cbn [flat_map]. rewrite !map_app, (F1 _ H), (IHForall2 F2). reflexivity.
  Qed.

  Lemma slots_snd : forall l on l' on' (sl : slots X),
    map snd (slots_leaves l on sl) = map snd (slots_leaves l' on' sl).
  Proof.
    intros. unfold slots_leaves. rewrite !map_app, !map_map. reflexivity.
  Qed.

  (** The leaves do not depend on the label. *)
  Lemma leaves_snd : 
    (forall (p : panel X) l on l' on', map snd (panel_leaves l on p) = map snd (panel_leaves l' on' p))
    /\ (forall (h : handler X) l on l' on', map snd (handler_leaves l on h) = map snd (handler_leaves l' on' h))
    /\ (forall (c : cockpit X) l on l' on', map snd (cockpit_leaves l on c) = map snd (cockpit_leaves l' on' c))
    /\ (forall s : snapshooter X, True).
  Proof.
    apply tree_ind; auto; try reflexivity.
    - intros d sl ps hs ss Hp Hh _ l on l' on'. cbn [panel_leaves]. rewrite !map_app.
      rewrite (slots_snd l _ l' (on' && accepts (lab_eqb X) (pd_filter d) l')).
      f_equal. f_equal; apply map_flat; eapply Forall_impl; try eassumption; intros; auto.
    - intros d ps hs ss Hp Hh _ l on l' on'. cbn [cockpit_leaves map]. rewrite !map_app.
      f_equal. f_equal; apply map_flat; eapply Forall_impl; try eassumption; intros; auto.
  Qed.

  Lemma tele_snd : forall (t : tele X) l l', map snd (tele_leaves l t) = map snd (tele_leaves l' t).
  Proof.
    intros. destruct leaves_snd as (_ & Hh & Hc & _). unfold tele_leaves. rewrite !map_app.
    f_equal; apply map_flat; apply Forall_forall; auto.
  Qed.

  Lemma slots_fst : forall l on (sl sl' : slots X), same_slots sl sl' ->
    map fst (slots_leaves l on sl) = map fst (slots_leaves l on sl').
  Proof.
    intros l on [a b c d] [a' b' c' d'] (H1 & H2 & H3 & H4). unfold slots_leaves. cbn [sl_counter sl_gauge sl_meter sl_histogram] in *.
    rewrite !map_app.
    assert (G : forall I (f : I -> instrument X) (x y : option (adapter X I)), same_opt same_adapter x y ->
              map fst (map (adapter_leaf f l on) (opt_list x)) = map fst (map (adapter_leaf f l on) (opt_list y))).
    { intros I f [x|] [y|] H; try destruct H; [|reflexivity]. cbn. rewrite H. reflexivity. }
    rewrite (G _ _ _ _ H1), (G _ _ _ _ H3), (G _ _ _ _ H4). do 2 f_equal.
    destruct b, b'; try destruct H2 as []; [|reflexivity]. cbn. unfold gauge_listens.
    match goal with H : ga_strategy _ = ga_strategy _ |- _ => rewrite H end. reflexivity.
  Qed.

  (** Which labels reach a leaf does not depend on the state of the leaves. *)
  Lemma leaves_fst :
    (forall p q : panel X, same_panel p q -> forall l on, map fst (panel_leaves l on p) = map fst (panel_leaves l on q))
    /\ (forall h i : handler X, same_handler h i -> forall l on, map fst (handler_leaves l on h) = map fst (handler_leaves l on i))
    /\ (forall c d : cockpit X, same_cockpit c d -> forall l on, map fst (cockpit_leaves l on c) = map fst (cockpit_leaves l on d))
    /\ (forall s : snapshooter X, True).
  Proof.
    apply tree_ind; auto.
    - intros d sl ps hs ss Hp Hh _ q H l on. inversion H; subst. cbn [panel_leaves]. rewrite !map_app.
      f_equal; [apply slots_fst; assumption|].
      f_equal; (eapply map_flat2; [eassumption|]; eapply Forall_impl; [|eassumption]; intros; cbn beta; auto).
    - intros a i H l on. inversion H; subst. cbn. match goal with S : same_adapter _ _ |- _ => destruct S as [S _]; rewrite S end. reflexivity.
    - intros a i H l on. inversion H; subst. cbn. unfold gauge_listens.
      match goal with S : same_gauge _ _ |- _ => destruct S as [S _]; rewrite S end. reflexivity.
    - intros p Hp i H l on. inversion H; subst. cbn. auto.
    - intros p Hp i H l on. inversion H; subst. cbn. auto.
    - intros u i H l on. inversion H; subst. reflexivity.
    - intros d ps hs ss Hp Hh _ q H l on. inversion H; subst. cbn [cockpit_leaves map fst]. rewrite !map_app.
      f_equal.
      f_equal; (eapply map_flat2; [eassumption|]; eapply Forall_impl; [|eassumption]; intros; cbn beta; auto).
  Qed.

  Lemma tele_fst : forall (t t' : tele X) l,
    Forall2 same_cockpit (tp_cockpits t) (tp_cockpits t') -> Forall2 same_handler (tp_handlers t) (tp_handlers t') ->
    map fst (tele_leaves l t) = map fst (tele_leaves l t').
  Proof.
    intros t t' l H1 H2. destruct leaves_fst as (_ & Hh & Hc & _). unfold tele_leaves. rewrite !map_app.
    f_equal; (eapply map_flat2; [eassumption|]; apply Forall_forall; auto).
  Qed.

  Lemma nth_pair : forall A B (l : list (A * B)) i a b,
    nth_error (map fst l) i = Some a -> nth_error (map snd l) i = Some b -> nth_error l i = Some (a, b).
  Proof.
    intros A B l. induction l as [|[x y] l IH]; intros [|i] a b H1 H2; try discriminate.
    - cbn in *. congruence.
    - cbn in *. auto.
  Qed.

  (** ** One observation *)

  Lemma leaf_handle_ticks : forall o (x : leaf X), ticks (leaf_handle (X := X) o x).
  Proof.
    intros o [i m|a|u|d|s]; cbn [leaf_handle]; [| | | |apply ticks_ret]; apply ticks_bind; try (intros; destruct a; try destruct p; apply ticks_ret);
      auto using instrument_update_ticks, ga_handle_ticks, (pt_handler_handle _ HX), ticks_now;
      intros; try destruct a0; try apply ticks_ret.
    all: try (destruct a; apply ticks_ret).
  Qed.

  Lemma served_ticks : forall k o c ls ls' ns c', served (X := X) k o c ls ls' ns c' -> later c c'.
  Proof.
    intros k o c ls ls' ns c' H. induction H; [apply later_refl | assumption |].
    eapply later_trans; [|exact IHserved]. exact (leaf_handle_ticks _ _ _ _ _ _ H).
  Qed.

  Lemma served_leaf : forall k o c ls ls' ns c' i b x,
    served (X := X) k o c ls ls' ns c' -> nth_error ls i = Some (b, x) ->
    if b : bool then exists c0 x' n c1, later c c0 /\ leaf_handle o x k c0 = Ok (x', n) c1 /\ later c1 c' /\ nth_error ls' i = Some x'
    else nth_error ls' i = Some x.
  Proof.
    intros k o c ls ls' ns c' i b x H. revert i. induction H; intros i E; [destruct i; discriminate E|..].
    - destruct i as [|i]; [injection E as <- <-; reflexivity|]. exact (IHserved i E).
    - destruct i as [|i].
      + injection E as <- <-. exists c, x', n, c1. repeat split; auto; [apply later_refl | exact (served_ticks _ _ _ _ _ _ _ H0)].
      + specialize (IHserved i E). destruct b; [|exact IHserved].
        destruct IHserved as (c2 & y & m & c3 & L1 & E1 & L2 & E2). exists c2, y, m, c3. repeat split; auto.
        exact (later_trans _ _ _ (leaf_handle_ticks _ _ _ _ _ _ H) L1).
  Qed.

  Lemma tele_leaf : forall k o (t : tele X) acc c t' acc' c' i on x,
    tele_handle t o acc k c = Ok (t', acc') c' -> leaf_at t i on x ->
    exists x', leaf_at t' i on x' /\
      if on (obs_label o) then exists c0 n c1, later c c0 /\ leaf_handle o x k c0 = Ok (x', n) c1 /\ later c1 c'
      else x' = x.
  Proof.
    intros k o t acc c t' acc' c' i on x E A.
    destruct (tele_dispatches _ _ _ _ _ _ _ _ E) as (ns & S & _ & _ & F1 & F2).
    pose proof (served_leaf _ _ _ _ _ _ _ _ _ _ S (A (obs_label o))) as H.
    assert (G : forall x', nth_error (map snd (tele_leaves (obs_label o) t')) i = Some x' -> leaf_at t' i on x').
    { intros x' Ex l. apply nth_pair.
      - rewrite <- (tele_fst t t' l F1 F2). apply (map_nth_error fst) with (d := (on l, x)). apply A.
      - rewrite (tele_snd t' l (obs_label o)). exact Ex. }
    destruct (on (obs_label o)).
    - destruct H as (c0 & x' & n & c1 & L1 & E1 & L2 & E2). exists x'. split; [auto|]. exists c0, n, c1. auto.
    - exists x. auto.
  Qed.

  (** ** Many observations *)

  Lemma follows_before : forall k c0 c x os x' c', later c0 c -> follows (X := X) k c x os x' c' -> follows k c0 x os x' c'.
  Proof.
    intros k c0 c x os x' c' L H. inversion H; subst.
    - constructor. exact (later_trans _ _ _ L H0).
    - econstructor; [exact (later_trans _ _ _ L H0) | eassumption | assumption].
  Qed.

  Lemma collection_leaf : forall s k0 c0 d c0' k os (t : tele X) n c t' n' c' i on x,
    strategy_decider s k0 c0 = Ok d c0' ->
    handles k d t n c (map (fun o => MObservation o) os) t' n' c' -> leaf_at t i on x ->
    exists os' x',
      without (fun o => ~ (kept_by s (c0 O) o /\ on (obs_label o) = true)) os os'
      /\ follows k c x os' x' c' /\ leaf_at t' i on x'.
  Proof.
    intros s k0 c0 d c0' k os t n c t' n' c' i on x Ed. revert t n c x.
    induction os as [|o os IH]; intros t n c x H A; inversion H; subst; clear H.
    - exists [], x. repeat split; [constructor | constructor; apply later_refl | exact A].
    - match goal with E : tele_message _ _ _ _ _ _ = _ |- _ => rename E into H3 end.
      match goal with E : handles _ _ _ _ _ (map _ _) _ _ _ |- _ => rename E into H5 end.
      cbn [tele_message] in H3.
      destruct (should_be_processed d o) eqn:Es.
      + pose proof (proj1 (decider_keeps _ _ _ _ _ _ Ed) Es) as Hk.
        apply bind_ok in H3. destruct H3 as ([t2 u] & cx & E1 & E2).
        apply bind_ok in E2. destruct E2 as (p & cy & E2 & E3). injection E3 as <- <- <-.
        pose proof (add_usize_ticks _ _ _ _ _ _ E2) as L3.
        destruct (tele_leaf _ _ _ _ _ _ _ _ _ _ _ E1 A) as (x1 & A1 & C).
        destruct (IH _ _ _ _ H5 A1) as (os' & x' & W & F & A').
        destruct (on (obs_label o)) eqn:Eo.
        * destruct C as (ca & m & cb & L1 & El & L2). exists (o :: os'), x'. split; [|split; [|exact A']].
          -- apply wo_kept; [intros N; apply N; auto | exact W].
          -- econstructor; [exact L1 | exact El |]. eapply follows_before; [|exact F]. exact (later_trans _ _ _ L2 L3).
        * subst x1. exists os', x'. split; [|split; [|exact A']].
          -- apply wo_gone; [|exact W]. intros [_ N]. rewrite Eo in N. discriminate N.
          -- eapply follows_before; [|exact F]. exact (later_trans _ _ _ (tele_handle_ticks HX _ _ _ _ _ _ _ E1) L3).
      + apply bind_ok in H3. destruct H3 as (p & cy & E2 & E3). injection E3 as <- <- <-.
        pose proof (add_usize_ticks _ _ _ _ _ _ E2) as L3.
        destruct (IH _ _ _ _ H5 A) as (os' & x' & W & F & A').
        exists os', x'. split; [|split; [|exact A']].
        * apply wo_gone; [|exact W]. intros [N _]. apply (decider_keeps _ _ _ _ _ _ Ed) in N. congruence.
        * eapply follows_before; [exact L3 | exact F].
  Qed.

  (** ** Gauges *)

  Lemma listening : 
    (forall (p : panel X) l on, Forall (fun e => fst e = true -> forall a, snd e = LGauge a -> gauge_listens l a = true) (panel_leaves l on p))
    /\ (forall (h : handler X) l on, Forall (fun e => fst e = true -> forall a, snd e = LGauge a -> gauge_listens l a = true) (handler_leaves l on h))
    /\ (forall (c : cockpit X) l on, Forall (fun e => fst e = true -> forall a, snd e = LGauge a -> gauge_listens l a = true) (cockpit_leaves l on c))
    /\ (forall s : snapshooter X, True).
  Proof.
    assert (F : forall A B (P : B -> Prop) (f : A -> list B) l, Forall (fun x => Forall P (f x)) l -> Forall P (flat_map f l)).
    { intros A B P f l H. induction H; [constructor|]. cbn [flat_map]. apply Forall_app; auto. }
    apply tree_ind; auto.
    - intros d sl ps hs ss Hp Hh _ l on. cbn [panel_leaves]. apply Forall_app. split; [|apply Forall_app; split].
      + destruct sl as [[x1|] [x2|] [x3|] [x4|]]; cbn; repeat (constructor; [cbn; intros H a E; try discriminate E|]); try constructor;
          injection E as <-; apply andb_prop in H; apply H.
      + apply F. eapply Forall_impl; [|exact Hp]. auto.
      + apply F. eapply Forall_impl; [|exact Hh]. auto.
    - intros a l on. constructor; [|constructor]. cbn. discriminate.
    - intros a l on. constructor; [|constructor]. cbn. intros H b E. injection E as <-. apply andb_prop in H; apply H.
    - intros u l on. constructor; [|constructor]. cbn. discriminate.
    - intros d ps hs ss Hp Hh _ l on. cbn [cockpit_leaves]. constructor; [cbn; discriminate|].
      apply Forall_app; split; apply F; [eapply Forall_impl; [|exact Hh] | eapply Forall_impl; [|exact Hp]]; auto.
  Qed.

  Lemma leaf_listens : forall (t : tele X) i on a l, leaf_at t i on (LGauge a) -> on l = true -> gauge_listens l a = true.
  Proof.
    intros t i on a l A H. destruct listening as (_ & Hh & Hc & _).
    assert (F : forall A B (P : B -> Prop) (f : A -> list B) l, (forall x, Forall P (f x)) -> Forall P (flat_map f l)).
    { intros A0 B P f l0 H0. induction l0; [constructor|]. cbn [flat_map]. apply Forall_app; auto. }
    assert (G : Forall (fun e => fst e = true -> forall a, snd e = LGauge a -> gauge_listens l a = true) (tele_leaves l t)).
    { unfold tele_leaves. apply Forall_app; split; apply F; auto. }
    apply (proj1 (Forall_forall _ _) G (on l, LGauge a)); auto.
    eapply nth_error_In. apply A.
  Qed.

  Definition handled_as (a : gauge_adapter (lab X)) (pick : observation (lab X) -> option (Z * Z)) (o : observation (lab X)) : Prop :=
    forall g k c,
      ga_handle (lab_eqb X) (ga_with a g) o k c
      = match pick o with
        | None => Ok (ga_with a g, 0) c
        | Some (d, t) =>
            (let* '(g', n) := gauge_update g (ObservationWithValue (ChangedBy d) t) in
             ret (ga_with a g', n)) k c
        end.

  Lemma follows_gauge : forall pick k os c a g x' c',
    Forall (handled_as a pick) os ->
    Forall (fun o => Forall in_i64 (picked pick o)) os -> opt_in_i64 (gauge_get g) ->
    follows k c (LGauge (ga_with a g)) os x' c' ->
    exists g', x' = LGauge (ga_with a g')
      /\ gauge_get g' = option_map wrap_i64 (changed_by (flat_map (picked pick) os) (gauge_get g)).
  Proof.
    intros pick k os c a g x' c' Hh Hd Hin F. remember (LGauge (ga_with a g)) as x eqn:Ex.
    revert g Ex Hh Hd Hin. induction F as [c x c' L | c c0 o x x1 n c1 os x2 c2 L E F IH]; intros g -> Hh Hd Hin.
    - exists g. split; [reflexivity|]. cbn. unfold gauge_get in *. destruct (g_value g) as [z|]; cbn; [|reflexivity].
      rewrite wrap_i64_id; [reflexivity|exact Hin].
    - inversion Hd as [|? ? Hd1 Hd2]; subst. inversion Hh as [|? ? Hh1 Hh2]; subst.
      cbn [leaf_handle] in E. apply bind_ok in E. destruct E as ([a1 n1] & w1 & E1 & E). injection E as <- <- <-.
      rewrite Hh1 in E1. cbn [flat_map]. unfold picked in Hd1 |- * at 1. destruct (pick o) as [[d t]|] eqn:Ep.
      + apply bind_ok in E1. destruct E1 as ([g1 n] & w2 & E1 & E2). injection E2 as <- <- <-.
        inversion Hd1; subst.
        destruct (gauge_update_value _ _ (Changes d) _ _ _ _ _
                    (ltac:(cbn; assumption) : update_ok (ObservationWithValue (ChangedBy d) t))
                    (eff_with_value _ _ t _ (eff_change _ d)) Hin E1)
          as (Hv & _ & _ & _ & _ & Hn & Hi).
        destruct (IH g1 eq_refl Hh2 Hd2 Hi) as (g' & Eg & Hv2).
        exists g'. split; [exact Eg|].
        rewrite Hv2. unfold gauge_get in *. rewrite Hv. cbn [app].
        pose proof (changed_by_cons d (flat_map (picked pick) os) (g_value g)) as Hc. unfold wrap_opt in Hc.
        rewrite <- Hc. do 2 f_equal. destruct (g_value g); cbn; f_equal; f_equal; ring.
      + injection E1 as <- <- <-. destruct (IH g eq_refl Hh2 Hd2 Hin) as (g' & Eg & Hv2).
        exists g'. split; [exact Eg | exact Hv2].
  Qed.

  Lemma without_flat : forall A B (P : A -> Prop) (f : A -> list B) l l',
    without P l l' -> (forall x, In x l -> P x -> f x = []) -> flat_map f l' = flat_map f l.
  Proof.
    intros A B P f l l' H. induction H; intros G; [reflexivity|..]; cbn [flat_map].
    - rewrite (G x (or_introl eq_refl) H). cbn. apply IHwithout. intros y Hy. apply G. right. exact Hy.
    - f_equal. apply IHwithout. intros y Hy. apply G. right. exact Hy.
  Qed.

  (** The deltas that reach the gauge. *)
  Definition plain (l : lab X) (u : update) : update := u.

  Lemma accepted_delta : forall on (o : observation (lab X)), accepted_change on plain o <> [] -> delta_observation o /\ on (obs_label o) = true.
  Proof.
    intros on o H. unfold accepted_change, plain in H.
    destruct o as [l n t|l t|l v t]; cbn in *; destruct (on l); try (destruct (H eq_refl)).
    destruct v; try (destruct (H eq_refl)). split; [constructor | reflexivity].
  Qed.

  Lemma gauge_keeps_deltas : forall k0 c0 d c0' k os (t : tele X) n c t' n' c' i on f g,
    strategy_decider strategy_default k0 c0 = Ok d c0' ->
    handles k d t n c (map (fun o => MObservation o) os) t' n' c' ->
    forall a, a = ga_deltas_only f g \/ (a = ga_accept f g /\ Forall (fun o => on (obs_label o) = true -> delta_observation o) os) ->
    leaf_at t i on (LGauge a) ->
    opt_in_i64 (gauge_get g) -> Forall (fun o => Forall in_i64 (accepted_change on plain o)) os ->
    exists g', leaf_at t' i on (LGauge (ga_with a g'))
      /\ gauge_get g' = option_map wrap_i64 (changed_by (accepted_changes on plain os) (gauge_get g)).
  Proof.
    intros k0 c0 d c0' k os t n c t' n' c' i on f g Ed Hh a Ha A Hin Hd.
    destruct (collection_leaf _ _ _ _ _ _ _ _ _ _ _ _ _ _ _ _ Ed Hh A) as (os' & x' & W & F & A').
    assert (Eg : a = ga_with a g) by (destruct Ha as [-> | [-> _]]; reflexivity).
    assert (In1 : forall o, In o os' -> In o os /\ kept_by strategy_default (c0 O) o /\ on (obs_label o) = true).
    { intros o Ho. pose proof (without_in _ _ _ W _ Ho) as [H1 H2]. split; [exact H1|].
      destruct (on (obs_label o)) eqn:Eo.
      - split; [|reflexivity]. destruct (should_be_processed d o) eqn:Es.
        + apply (decider_keeps _ _ _ _ _ _ Ed). exact Es.
        + destruct H2. intros [N _]. apply (decider_keeps _ _ _ _ _ _ Ed) in N. congruence.
      - destruct H2. intros [_ N]. congruence. }
    assert (Lis : forall o, In o os' -> accepts (lab_eqb X) f (obs_label o) = true).
    { intros o Ho. destruct (In1 o Ho) as (_ & _ & Eo). pose proof (leaf_listens _ _ _ _ _ A Eo) as L.
      destruct Ha as [-> | [-> _]]; exact L. }
    assert (Pk : forall o, In o os' -> picked (pick_delta (lab_eqb X) f None) o = accepted_change on plain o).
    { intros o Ho. rewrite picked_delta. unfold accepted_change, plain. pose proof (Lis o Ho) as L. destruct (In1 o Ho) as (_ & _ & Eo).
      destruct o; cbn in *; rewrite L, Eo; reflexivity. }
    rewrite Eg in F.
    destruct (follows_gauge (pick_delta (lab_eqb X) f None) k os' c a g x' c') as (g' & -> & Hv).
    - apply Forall_forall. intros o Ho g0 k1 c1. destruct Ha as [-> | [-> Hall]].
      + apply (deltas_only_handles (lab_eqb X) f None g).
      + destruct (In1 o Ho) as (Io & _ & Eo). pose proof (proj1 (Forall_forall _ _) Hall o Io Eo) as D.
        pose proof (Lis o Ho) as L. inversion D; subst. unfold ga_handle, pick_delta, ga_with, ga_accept. cbn in *. rewrite L. reflexivity.
    - apply Forall_forall. intros o Ho. rewrite (Pk o Ho). destruct (In1 o Ho) as (Io & _). exact (proj1 (Forall_forall _ _) Hd o Io).
    - exact Hin.
    - exact F.
    - exists g'. split; [exact A'|]. rewrite Hv. do 2 f_equal. unfold accepted_changes.
      rewrite <- (without_flat _ _ _ (accepted_change on plain) _ _ W).
      + clear - Pk. induction os' as [|o os' IH]; [reflexivity|]. cbn [flat_map]. rewrite Pk by (left; reflexivity). f_equal.
        apply IH. intros o1 Ho. apply Pk. right. exact Ho.
      + intros o Io Hn. destruct (accepted_change on plain o) as [|z zs] eqn:Ez; [reflexivity|]. destruct Hn.
        destruct (accepted_delta on o) as [D Eo]; [rewrite Ez; discriminate|]. split; [|exact Eo]. apply default_keeps_deltas. exact D.
  Qed.

  (** Increments and decrements on labels: what is kept counts. *)
  Lemma inc_dec_kept : forall s k0 c0 d c0' k os (t : tele X) n c t' n' c' i on inc dec g,
    strategy_decider s k0 c0 = Ok d c0' ->
    handles k d t n c (map (fun o => MObservation o) os) t' n' c' ->
    leaf_at t i on (LGauge (ga_inc_dec_on inc dec g)) -> opt_in_i64 (gauge_get g) ->
    exists os' g', without (fun o => ~ kept_by s (c0 O) o) os os'
      /\ leaf_at t' i on (LGauge (ga_inc_dec_on inc dec g'))
      /\ let incs := how_many (fun l => on l && accepts (lab_eqb X) inc l) os' in
         let decs := how_many (fun l => on l && negb (accepts (lab_eqb X) inc l)) os' in
         gauge_get g' = option_map wrap_i64
           (match gauge_get g with
            | Some z => Some (z + (incs - decs))
            | None => if incs + decs =? 0 then None else Some (incs - decs)
            end).
  Proof.
    intros s k0 c0 d c0' k os t n c t' n' c' i on inc dec g Ed Hh A Hin.
    destruct (collection_leaf _ _ _ _ _ _ _ _ _ _ _ _ _ _ _ _ Ed Hh A) as (os2 & x' & W & F & A').
    set (a := ga_inc_dec_on inc dec g) in *. change (LGauge a) with (LGauge (ga_with a g)) in F.
    destruct (follows_gauge (pick_inc_dec (lab_eqb X) inc dec) k os2 c a g x' c') as (g' & -> & Hv).
    - apply Forall_forall. intros o _ g0 k1 c1. apply (inc_dec_handles (lab_eqb X) inc dec None g).
    - apply inc_dec_in_i64.
    - exact Hin.
    - exact F.
    - set (p1 := fun l => on l && accepts (lab_eqb X) inc l). set (p2 := fun l => on l && negb (accepts (lab_eqb X) inc l)).
      assert (G : exists os', without (fun o => ~ kept_by s (c0 O) o) os os'
                  /\ how_many (accepts (lab_eqb X) inc) os2 = how_many p1 os'
                  /\ how_many (only_dec (lab_eqb X) inc dec) os2 = how_many p2 os').
      { assert (Lis : forall l, on l = true -> accepts (lab_eqb X) inc l || accepts (lab_eqb X) dec l = true)
          by (intros l El; exact (leaf_listens _ _ _ _ _ A El)).
        clear - W Lis Ed. induction W as [|o l l' Hn W IH | o l l' Hn W IH].
        - exists []. repeat split. constructor.
        - destruct IH as (os' & W' & E1 & E2). destruct (should_be_processed d o) eqn:Es.
          + pose proof (proj1 (decider_keeps _ _ _ _ _ _ Ed) Es) as Hk. exists (o :: os'). split; [apply wo_kept; auto|].
            rewrite !how_many_cons. change (fst (split_observation o)) with (fst (split_observation o)). rewrite (label_split o).
            unfold p1, p2. destruct (on (obs_label o)) eqn:Eo; [destruct Hn; auto|]. cbn [andb]. split; [exact E1 | exact E2].
          + exists os'. split; [|auto]. apply wo_gone; [|exact W']. intros N. apply (decider_keeps _ _ _ _ _ _ Ed) in N. congruence.
        - destruct IH as (os' & W' & E1 & E2). exists (o :: os').
          assert (K : kept_by s (c0 O) o /\ on (obs_label o) = true).
          { destruct (on (obs_label o)) eqn:Eo.
            - destruct (should_be_processed d o) eqn:Es.
              + split; [apply (decider_keeps _ _ _ _ _ _ Ed); exact Es | reflexivity].
              + destruct Hn. intros [N _]. apply (decider_keeps _ _ _ _ _ _ Ed) in N. congruence.
            - destruct Hn. intros [_ N]. congruence. }
          destruct K as [K Eo]. split; [apply wo_kept; auto|]. rewrite !how_many_cons, (label_split o), E1, E2.
          unfold p1, p2, only_dec. rewrite Eo. specialize (Lis _ Eo). cbn [andb].
          destruct (accepts (lab_eqb X) inc (obs_label o)); cbn [negb andb orb] in *; [auto|]. rewrite Lis. auto. }
      destruct G as (os' & W' & E1 & E2). exists os', g'. split; [exact W'|]. split; [exact A'|]. cbv zeta.
      rewrite Hv, inc_dec_changed, E1, E2. reflexivity.
  Qed.

  (** ** For the examples *)

  Fixpoint handle_all (d : decider) (t : tele X) (n : counts) (ms : list (message X)) : M (tele X * counts) :=
    match ms with
    | [] => ret (t, n)
    | m :: ms => let* '(t, n) := tele_message d t n m in handle_all d t n ms
    end.

  Lemma handle_all_handles : forall k d ms (t : tele X) n c t' n' c',
    handle_all d t n ms k c = Ok (t', n') c' -> handles k d t n c ms t' n' c'.
  Proof.
    clear HX. intros k d ms. induction ms as [|m ms IH]; intros t n c t' n' c' E; cbn [handle_all] in E.
    - injection E as <- <- <-. constructor.
    - apply bind_ok in E. destruct E as ([t1 n1] & c1 & E1 & E). econstructor; [exact E1 | apply IH; exact E].
  Qed.
End Follow.
