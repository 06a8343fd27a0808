(** Dispatch of observations in trees of panels, handlers and cockpits. *)
From Coq Require Import ZArith Bool String List Lia ZifyBool.
From Verif Require Import Base SpecRun MonadFacts ModelObservation ModelLabelFilter ModelSnapshot
  ModelCounter ModelGauge ModelMeter ModelHistogram ModelInstrument ModelTree ModelChannel
  ModelProcessor SpecTree TreeInd.
Import ListNotations.
Open Scope Z_scope.

Section TreeProofs.
  Context {X : ext}.

  Lemma served_app : forall k (o : observation (lab X)) c a a' na c1 b b' nb c2,
    served k o c a a' na c1 -> served k o c1 b b' nb c2 ->
    served k o c (a ++ b) (a' ++ b') (na ++ nb) c2.
  Proof.
    intros k o c a a' na c1 b b' nb c2 H. revert b b' nb c2.
    induction H; intros; cbn [app]; eauto using served_off, served_on.
  Qed.

  Lemma served_all_off : forall k (o : observation (lab X)) c ls,
    Forall (fun e => fst e = false) ls ->
    served k o c ls (map snd ls) (map (fun _ => 0) ls) c.
  Proof.
    intros k o c ls H. induction H as [|[b x] ls Hb H IH]; cbn; [constructor|].
    cbn in Hb. subst b. apply served_off. exact IH.
  Qed.

  Lemma sum_zeros : forall A (l : list A), sum (map (fun _ => 0) l) = 0.
  Proof. induction l; cbn; lia. Qed.

  (** ** Leaves behind a closed filter *)

  Definition off_and_same (f : bool -> list (bool * leaf X)) : Prop :=
    Forall (fun e => fst e = false) (f false) /\ forall b, map snd (f b) = map snd (f true).

  Lemma off_flat_map : forall A (f : bool -> A -> list (bool * leaf X)) l,
    Forall (fun x => off_and_same (fun b => f b x)) l ->
    off_and_same (fun b => flat_map (f b) l).
  Proof.
    intros A f l H. induction H as [|x l [H1 H2] H [IH1 IH2]]; split; cbn; try constructor.
    - apply Forall_app. split; assumption.
    - intros b. rewrite !map_app, H2, IH2. reflexivity.
  Qed.

  Lemma off_app : forall (f g : bool -> list (bool * leaf X)),
    off_and_same f -> off_and_same g -> off_and_same (fun b => f b ++ g b).
  Proof.
    intros f g [H1 H2] [H3 H4]. split; [apply Forall_app; split; assumption|].
    intros b. rewrite !map_app, H2, H4. reflexivity.
  Qed.

  Lemma off_map : forall A (f : bool -> A -> bool * leaf X) l,
    (forall x, fst (f false x) = false) -> (forall b x, snd (f b x) = snd (f true x)) ->
    off_and_same (fun b => map (f b) l).
  Proof.
    intros A f l H1 H2. split.
    - induction l; cbn; constructor; auto.
    - intros b. rewrite !map_map. apply map_ext. intros x. apply H2.
  Qed.

  Lemma slots_off : forall l (sl : slots X), off_and_same (fun b => slots_leaves l b sl).
  Proof.
    intros l sl. unfold slots_leaves.
    repeat apply off_app; apply off_map; reflexivity.
  Qed.

  Lemma off_and : forall (f : bool -> list (bool * leaf X)) a,
    off_and_same f -> off_and_same (fun b => f (b && a)).
  Proof.
    intros f a [H1 H2]. split; [exact H1|].
    intros b. rewrite (H2 (b && a)), <- (H2 (true && a)). reflexivity.
  Qed.

  Lemma leaves_off : forall l,
    (forall p : panel X, off_and_same (fun b => panel_leaves l b p))
    /\ (forall h : handler X, off_and_same (fun b => handler_leaves l b h))
    /\ (forall c : cockpit X, off_and_same (fun b => cockpit_leaves l b c))
    /\ (forall s : snapshooter X, True).
  Proof.
    intros l. apply tree_ind; auto.
    - intros d sl ps hs ss Hp Hh _. cbn [panel_leaves].
      apply (off_and (fun b => slots_leaves l b sl ++ flat_map (panel_leaves l b) ps
                               ++ flat_map (handler_leaves l b) hs)).
      apply off_app; [apply slots_off|]. apply off_app; apply off_flat_map; assumption.
    - intros a. split; [repeat constructor | reflexivity].
    - intros a. split; [repeat constructor | reflexivity].
    - intros u. split; [repeat constructor | reflexivity].
    - intros d ps hs ss Hp Hh _. cbn [cockpit_leaves].
      apply (off_app (fun b => [(b, LCockpit d)])); [split; [repeat constructor | reflexivity]|].
      apply off_app; apply off_flat_map; assumption.
  Qed.

  (** ** Dispatch *)

  Lemma adds_up_one : forall k n, adds_up k 0 [n] n.
  Proof.
    intros. split; cbn.
    - lia.
    - intros H _. inversion H; subst. rewrite wrap_u64_id; unfold in_u64 in *; lia.
  Qed.

  Lemma adds_up_zeros : forall A k (l : list A), adds_up k 0 (map (fun _ => 0) l) 0.
  Proof.
    intros. split; rewrite sum_zeros; [lia|]. intros. rewrite wrap_u64_id; lia.
  Qed.

  Lemma adds_up_trans : forall k a ns1 b ns2 c,
    adds_up k a ns1 b -> adds_up k b ns2 c -> adds_up k a (ns1 ++ ns2) c.
  Proof.
    intros k a ns1 b ns2 c [H1 H2] [H3 H4]. split; rewrite sum_app.
    - intros H. rewrite H3, H1 by exact H. lia.
    - intros H Ha. apply Forall_app in H. destruct H as [Hx Hy].
      specialize (H2 Hx Ha). rewrite H4; [|exact Hy | rewrite H2; apply wrap_u64_range].
      rewrite H2, wrap_u64_add_l. f_equal. lia.
  Qed.

  Lemma adds_up_nil : forall k a, adds_up k a [] a.
  Proof. intros. split; cbn; [lia|]. intros _ H. rewrite wrap_u64_id; unfold in_u64 in *; lia. Qed.

  Definition dispatches {A} (o : observation (lab X)) (f : A -> M (A * Z))
    (leaves : A -> list (bool * leaf X)) (same : A -> A -> Prop) (x : A) : Prop :=
    forall k c x' n c', f x k c = Ok (x', n) c' ->
    exists ns, served k o c (leaves x) (map snd (leaves x')) ns c' /\ adds_up k 0 ns n /\ same x x'.

  Lemma tally_dispatches : forall A o (f : A -> M (A * Z)) leaves same x,
    dispatches o f leaves same x ->
    forall k c acc x' acc' c', tally f x acc k c = Ok (x', acc') c' ->
    exists ns, served k o c (leaves x) (map snd (leaves x')) ns c' /\ adds_up k acc ns acc' /\ same x x'.
  Proof.
    intros A o f leaves same x H k c acc x' acc' c' E. unfold tally in E. steps.
    destruct (H _ _ _ _ _ E0) as (ns & Hs & (Ha & Hb) & Hf).
    apply u64_arith_inv in E. destruct E as (-> & -> & Hr).
    exists ns. split; [exact Hs|]. split; [|exact Hf]. split.
    - intros Hk. specialize (Hr Hk). rewrite wrap_u64_id by lia. rewrite Ha by exact Hk. lia.
    - intros Hn Hacc. rewrite Hb by (try exact Hn; unfold in_u64; lia).
      rewrite wrap_u64_add_r. reflexivity.
  Qed.

  Lemma traverse_dispatches : forall A o (f : A -> M (A * Z)) leaves same l,
    Forall (dispatches o f leaves same) l ->
    forall k c acc l' acc' c', traverse (tally f) l acc k c = Ok (l', acc') c' ->
    exists ns, served k o c (flat_map leaves l) (map snd (flat_map leaves l')) ns c'
      /\ adds_up k acc ns acc' /\ Forall2 same l l'.
  Proof.
    intros A o f leaves same l H. induction H as [|x l Hx H IH]; intros k c acc l' acc' c' E;
      cbn [traverse] in E.
    - steps. exists []. split; [constructor|]. split; [apply adds_up_nil | constructor].
    - apply bind_ok in E. destruct E as ([x1 a1] & c1 & E1 & E).
      apply bind_ok in E. destruct E as ([l1 a2] & c2 & E2 & E). steps.
      destruct (tally_dispatches _ _ _ _ _ _ Hx _ _ _ _ _ _ E1) as (n1 & S1 & A1 & F1).
      destruct (IH _ _ _ _ _ _ E2) as (n2 & S2 & A2 & F2).
      exists (n1 ++ n2). cbn [flat_map]. rewrite map_app.
      split; [eapply served_app; eassumption|].
      split; [eapply adds_up_trans; eassumption | constructor; assumption].
  Qed.

  Lemma traverse_opt_dispatches : forall A o (f : A -> M (A * Z)) (leaf1 : A -> bool * leaf X) same,
    (forall x, dispatches o f (fun x => [leaf1 x]) same x) ->
    forall k c acc x x' acc' c', traverse_opt (tally f) x acc k c = Ok (x', acc') c' ->
    exists ns, served k o c (map leaf1 (opt_list x)) (map snd (map leaf1 (opt_list x'))) ns c'
      /\ adds_up k acc ns acc' /\ same_opt same x x'.
  Proof.
    intros A o f leaf1 same H k c acc x x' acc' c' E. destruct x as [x|]; cbn [traverse_opt] in E.
    - apply bind_ok in E. destruct E as ([x1 a1] & c1 & E1 & E). steps.
      destruct (tally_dispatches _ _ _ _ _ _ (H x) _ _ _ _ _ _ E1) as (n1 & S1 & A1 & F1).
      exists n1. split; [exact S1|]. split; assumption.
    - steps. exists []. split; [constructor|]. split; [apply adds_up_nil | exact I].
  Qed.

  Lemma label_split : forall (o : observation (lab X)), fst (split_observation o) = obs_label o.
  Proof. destruct o; reflexivity. Qed.

  Lemma adapter_dispatches : forall I (w : I -> instrument X) upd o (a : adapter X I),
    (forall i u, instrument_update (w i) u = wrap w (upd i u)) ->
    dispatches o (fun a => adapter_handle upd a o) (fun a => [adapter_leaf w (obs_label o) true a])
      same_adapter a.
  Proof.
    intros I w upd o a Hw k c a' n c' E. unfold adapter_handle in E.
    unfold adapter_leaf. cbn [andb].
    destruct (accepts (lab_eqb X) (ad_filter a) (obs_label o)) eqn:Ea; cbn [negb] in E.
    - pose proof (label_split o) as El.
      destruct (split_observation o) as [l u] eqn:Eo. cbn [fst] in El. subst l.
      apply bind_ok in E. destruct E as ([i m] & c1 & E1 & E). steps.
      exists [n]. cbn [map snd]. split; [|split; [apply adds_up_one | split; reflexivity]].
      eapply served_on; [|constructor].
      unfold leaf_handle. rewrite Eo. cbn [snd]. rewrite Hw. unfold wrap, bind. rewrite E1.
      reflexivity.
    - steps. exists [0]. cbn [map snd].
      split; [apply served_off; constructor|]. split; [apply adds_up_one | split; reflexivity].
  Qed.

  Lemma gauge_dispatches : forall o (a : gauge_adapter (lab X)),
    dispatches o (fun a => ga_handle (lab_eqb X) a o) (fun a => [gauge_leaf (obs_label o) true a])
      same_gauge a.
  Proof.
    intros o a k c a' n c' E. unfold gauge_leaf. cbn [andb map snd].
    pose proof (label_split o) as El.
    assert (Hf : same_gauge a a').
    { unfold ga_handle in E. destruct (split_observation o) as [l u].
      destruct (ga_strategy a) as [f|f|i d] eqn:Es.
      - destruct (negb (accepts (lab_eqb X) f l)); steps; split; try reflexivity; cbn; congruence.
      - destruct (negb (accepts (lab_eqb X) f l)); [steps; split; try reflexivity|].
        destruct (modify (ga_modify_update a) l u) as [| |[] ?]; steps; split; reflexivity.
      - destruct (accepts (lab_eqb X) i l); [steps; split; reflexivity|].
        destruct (accepts (lab_eqb X) d l); steps; split; reflexivity. }
    destruct (gauge_listens (obs_label o) a) eqn:Eg.
    - exists [n]. split; [|split; [apply adds_up_one | exact Hf]].
      eapply served_on; [|constructor]. unfold leaf_handle, bind. rewrite E. reflexivity.
    - assert (H : a' = a /\ n = 0 /\ c' = c).
      { unfold ga_handle in E. unfold gauge_listens in Eg.
        destruct (split_observation o) as [l u]. cbn [fst] in El. subst l.
        destruct (ga_strategy a) as [f|f|i d].
        - rewrite Eg in E. cbn [negb] in E. steps. auto.
        - rewrite Eg in E. cbn [negb] in E. steps. auto.
        - apply orb_false_iff in Eg. destruct Eg as [Ei Ed]. rewrite Ei, Ed in E. steps. auto. }
      destruct H as (-> & -> & ->). exists [0].
      split; [apply served_off; constructor|]. split; [apply adds_up_one | exact Hf].
  Qed.

  Lemma slots_dispatches : forall o (sl : slots X) k c acc sl' acc' c',
    slots_handle sl o acc k c = Ok (sl', acc') c' ->
    exists ns, served k o c (slots_leaves (obs_label o) true sl)
                 (map snd (slots_leaves (obs_label o) true sl')) ns c'
      /\ adds_up k acc ns acc' /\ same_slots sl sl'.
  Proof.
    intros o sl k c acc sl' acc' c' E. unfold slots_handle in E.
    apply bind_ok in E. destruct E as ([s1 a1] & c1 & E1 & E).
    apply bind_ok in E. destruct E as ([s2 a2] & c2 & E2 & E).
    apply bind_ok in E. destruct E as ([s3 a3] & c3 & E3 & E).
    apply bind_ok in E. destruct E as ([s4 a4] & c4 & E4 & E).
    apply (traverse_opt_dispatches _ _ _ _ _
             (fun x => adapter_dispatches _ ICounter _ o x (fun i u => eq_refl))) in E1.
    apply (traverse_opt_dispatches _ _ _ _ _ (fun x => gauge_dispatches o x)) in E2.
    apply (traverse_opt_dispatches _ _ _ _ _
             (fun x => adapter_dispatches _ IMeter _ o x (fun i u => eq_refl))) in E3.
    apply (traverse_opt_dispatches _ _ _ _ _
             (fun x => adapter_dispatches _ IHistogram _ o x (fun i u => eq_refl))) in E4.
    destruct E1 as (n1 & S1 & A1 & F1). destruct E2 as (n2 & S2 & A2 & F2).
    destruct E3 as (n3 & S3 & A3 & F3). destruct E4 as (n4 & S4 & A4 & F4).
    steps. exists (n1 ++ n2 ++ n3 ++ n4). split; [|split].
    - unfold slots_leaves. cbn [sl_counter sl_gauge sl_meter sl_histogram]. rewrite !map_app.
      eapply served_app; [exact S1|]. eapply served_app; [exact S2|].
      eapply served_app; [exact S3 | exact S4].
    - eapply adds_up_trans; [exact A1|]. eapply adds_up_trans; [exact A2|].
      eapply adds_up_trans; [exact A3 | exact A4].
    - unfold same_slots. cbn. auto.
  Qed.

  Lemma same_opt_refl : forall A (R : A -> A -> Prop) o, (forall x, R x x) -> same_opt R o o.
  Proof. destruct o; cbn; auto. Qed.

  Lemma same_slots_refl : forall sl : slots X, same_slots sl sl.
  Proof.
    intros. unfold same_slots. repeat split; apply same_opt_refl; intros; split; reflexivity.
  Qed.

  Lemma same_refl :
    (forall p : panel X, same_panel p p) /\ (forall h : handler X, same_handler h h)
    /\ (forall c : cockpit X, same_cockpit c c) /\ (forall s : snapshooter X, True).
  Proof.
    apply tree_ind; auto; intros; constructor; auto using same_slots_refl;
      try (split; reflexivity); try (repeat split; reflexivity);
      match goal with H : Forall _ ?l |- Forall2 _ ?l ?l => induction H; constructor; auto end.
  Qed.

  Lemma tree_dispatches : forall o,
    (forall p : panel X, dispatches o (fun x => panel_handle x o) (panel_leaves (obs_label o) true)
                           same_panel p)
    /\ (forall h : handler X, dispatches o (fun x => handler_handle x o)
                                (handler_leaves (obs_label o) true) same_handler h)
    /\ (forall c : cockpit X, dispatches o (fun x => cockpit_handle x o)
                                (cockpit_leaves (obs_label o) true) same_cockpit c)
    /\ (forall s : snapshooter X, True).
  Proof.
    intros o. apply tree_ind; auto.
    - intros d sl ps hs ss Hp Hh _ k c p' n c' E. cbn [panel_handle] in E.
      destruct (accepts (lab_eqb X) (pd_filter d) (obs_label o)) eqn:Ea; cbn [negb] in E.
      + apply bind_ok in E. destruct E as ([s1 a1] & c1 & E1 & E).
        apply bind_ok in E. destruct E as ([s2 a2] & c2 & E2 & E).
        apply bind_ok in E. destruct E as ([s3 a3] & c3 & E3 & E). steps.
        apply slots_dispatches in E1. apply (traverse_dispatches _ _ _ _ _ _ Hp) in E2.
        apply (traverse_dispatches _ _ _ _ _ _ Hh) in E3.
        destruct E1 as (n1 & S1 & A1 & F1). destruct E2 as (n2 & S2 & A2 & F2).
        destruct E3 as (n3 & S3 & A3 & F3).
        exists (n1 ++ n2 ++ n3). cbn [panel_leaves]. rewrite Ea. cbn [andb]. split; [|split].
        * rewrite !map_app. eapply served_app; [exact S1|]. eapply served_app; [exact S2 | exact S3].
        * eapply adds_up_trans; [exact A1|]. eapply adds_up_trans; [exact A2 | exact A3].
        * constructor; assumption.
      + steps.
        assert (Hoff : Forall (fun e => fst e = false)
                         (panel_leaves (obs_label o) true (Panel d sl ps hs ss))).
        { cbn [panel_leaves]. rewrite Ea. cbn [andb].
          destruct (leaves_off (obs_label o)) as (Lp & Lh & _).
          apply Forall_app. split; [apply slots_off|]. apply Forall_app.
          split; apply off_flat_map; apply Forall_forall; auto. }
        eexists. split; [apply served_all_off; exact Hoff|].
        split; [apply adds_up_zeros | apply same_refl].
    - intros a k c h' n c' E. cbn [handler_handle] in E. unfold wrap in E.
      apply bind_ok in E. destruct E as ([a1 m] & c1 & E1 & E). steps.
      unfold adapter_handle in E1.
      cbn [handler_leaves]. unfold adapter_leaf. cbn [andb map snd].
      destruct (accepts (lab_eqb X) (ad_filter a) (obs_label o)) eqn:Ea; cbn [negb] in E1.
      + pose proof (label_split o) as El.
        destruct (split_observation o) as [l u] eqn:Eo. cbn [fst] in El. subst l.
        apply bind_ok in E1. destruct E1 as ([i m] & c2 & E1 & E). steps.
        exists [n]. split; [|split; [apply adds_up_one | constructor; split; reflexivity]].
        eapply served_on; [|constructor].
        unfold leaf_handle. rewrite Eo. cbn [snd]. unfold bind. rewrite E1. reflexivity.
      + steps. exists [0].
        split; [apply served_off; constructor|].
        split; [apply adds_up_one | constructor; split; reflexivity].
    - intros a k c h' n c' E. cbn [handler_handle] in E. unfold wrap in E.
      apply bind_ok in E. destruct E as ([a1 m] & c1 & E1 & E). steps.
      destruct (gauge_dispatches o a _ _ _ _ _ E1) as (ns & S & A & F).
      exists ns. split; [exact S|]. split; [exact A | constructor; exact F].
    - intros p IH k c h' n c' E. cbn [handler_handle] in E. unfold wrap in E.
      apply bind_ok in E. destruct E as ([a1 m] & c1 & E1 & E). steps.
      destruct (IH _ _ _ _ _ E1) as (ns & S & A & F).
      exists ns. split; [exact S|]. split; [exact A | constructor; exact F].
    - intros p IH k c h' n c' E. cbn [handler_handle] in E. unfold wrap in E.
      apply bind_ok in E. destruct E as ([a1 m] & c1 & E1 & E). steps.
      destruct (IH _ _ _ _ _ E1) as (ns & S & A & F).
      exists ns. split; [exact S|]. split; [exact A | constructor; exact F].
    - intros u k c h' n c' E. cbn [handler_handle] in E. unfold wrap in E.
      apply bind_ok in E. destruct E as ([a1 m] & c1 & E1 & E). steps.
      exists [n]. split; [|split; [apply adds_up_one | constructor]].
      cbn [handler_leaves map snd]. eapply served_on; [|constructor].
      unfold leaf_handle, bind. rewrite E1. reflexivity.
    - intros d ps hs ss Hp Hh _ k c p' n c' E. cbn [cockpit_handle] in E.
      apply bind_ok in E. destruct E as (t & c1 & E1 & E).
      apply bind_ok in E. destruct E as ([s2 a2] & c2 & E2 & E).
      apply bind_ok in E. destruct E as ([s3 a3] & c3 & E3 & E). steps.
      apply (traverse_dispatches _ _ _ _ _ _ Hh) in E2.
      apply (traverse_dispatches _ _ _ _ _ _ Hp) in E3.
      destruct E2 as (n2 & S2 & A2 & F2). destruct E3 as (n3 & S3 & A3 & F3).
      exists (0 :: n2 ++ n3). cbn [cockpit_leaves map snd]. split; [|split].
      + rewrite map_app. eapply served_on; [reflexivity|]. eapply served_app; [exact S2 | exact S3].
      + apply (adds_up_trans _ _ [0] 0); [apply adds_up_one|].
        eapply adds_up_trans; [exact A2 | exact A3].
      + constructor; auto. repeat split; reflexivity.
  Qed.

  Lemma tele_dispatches : forall o (t : tele X) acc k c t' acc' c',
    tele_handle t o acc k c = Ok (t', acc') c' ->
    exists ns, served k o c (tele_leaves (obs_label o) t) (map snd (tele_leaves (obs_label o) t')) ns c'
      /\ adds_up k acc ns acc'
      /\ t' = tele_with t (tp_cockpits t') (tp_handlers t')
      /\ Forall2 same_cockpit (tp_cockpits t) (tp_cockpits t')
      /\ Forall2 same_handler (tp_handlers t) (tp_handlers t').
  Proof.
    intros o t acc k c t' acc' c' E. unfold tele_handle in E.
    apply bind_ok in E. destruct E as ([s2 a2] & c2 & E2 & E).
    apply bind_ok in E. destruct E as ([s3 a3] & c3 & E3 & E). steps.
    destruct (tree_dispatches o) as (_ & Lh & Lc & _).
    eapply traverse_dispatches in E2; [|apply Forall_forall; intros; apply Lc].
    eapply traverse_dispatches in E3; [|apply Forall_forall; intros; apply Lh].
    destruct E2 as (n2 & S2 & A2 & F2). destruct E3 as (n3 & S3 & A3 & F3).
    exists (n2 ++ n3). split; [|split; [|split; [|split]]].
    - unfold tele_leaves. rewrite map_app. eapply served_app; [exact S2 | exact S3].
    - eapply adds_up_trans; [exact A2 | exact A3].
    - reflexivity.
    - exact F2.
    - exact F3.
  Qed.

  (** ** Nothing happens behind closed filters *)

  Lemma adapter_deaf_eq : forall I upd (a : adapter X I) o k c,
    accepts (lab_eqb X) (ad_filter a) (obs_label o) = false ->
    adapter_handle upd a o k c = Ok (a, 0) c.
  Proof. intros. unfold adapter_handle. rewrite H. reflexivity. Qed.

  Lemma panel_deaf_eq : forall (p : panel X) o k c,
    panel_accepts_label p (obs_label o) = false -> panel_handle p o k c = Ok (p, 0) c.
  Proof.
    intros [d sl ps hs ss] o k c H. cbn [panel_handle]. unfold panel_accepts_label in H. cbn in H.
    rewrite H. reflexivity.
  Qed.

  Lemma tally_zero : forall A (f : A -> M (A * Z)) x k c,
    f x k c = Ok (x, 0) c -> tally f x 0 k c = Ok (x, 0) c.
  Proof. intros. unfold tally. erewrite bind_eq by exact H. reflexivity. Qed.

  Lemma traverse_zero : forall A (f : A -> M (A * Z)) l k c,
    Forall (fun x => f x k c = Ok (x, 0) c) l -> traverse (tally f) l 0 k c = Ok (l, 0) c.
  Proof.
    intros A f l k c H. induction H as [|x l Hx H IH]; cbn [traverse]; [reflexivity|].
    erewrite bind_eq by (apply tally_zero; exact Hx). cbn beta iota.
    erewrite bind_eq by exact IH. reflexivity.
  Qed.

  Lemma traverse_opt_zero : forall A (f : A -> M (A * Z)) l k c,
    Forall (fun x => f x k c = Ok (x, 0) c) (opt_list l) ->
    traverse_opt (tally f) l 0 k c = Ok (l, 0) c.
  Proof.
    intros A f l k c H. destruct l as [x|]; cbn [traverse_opt]; [|reflexivity].
    inversion H; subst. erewrite bind_eq by (apply tally_zero; eassumption). reflexivity.
  Qed.

  Lemma gauge_deaf_eq : forall (a : gauge_adapter (lab X)) o k c,
    gauge_listens (obs_label o) a = false -> ga_handle (lab_eqb X) a o k c = Ok (a, 0) c.
  Proof.
    intros a o k c H. unfold ga_handle, gauge_listens in *. pose proof (label_split o) as El.
    destruct (split_observation o) as [l u]. cbn [fst] in El. subst l.
    destruct (ga_strategy a) as [f|f|i d].
    - rewrite H. reflexivity.
    - rewrite H. reflexivity.
    - apply orb_false_iff in H. destruct H as [-> ->]. reflexivity.
  Qed.

  Definition quiet {A} (l : lab X) (o : observation (lab X)) (leaves : A -> list (bool * leaf X))
    (f : A -> M (A * Z)) (x : A) : Prop :=
    forall k c, Forall (fun e => fst e = false) (leaves x) -> f x k c = Ok (x, 0) c.

  Lemma quiet_list : forall A o (leaves : A -> list (bool * leaf X)) f l k c,
    Forall (quiet (obs_label o) o leaves f) l -> Forall (fun e => fst e = false) (flat_map leaves l) ->
    Forall (fun x => f x k c = Ok (x, 0) c) l.
  Proof.
    intros A o leaves f l k c H Hoff. induction H as [|x l Hx H IH]; constructor;
      cbn [flat_map] in Hoff; apply Forall_app in Hoff; destruct Hoff; auto.
  Qed.

  Lemma panel_leaves_eq : forall l on d sl ps hs (ss : list (snapshooter X)),
    panel_leaves l on (Panel d sl ps hs ss)
    = slots_leaves l (on && accepts (lab_eqb X) (pd_filter d) l) sl
      ++ flat_map (panel_leaves l (on && accepts (lab_eqb X) (pd_filter d) l)) ps
      ++ flat_map (handler_leaves l (on && accepts (lab_eqb X) (pd_filter d) l)) hs.
  Proof. reflexivity. Qed.

  Lemma panel_handle_eq : forall d sl ps hs (ss : list (snapshooter X)) o,
    panel_handle (Panel d sl ps hs ss) o
    = if negb (accepts (lab_eqb X) (pd_filter d) (obs_label o)) then ret (Panel d sl ps hs ss, 0)
      else
        let* '(sl, n) := slots_handle sl o 0 in
        let* '(ps, n) := traverse (tally (fun x => panel_handle x o)) ps n in
        let* '(hs, n) := traverse (tally (fun x => handler_handle x o)) hs n in
        ret (Panel d sl ps hs ss, n).
  Proof. reflexivity. Qed.

  Lemma tree_quiet : forall o,
    (forall p : panel X, quiet (obs_label o) o (panel_leaves (obs_label o) true)
                           (fun x => panel_handle x o) p)
    /\ (forall h : handler X, quiet (obs_label o) o (handler_leaves (obs_label o) true)
                                (fun x => handler_handle x o) h)
    /\ (forall c : cockpit X, True) /\ (forall s : snapshooter X, True).
  Proof.
    intros o. apply tree_ind; auto.
    - intros d sl ps hs ss Hp Hh _ k c Hoff. rewrite panel_leaves_eq in Hoff. rewrite panel_handle_eq.
      destruct (accepts (lab_eqb X) (pd_filter d) (obs_label o)) eqn:Ea; cbn [negb andb] in *;
        [|reflexivity].
      apply Forall_app in Hoff. destruct Hoff as [H1 Hoff].
      apply Forall_app in Hoff. destruct Hoff as [H2 H3].
      assert (Hs : slots_handle sl o 0 k c = Ok (sl, 0) c).
      { unfold slots_handle. unfold slots_leaves in H1.
        apply Forall_app in H1. destruct H1 as [G1 H1].
        apply Forall_app in H1. destruct H1 as [G2 H1].
        apply Forall_app in H1. destruct H1 as [G3 G4].
        rewrite Forall_map in G1, G2, G3, G4.
        erewrite bind_eq.
        2: { apply traverse_opt_zero. eapply Forall_impl; [|exact G1]. intros a Ha.
             apply adapter_deaf_eq. exact Ha. }
        cbn beta iota. erewrite bind_eq.
        2: { apply traverse_opt_zero. eapply Forall_impl; [|exact G2]. intros a Ha.
             apply gauge_deaf_eq. exact Ha. }
        cbn beta iota. erewrite bind_eq.
        2: { apply traverse_opt_zero. eapply Forall_impl; [|exact G3]. intros a Ha.
             apply adapter_deaf_eq. exact Ha. }
        cbn beta iota. erewrite bind_eq.
        2: { apply traverse_opt_zero. eapply Forall_impl; [|exact G4]. intros a Ha.
             apply adapter_deaf_eq. exact Ha. }
        destruct sl; reflexivity. }
      erewrite bind_eq by exact Hs. cbn beta iota.
      erewrite bind_eq by (exact (traverse_zero _ _ _ k c (quiet_list _ _ _ _ _ k c Hp H2))).
      cbn beta iota.
      erewrite bind_eq by (exact (traverse_zero _ _ _ k c (quiet_list _ _ _ _ _ k c Hh H3))).
      reflexivity.
    - intros a k c H. inversion H; subst. cbn [handler_handle]. unfold wrap.
      erewrite bind_eq by (apply adapter_deaf_eq; eassumption). reflexivity.
    - intros a k c H. inversion H; subst. cbn [handler_handle]. unfold wrap.
      erewrite bind_eq by (apply gauge_deaf_eq; eassumption). reflexivity.
    - intros p IH k c H. cbn [handler_handle]. unfold wrap.
      erewrite bind_eq by (apply IH; exact H). reflexivity.
    - intros [d ps hs ss] _ k c H. inversion H; subst. discriminate.
    - intros u k c H. inversion H; subst. discriminate.
  Qed.
End TreeProofs.
