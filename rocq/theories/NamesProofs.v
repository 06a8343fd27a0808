(** Names, adding and removing; strategies. *)
From Coq Require Import ZArith Bool String List Lia.
From Verif Require Import Base SpecRun MonadFacts ModelObservation ModelInstrument ModelTree ModelProcessor
  TreeEqs TreeProofs SpecTree SpecNames.
Import ListNotations.
Open Scope Z_scope.

Section Lists.
  Context {A : Type} (name : A -> option string).

  Lemma names_app : forall a b, names_of name (a ++ b) = names_of name a ++ names_of name b.
  Proof. intros. apply flat_map_app. Qed.

  Lemma names_in : forall n l, In n (names_of name l) <-> exists x, In x l /\ name x = Some n.
  Proof.
    intros n l. unfold names_of. rewrite in_flat_map. split.
    - intros (x & Hx & H). destruct (name x) eqn:E; [|destruct H]. destruct H as [->|[]]. eauto.
    - intros (x & Hx & E). exists x. rewrite E. split; [exact Hx | left; reflexivity].
  Qed.

  Lemma named_exists : forall n l,
    existsb (fun q => is_named n (name q)) l = true <-> In n (names_of name l).
  Proof.
    intros n l. rewrite existsb_exists, names_in. split; intros (x & Hx & H); exists x; split; auto.
    - unfold is_named in H. destruct (name x); [|discriminate H]. apply String.eqb_eq in H. congruence.
    - rewrite H. cbn. apply String.eqb_refl.
  Qed.

  Lemma named_true : forall n o, is_named n o = true <-> o = Some n.
  Proof.
    intros n [m|]; cbn; [|split; discriminate]. rewrite String.eqb_eq. split; congruence.
  Qed.

  Lemma filter_without : forall n l,
    without (fun q => name q = Some n) l (filter (fun q => negb (is_named n (name q))) l).
  Proof.
    intros n l. induction l as [|x l IH]; cbn [filter]; [constructor|].
    destruct (is_named n (name x)) eqn:E; cbn [negb].
    - apply wo_gone; [apply named_true; exact E | exact IH].
    - apply wo_kept; [|exact IH]. intros H. apply named_true in H. congruence.
  Qed.

  Lemma without_in : forall P (l l' : list A), without P l l' -> forall x, In x l' -> In x l /\ ~ P x.
  Proof.
    intros P l l' H. induction H as [|y l l' Hy H IH|y l l' Hy H IH]; intros x Hx.
    - destruct Hx.
    - destruct (IH _ Hx). split; [right|]; assumption.
    - destruct Hx as [<-|Hx]; [split; [left; reflexivity | exact Hy]|].
      destruct (IH _ Hx). split; [right|]; assumption.
  Qed.

  Lemma without_names : forall P (l l' : list A), without P l l' ->
    NoDup (names_of name l) -> NoDup (names_of name l').
  Proof.
    intros P l l' H. induction H as [|y l l' Hy H IH|y l l' Hy H IH]; intros Hn; auto.
    - apply IH. unfold names_of in Hn. cbn [flat_map] in Hn.
      destruct (name y); [inversion Hn; assumption | exact Hn].
    - unfold names_of in *. cbn [flat_map] in *. destruct (name y) as [n|] eqn:E; [|apply IH; exact Hn].
      inversion Hn as [|? ? H1 H2]; subst. constructor; [|apply IH; exact H2].
      intros Hin. apply H1. apply names_in. apply names_in in Hin. destruct Hin as (x & Hx & Ex).
      exists x. split; [|exact Ex]. exact (proj1 (without_in _ _ _ H _ Hx)).
  Qed.

  Lemma add_names : forall l x, NoDup (names_of name l) ->
    (forall n, name x = Some n -> ~ In n (names_of name l)) -> NoDup (names_of name (l ++ [x])).
  Proof.
    intros l x Hn Hx. rewrite names_app. unfold names_of at 2. cbn [flat_map]. rewrite app_nil_r.
    destruct (name x) as [n|]; [|rewrite app_nil_r; exact Hn].
    apply (NoDup_Add (Add_app n (names_of name l) [])). rewrite app_nil_r. auto.
  Qed.
End Lists.

Section Names.
  Context {X : ext}.

  Lemma same_panel_name : forall p q : panel X, same_panel p q -> panel_name q = panel_name p.
  Proof. intros p q H. inversion H. reflexivity. Qed.

  Lemma same_panels_names : forall ps qs : list (panel X), Forall2 same_panel ps qs ->
    names_of panel_name qs = names_of panel_name ps.
  Proof.
    intros ps qs H. induction H as [|p q ps qs Hp H IH]; [reflexivity|].
    unfold names_of in *. cbn [flat_map]. rewrite (same_panel_name _ _ Hp), IH. reflexivity.
  Qed.

  Lemma same_cockpit_unique : forall p q : cockpit X, same_cockpit p q -> cockpit_unique p -> cockpit_unique q.
  Proof.
    intros p q H U. unfold cockpit_unique in *. inversion H; subst. cbn [c_panels] in *.
    rewrite (same_panels_names ps ps'); assumption.
  Qed.

  Lemma same_cockpits : forall ps qs : list (cockpit X), Forall2 same_cockpit ps qs ->
    names_of cockpit_name qs = names_of cockpit_name ps
    /\ (Forall cockpit_unique ps -> Forall cockpit_unique qs).
  Proof.
    intros ps qs H. induction H as [|p q ps qs Hp H (IH1 & IH2)]; [auto|]. split.
    - unfold names_of in *. cbn [flat_map]. rewrite IH1.
      replace (cockpit_name q) with (cockpit_name p); [reflexivity|].
      inversion Hp as [d d' ? ? ? ? ? Hd]; subst. exact (proj1 Hd).
    - intros F. inversion F; subst. constructor; [eapply same_cockpit_unique; eassumption | auto].
  Qed.

  Lemma add_panel_unique : forall (c : cockpit X) p, cockpit_unique c -> cockpit_unique (cockpit_add_panel c p).
  Proof.
    intros [d ps hs ss] p U. unfold cockpit_unique, cockpit_add_panel in *. cbn [c_panels] in *.
    destruct (panel_name p) as [n|] eqn:En.
    - destruct (existsb _ ps) eqn:E; [exact U|]. cbn [c_panels]. apply add_names; [exact U|].
      intros m Hm Hin. assert (m = n) by congruence. subst m.
      apply (named_exists panel_name) in Hin. congruence.
    - cbn [c_panels]. apply add_names; [exact U|]. intros m Hm. congruence.
  Qed.

  Lemma remove_panel_unique : forall (c : cockpit X) n, cockpit_unique c -> cockpit_unique (cockpit_remove_panel c n).
  Proof.
    intros [d ps hs ss] n U. unfold cockpit_unique, cockpit_remove_panel in *. cbn [c_panels] in *.
    eapply without_names; [apply filter_without | exact U].
  Qed.

  Lemma cockpit_handle_unique : forall (c : cockpit X) o k w c' n w',
    cockpit_handle c o k w = Ok (c', n) w' -> cockpit_unique c -> cockpit_unique c'.
  Proof.
    intros c o k w c' n w' E. destruct (tree_dispatches o) as (_ & _ & Hc & _).
    destruct (Hc c k w c' n w' E) as (ns & _ & _ & S). apply same_cockpit_unique. exact S.
  Qed.

  Lemma cockpit_steps_unique : forall k h (c c' : cockpit X),
    run_timed cockpit_step k c h = Some c' -> cockpit_unique c -> cockpit_unique c'.
  Proof.
    induction h as [|[w o] h IH]; intros c c' E U; cbn [run_timed] in E; [injection E as <-; exact U|].
    destruct (cockpit_step c o k w) as [c1 w1| |] eqn:E1; try discriminate E.
    apply (IH _ _ E). destruct o; cbn [cockpit_step] in E1.
    - injection E1 as <- <-. apply add_panel_unique. exact U.
    - injection E1 as <- <-. apply remove_panel_unique. exact U.
    - apply bind_ok in E1. destruct E1 as ([c2 n] & w2 & E1 & E2). injection E2 as <- <-.
      eapply cockpit_handle_unique; eassumption.
  Qed.

  Lemma add_cockpit_unique : forall (t : tele X) c, cockpit_unique c -> tele_unique t -> tele_unique (tele_add_cockpit t c).
  Proof.
    intros t c Uc [U1 U2]. unfold tele_add_cockpit.
    assert (G : (forall n, cockpit_name c = Some n -> ~ In n (names_of cockpit_name (tp_cockpits t))) ->
                tele_unique (tele_with t (tp_cockpits t ++ [c]) (tp_handlers t))).
    { intros H. split; cbn [tele_with tp_cockpits].
      - apply add_names; assumption.
      - apply Forall_app. split; [exact U2|]. constructor; auto. }
    destruct (cockpit_name c) as [n|] eqn:En.
    - destruct (existsb _ _) eqn:E; [split; assumption|]. apply G. intros m Hm Hin.
      assert (m = n) by congruence. subst m. apply (named_exists cockpit_name) in Hin. congruence.
    - apply G. discriminate.
  Qed.

  Lemma without_forall : forall A (P Q : A -> Prop) l l', without P l l' -> Forall Q l -> Forall Q l'.
  Proof.
    intros A P Q l l' H. induction H; intros F; auto; inversion F; subst; auto.
  Qed.

  Lemma remove_cockpit_unique : forall (t : tele X) n, tele_unique t -> tele_unique (tele_remove_cockpit t n).
  Proof.
    intros t n [U1 U2]. split; cbn [tele_remove_cockpit tele_with tp_cockpits].
    - eapply without_names; [apply filter_without | exact U1].
    - eapply without_forall; [apply filter_without | exact U2].
  Qed.

  Lemma update_first_names : forall n (f : cockpit X -> cockpit X) l,
    (forall c, cockpit_name (f c) = cockpit_name c) ->
    names_of cockpit_name (update_first n f l) = names_of cockpit_name l.
  Proof.
    intros n f l H. induction l as [|c l IH]; [reflexivity|]. cbn [update_first].
    destruct (is_named n (cockpit_name c)); unfold names_of in *; cbn [flat_map].
    - rewrite H. reflexivity.
    - rewrite IH. reflexivity.
  Qed.

  Lemma update_first_forall : forall (Q : cockpit X -> Prop) n f l,
    (forall c, Q c -> Q (f c)) -> Forall Q l -> Forall Q (update_first n f l).
  Proof.
    intros Q n f l H F. induction F as [|c l Hc F IH]; cbn [update_first]; [constructor|].
    destruct (is_named n (cockpit_name c)); constructor; auto.
  Qed.

  Lemma add_panel_name : forall (c : cockpit X) p, cockpit_name (cockpit_add_panel c p) = cockpit_name c.
  Proof.
    intros [d ps hs ss] p. unfold cockpit_add_panel. destruct (panel_name p); [destruct (existsb _ _)|]; reflexivity.
  Qed.

  Lemma tele_message_unique : forall d (t : tele X) n m k w t' n' w',
    tele_message d t n m k w = Ok (t', n') w' -> op_fine (TeleMessage d m) -> tele_unique t -> tele_unique t'.
  Proof.
    intros d t n m k w t' n' w' E Hf U. destruct m; cbn [tele_message op_fine] in E, Hf.
    - destruct (should_be_processed d o).
      + apply bind_ok in E. destruct E as ([s2 a2] & c2 & E2 & E).
        apply bind_ok in E. destruct E as (s3 & c3 & E3 & E). injection E as <- <- <-.
        destruct (tele_dispatches _ _ _ _ _ _ _ _ E2) as (ns & _ & _ & Et & Fc & _).
        rewrite Et. destruct U as [U1 U2]. destruct (same_cockpits _ _ Fc) as [S1 S2].
        split; cbn [tele_with tp_cockpits]; [rewrite S1; exact U1 | auto].
      + apply bind_ok in E. destruct E as (s3 & c3 & E3 & E). injection E as <- <- <-. exact U.
    - apply bind_ok in E. destruct E as (s3 & c3 & E3 & E). injection E as <- <- <-.
      apply add_cockpit_unique; assumption.
    - apply bind_ok in E. destruct E as (s3 & c3 & E3 & E). injection E as <- <- <-.
      apply remove_cockpit_unique. exact U.
    - apply bind_ok in E. destruct E as (s3 & c3 & E3 & E). injection E as <- <- <-. exact U.
    - apply bind_ok in E. destruct E as (s3 & c3 & E3 & E). injection E as <- <- <-. destruct U as [U1 U2].
      split; cbn [tele_with tp_cockpits].
      + rewrite update_first_names; [exact U1|]. intros. apply add_panel_name.
      + apply update_first_forall; [|exact U2]. intros. apply add_panel_unique. assumption.
    - apply bind_ok in E. destruct E as (s3 & c3 & E3 & E). injection E as <- <- <-. destruct U as [U1 U2].
      split; cbn [tele_with tp_cockpits].
      + rewrite update_first_names; [exact U1|]. intros []. reflexivity.
      + apply update_first_forall; [|exact U2]. intros. apply remove_panel_unique. assumption.
  Qed.

  Lemma tele_steps_unique : forall k h (t t' : tele X),
    run_timed tele_step k t h = Some t' -> Forall (fun e => op_fine (snd e)) h -> tele_unique t -> tele_unique t'.
  Proof.
    induction h as [|[w o] h IH]; intros t t' E F U; cbn [run_timed] in E; [injection E as <-; exact U|].
    destruct (tele_step t o k w) as [c1 w1| |] eqn:E1; try discriminate E.
    inversion F as [|? ? F1 F2]; subst. cbn [snd] in F1.
    apply (IH _ _ E F2). destruct o; cbn [tele_step] in E1.
    - injection E1 as <- <-. apply add_cockpit_unique; assumption.
    - injection E1 as <- <-. apply remove_cockpit_unique. exact U.
    - apply bind_ok in E1. destruct E1 as ([c2 n] & w2 & E1 & E2). injection E2 as <- <-.
      eapply tele_message_unique; eassumption.
  Qed.

  (** ** Adding and removing *)

  Lemma add_panel_known : forall (c : cockpit X) p n,
    panel_name p = Some n -> In n (names_of panel_name (c_panels c)) -> cockpit_add_panel c p = c.
  Proof.
    intros [d ps hs ss] p n En H. unfold cockpit_add_panel. rewrite En.
    apply (named_exists panel_name) in H. cbn [c_panels] in H. rewrite H. reflexivity.
  Qed.

  Lemma add_panel_new : forall (c : cockpit X) p,
    (forall n, panel_name p = Some n -> ~ In n (names_of panel_name (c_panels c))) ->
    cockpit_add_panel c p = Cockpit (c_data c) (c_panels c ++ [p]) (c_handlers c) (c_snapshooters c).
  Proof.
    intros [d ps hs ss] p H. unfold cockpit_add_panel. destruct (panel_name p) as [n|] eqn:En; [|reflexivity].
    cbn [c_panels] in H. destruct (existsb _ ps) eqn:E; [|reflexivity].
    apply (named_exists panel_name) in E. destruct (H n eq_refl E).
  Qed.

  Lemma add_cockpit_known : forall (t : tele X) c n,
    cockpit_name c = Some n -> In n (names_of cockpit_name (tp_cockpits t)) -> tele_add_cockpit t c = t.
  Proof.
    intros t c n En H. unfold tele_add_cockpit. rewrite En. apply (named_exists cockpit_name) in H.
    rewrite H. reflexivity.
  Qed.

  Lemma add_cockpit_new : forall (t : tele X) c,
    (forall n, cockpit_name c = Some n -> ~ In n (names_of cockpit_name (tp_cockpits t))) ->
    tele_add_cockpit t c = tele_with t (tp_cockpits t ++ [c]) (tp_handlers t).
  Proof.
    intros t c H. unfold tele_add_cockpit. destruct (cockpit_name c) as [n|] eqn:En; [|reflexivity].
    destruct (existsb _ _) eqn:E; [|reflexivity].
    apply (named_exists cockpit_name) in E. destruct (H n eq_refl E).
  Qed.

  Lemma remove_panel_spec : forall (c : cockpit X) n,
    without (fun p => panel_name p = Some n) (c_panels c) (c_panels (cockpit_remove_panel c n))
    /\ c_data (cockpit_remove_panel c n) = c_data c
    /\ c_handlers (cockpit_remove_panel c n) = c_handlers c
    /\ c_snapshooters (cockpit_remove_panel c n) = c_snapshooters c.
  Proof.
    intros [d ps hs ss] n. split; [apply filter_without | repeat split].
  Qed.

  Lemma remove_cockpit_spec : forall (t : tele X) n, exists cs,
    tele_remove_cockpit t n = tele_with t cs (tp_handlers t)
    /\ without (fun c => cockpit_name c = Some n) (tp_cockpits t) cs.
  Proof.
    intros t n. eexists. split; [reflexivity | apply filter_without].
  Qed.

  Lemma without_gone : forall A (name : A -> option string) n l l',
    without (fun q => name q = Some n) l l' -> ~ In n (names_of name l').
  Proof.
    intros A name n l l' H Hin. apply names_in in Hin. destruct Hin as (x & Hx & E).
    exact (proj2 (without_in _ _ _ H _ Hx) E).
  Qed.

  Lemma readd_panel : forall (c : cockpit X) p n, panel_name p = Some n ->
    c_panels (cockpit_add_panel (cockpit_remove_panel c n) p) = c_panels (cockpit_remove_panel c n) ++ [p].
  Proof.
    intros c p n En. rewrite add_panel_new; [reflexivity|]. intros m Em. assert (m = n) by congruence. subst m.
    eapply without_gone. apply remove_panel_spec.
  Qed.

  Lemma readd_cockpit : forall (t : tele X) c n, cockpit_name c = Some n ->
    tp_cockpits (tele_add_cockpit (tele_remove_cockpit t n) c) = tp_cockpits (tele_remove_cockpit t n) ++ [c].
  Proof.
    intros t c n En. rewrite add_cockpit_new; [reflexivity|]. intros m Em. assert (m = n) by congruence. subst m.
    destruct (remove_cockpit_spec t n) as (cs & E & W). rewrite E. eapply without_gone. exact W.
  Qed.

  (** ** Commands *)

  Lemma commands : forall d (t : tele X) n,
    (forall c, commanded d t n (MAddCockpit c) (tele_add_cockpit t c))
    /\ (forall x, commanded d t n (MRemoveCockpit x) (tele_remove_cockpit t x))
    /\ (forall h, commanded d t n (MAddHandler h) (tele_with t (tp_cockpits t) (tp_handlers t ++ [h]))).
  Proof.
    intros d t n. repeat split; intros x k c; cbn [tele_message]; unfold bind; destruct (add_usize _ _ k c); reflexivity.
  Qed.

  Lemma update_first_unknown : forall n f (l : list (cockpit X)),
    ~ In n (names_of cockpit_name l) -> update_first n f l = l.
  Proof.
    intros n f l. induction l as [|c l IH]; intros H; [reflexivity|]. cbn [update_first].
    destruct (is_named n (cockpit_name c)) eqn:E.
    - apply named_true in E. destruct H. apply names_in. exists c. split; [left; reflexivity | exact E].
    - f_equal. apply IH. intros Hin. apply H. apply names_in in Hin. destruct Hin as (x & Hx & Ex).
      apply names_in. exists x. split; [right|]; assumption.
  Qed.

  Lemma update_first_known : forall n f (a : list (cockpit X)) c b,
    cockpit_name c = Some n -> ~ In n (names_of cockpit_name a) ->
    update_first n f (a ++ c :: b) = a ++ f c :: b.
  Proof.
    intros n f a c b En. induction a as [|x a IH]; intros H; cbn [app update_first].
    - rewrite (proj2 (named_true n (cockpit_name c)) En). reflexivity.
    - destruct (is_named n (cockpit_name x)) eqn:E.
      + apply named_true in E. destruct H. apply names_in. exists x. split; [left; reflexivity | exact E].
      + f_equal. apply IH. intros Hin. apply H. apply names_in in Hin. destruct Hin as (y & Hy & Ey).
        apply names_in. exists y. split; [right|]; assumption.
  Qed.

  Lemma tele_with_same : forall t : tele X, tele_with t (tp_cockpits t) (tp_handlers t) = t.
  Proof. intros []. reflexivity. Qed.

  Lemma unknown_cockpit : forall d (t : tele X) n x, ~ In x (names_of cockpit_name (tp_cockpits t)) ->
    commanded d t n (MRemoveCockpit x) t
    /\ (forall p, commanded d t n (MAddPanelToCockpit x p) t)
    /\ (forall p, commanded d t n (MRemovePanelFromCockpit x p) t).
  Proof.
    intros d t n x H. split; [|split]; intros; intros k c; cbn [tele_message]; unfold bind;
      destruct (add_usize _ _ k c) as [p' c'| |]; try reflexivity; unfold ret.
    - unfold tele_remove_cockpit.
      replace (filter _ (tp_cockpits t)) with (tp_cockpits t); [rewrite tele_with_same; reflexivity|].
      revert H. induction (tp_cockpits t) as [|y l IH]; intros H; [reflexivity|]. cbn [filter].
      destruct (is_named x (cockpit_name y)) eqn:E; cbn [negb].
      + apply named_true in E. destruct H. apply names_in. exists y. split; [left; reflexivity | exact E].
      + f_equal. apply IH. intros Hin. apply H. apply names_in in Hin. destruct Hin as (z & Hz & Ez).
        apply names_in. exists z. split; [right|]; assumption.
    - rewrite update_first_unknown by exact H. rewrite tele_with_same. reflexivity.
    - rewrite update_first_unknown by exact H. rewrite tele_with_same. reflexivity.
  Qed.

  Lemma known_cockpit : forall d (t : tele X) n x a c b,
    tp_cockpits t = a ++ c :: b -> cockpit_name c = Some x -> ~ In x (names_of cockpit_name a) ->
    (forall p, commanded d t n (MAddPanelToCockpit x p)
                 (tele_with t (a ++ cockpit_add_panel c p :: b) (tp_handlers t)))
    /\ (forall p, commanded d t n (MRemovePanelFromCockpit x p)
                    (tele_with t (a ++ cockpit_remove_panel c p :: b) (tp_handlers t))).
  Proof.
    intros d t n x a c b Et En H. split; intros p k w; cbn [tele_message]; unfold bind;
      destruct (add_usize _ _ k w) as [p' c'| |]; try reflexivity; unfold ret;
      rewrite Et, update_first_known by assumption; reflexivity.
  Qed.

  (** ** Strategies *)

  Lemma delta_iff : forall o : observation (lab X), obs_is_delta o = true <-> delta_observation o.
  Proof.
    intros o. split.
    - destruct o as [| |l [] t]; cbn; try discriminate. intros. constructor.
    - intros []. reflexivity.
  Qed.

  Lemma decider_keeps : forall s k c d c' (o : observation (lab X)),
    strategy_decider s k c = Ok d c' -> should_be_processed d o = true <-> kept_by s (c O) o.
  Proof.
    intros s k c d c' o E. destruct s as [| |age dd]; cbn [strategy_decider] in E.
    - injection E as <- <-. cbn. tauto.
    - injection E as <- <-. cbn. split; [discriminate | tauto].
    - apply bind_ok in E. destruct E as (t & c1 & E1 & E). injection E1 as <- <-.
      apply bind_ok in E. destruct E as (x & c2 & E2 & E). injection E as <- <-.
      apply instant_sub_inv in E2. destruct E2 as (-> & _). cbn [should_be_processed kept_by].
      destruct (Z.leb_spec (c O - age) (obs_timestamp o)) as [Hl|Hl].
      + split; [|reflexivity]. intros _. left. lia.
      + destruct dd.
        * split; [discriminate|]. intros [H|[_ H]]; [lia | discriminate H].
        * rewrite delta_iff. split; [intros; right; split; auto|]. intros [H|[H _]]; [lia | exact H].
  Qed.

  (** An observation that is not kept changes nothing but the number of dropped ones. *)
  Lemma dropped_observation : forall s k0 c0 d c0' (t : tele X) n o k c,
    strategy_decider s k0 c0 = Ok d c0' -> ~ kept_by s (c0 O) o ->
    tele_message d t n (MObservation o) k c
    = match add_usize (ct_dropped n) 1 k c with
      | Ok dr c' => Ok (t, Counts (ct_processed n) dr (ct_updated n)) c'
      | Panic => Panic
      | NoFuel => NoFuel
      end.
  Proof.
    intros s k0 c0 d c0' t n o k c E H. cbn [tele_message].
    destruct (should_be_processed d o) eqn:Es; [destruct (H (proj1 (decider_keeps _ _ _ _ _ _ E) Es))|].
    unfold bind. destruct (add_usize _ _ k c); reflexivity.
  Qed.

  Lemma kept_observation : forall s k0 c0 d c0' (t : tele X) n o k c,
    strategy_decider s k0 c0 = Ok d c0' -> kept_by s (c0 O) o ->
    tele_message d t n (MObservation o) k c
    = match tele_handle t o (ct_updated n) k c with
      | Ok (t', u) c1 =>
          match add_usize (ct_processed n) 1 k c1 with
          | Ok p c' => Ok (t', Counts p (ct_dropped n) u) c'
          | Panic => Panic
          | NoFuel => NoFuel
          end
      | Panic => Panic
      | NoFuel => NoFuel
      end.
  Proof.
    intros s k0 c0 d c0' t n o k c E H. cbn [tele_message].
    rewrite (proj2 (decider_keeps _ _ _ _ _ _ E) H). unfold bind.
    destruct (tele_handle t o (ct_updated n) k c) as [[t' u] c1| |]; try reflexivity.
  Qed.

  Lemma commands_never_dropped : forall d (t : tele X) n m k c t' n' c',
    (forall o, m <> MObservation o) -> tele_message d t n m k c = Ok (t', n') c' ->
    ct_dropped n' = ct_dropped n /\ ct_updated n' = ct_updated n
    /\ add_usize (ct_processed n) 1 k c = Ok (ct_processed n') c'.
  Proof.
    intros d t n m k c t' n' c' Hm E. destruct m; [destruct (Hm o eq_refl)|..]; cbn [tele_message] in E;
      apply bind_ok in E; destruct E as (pr & c1 & E1 & E); injection E as <- <- <-; auto.
  Qed.

  Lemma default_keeps_deltas : forall start (o : observation (lab X)), delta_observation o -> kept_by strategy_default start o.
  Proof. intros start o H. right. auto. Qed.
End Names.
