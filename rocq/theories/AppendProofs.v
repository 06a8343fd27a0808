(** Writing a snapshot only appends, whatever else the user's parts do; named
    components write one group; the outermost description wins. *)
From Coq Require Import ZArith Bool String List Lia.
From Verif Require Import Base SpecRun MonadFacts ModelObservation ModelSnapshot ModelCounter ModelGauge
  ModelMeter ModelHistogram ModelSwitches ModelInstrument ModelTree ModelProcessor SpecWriting TreeInd TreeEqs
  WritingProofs.
Import ListNotations.
Open Scope string_scope.
Open Scope list_scope.
Open Scope Z_scope.

Lemma writes_appends : forall A (f : bool -> snapshot -> M (A * snapshot)), writes f -> appends f.
Proof.
  intros A f H d into k c x s c' E. destruct (H k c) as [(y & a & c1 & E1 & E2)|[E1|E1]].
  - destruct d.
    + destruct (E2 into) as (b & Eb & _). rewrite Eb in E. injection E as <- <- <-. eauto.
    + rewrite E1 in E. injection E as <- <- <-. eauto.
  - rewrite E1 in E. discriminate.
  - rewrite E1 in E. discriminate.
Qed.

(** The snapshot after a computation extends the one before. *)
Definition grows {A} (into : snapshot) (m : M (A * snapshot)) : Prop :=
  forall k c x s c', m k c = Ok (x, s) c' -> exists added, s = into ++ added.

Lemma grows_bind : forall A B into (m : M (A * snapshot)) (f : A * snapshot -> M (B * snapshot)),
  grows into m -> (forall a s, grows s (f (a, s))) -> grows into (bind m f).
Proof.
  intros A B into m f Hm Hf k c x s c' E.
  apply bind_ok in E. destruct E as ([a s1] & c1 & E1 & E2).
  destruct (Hm _ _ _ _ _ E1) as (l1 & ->). destruct (Hf _ _ _ _ _ _ _ E2) as (l2 & ->).
  exists (l1 ++ l2). rewrite app_assoc. reflexivity.
Qed.

Lemma grows_pre : forall A a b (m : M (A * snapshot)), grows (a ++ b) m -> grows a m.
Proof.
  intros A a b m H k c x s c' E. destruct (H _ _ _ _ _ E) as (l & ->).
  exists (b ++ l). rewrite app_assoc. reflexivity.
Qed.

Lemma grows_ret : forall A (a : A) into, grows into (ret (a, into)).
Proof. intros A a into k c x s c' E. steps. exists []. rewrite app_nil_r. reflexivity. Qed.

Lemma grows_wrap : forall A B (f : A -> B) into m, grows into m -> grows into (wrap f m).
Proof. intros. unfold wrap. apply grows_bind; [assumption|]. intros. apply grows_ret. Qed.

Lemma grows_traverse : forall A (put : A -> snapshot -> M (A * snapshot)) l into,
  Forall (fun x => forall into, grows into (put x into)) l -> grows into (traverse put l into).
Proof.
  intros A put l into H. revert into. induction H as [|x l Hx H IH]; intros into; cbn [traverse].
  - apply grows_ret.
  - apply grows_bind; [apply Hx|]. intros x' s. apply grows_bind; [apply IH|]. intros. apply grows_ret.
Qed.

Lemma grows_described : forall A d into s (m : M (A * snapshot)),
  grows (put_default_descriptives d into s) m -> grows into m.
Proof.
  intros A d into s m H. destruct s; [|exact H].
  destruct (default_added d into) as (t & Et & _). rewrite Et in H. exact (grows_pre _ _ _ _ H).
Qed.

Lemma grows_named : forall A n (f : snapshot -> M (A * snapshot)) into,
  (forall into, grows into (f into)) -> grows into (put_named n f into).
Proof.
  intros A [n|] f into H; unfold put_named; [|apply H].
  intros k c x s c' E. steps. unfold push. eauto.
Qed.

Lemma grows_activity : forall A limit show last (a : A) rest into,
  (forall into, grows into (rest into)) -> grows into (check_activity limit show last a rest into).
Proof.
  intros A limit show last a rest into H. unfold check_activity.
  destruct limit; [|apply H]. destruct show; [|apply H].
  intros k c x s c' E. apply bind_ok in E. destruct E as (e & c1 & E1 & E2).
  destruct (z <? e).
  - steps. rewrite push_activity_app. eauto.
  - rewrite push_activity_app in E2. exact (grows_pre _ _ _ _ (H _) _ _ _ _ _ E2).
Qed.

Section TreeAppends.
  Context {X : ext}.

  Lemma instrument_appends : forall i : instrument X,
    (forall u, appends (user_instr_put X u)) -> appends (instrument_put i).
  Proof.
    intros i Hu.
    assert (H : (forall u, i <> IUser u) -> appends (instrument_put i)).
    { intros Hn. apply writes_appends. destruct i; try (exfalso; eapply Hn; reflexivity); unfold instrument_put.
      - apply (keep_wrap _ _ ICounter i (fun into d => ret (counter_put i d into))), counter_writes.
      - apply writes_wrap, gauge_writes.
      - apply writes_wrap, meter_writes.
      - apply writes_wrap, value_meter_writes.
      - apply (keep_wrap _ _ IHistogram i (fun into d => histogram_put i d into)), histogram_writes.
      - apply (keep_wrap _ _ IFlag i (fun into d => ret (flag_put i d into))), flag_writes.
      - unfold staircase_put. apply timed_switch_writes.
      - unfold occurrence_put. apply timed_switch_writes.
      - unfold non_occurrence_put. apply timed_switch_writes.
      - apply (keep_wrap _ _ ILastOccurrence i (fun into d => last_occurrence_put i d into)), last_occurrence_writes.
      - apply (keep_wrap _ _ IDisplay i (fun into d => display_put i d into)), display_writes. }
    destruct i; try (apply H; discriminate).
    intros d into. apply grows_wrap. intros k c. apply Hu.
  Qed.

  Context (HX : parts_append X).

  Lemma tree_appends :
    (forall p : panel X, appends (panel_put p)) /\ (forall h : handler X, appends (handler_put h))
    /\ (forall c : cockpit X, appends (cockpit_put c)) /\ (forall s : snapshooter X, appends (snapshooter_put s)).
  Proof.
    apply tree_ind.
    - intros d sl ps hs ss Hp Hh Hs de into. cbn [panel_put]. apply grows_named. clear into. intros into.
      eapply grows_described. apply grows_activity. clear into. intros into.
      apply grows_bind; [exact (writes_appends _ _ (slots_writes sl) de into)|].
      intros sl' s1. apply grows_bind.
      { apply grows_traverse. eapply Forall_impl; [|exact Hp]. intros x Hx i. exact (Hx de i). }
      intros ps' s2. apply grows_bind.
      { apply grows_traverse. eapply Forall_impl; [|exact Hs]. intros x Hx i. exact (Hx de i). }
      intros ss' s3. apply grows_bind.
      { apply grows_traverse. eapply Forall_impl; [|exact Hh]. intros x Hx i. exact (Hx de i). }
      intros. apply grows_ret.
    - intros a de into. apply grows_wrap. unfold adapter_put.
      apply grows_bind; [|intros; apply grows_ret].
      exact (instrument_appends _ (pa_instr _ HX) de into).
    - intros a de into. apply grows_wrap. exact (writes_appends _ _ (ga_writes a) de into).
    - intros p H de into. apply grows_wrap. exact (H de into).
    - intros p H de into. apply grows_wrap. exact (H de into).
    - intros u de into. apply grows_wrap. exact (pa_handler _ HX u de into).
    - intros d ps hs ss Hp Hh Hs de into. cbn [cockpit_put]. apply grows_named. clear into. intros into.
      eapply grows_described. apply grows_activity. clear into. intros into.
      apply grows_bind.
      { apply grows_traverse. eapply Forall_impl; [|exact Hp]. intros x Hx i. exact (Hx de i). }
      intros ps' s2. apply grows_bind.
      { apply grows_traverse. eapply Forall_impl; [|exact Hh]. intros x Hx i. exact (Hx de i). }
      intros ss' s3. apply grows_bind.
      { apply grows_traverse. eapply Forall_impl; [|exact Hs]. intros x Hx i. exact (Hx de i). }
      intros. apply grows_ret.
    - intros v. apply writes_appends. cbn [snapshooter_put]. unfold constant_value_put, push.
      apply (writes_postfix_described _ (cv_descr v) (cv_name v)
               (fun _ into => ret (SConstant v, into ++ [(cv_name v, cv_value v)]))).
      apply pushes_writes, pushes_ret.
    - intros n ds g s H de into.
      change (grows into (wrap (SPolled n ds g) (polled_put (snapshooter_put s) n ds g de into))).
      apply grows_wrap. unfold polled_put.
      assert (Hd : forall (m : M (snapshooter X * snapshot)),
        grows (put_postfixed_descriptives ds n into de) m -> grows into m).
      { intros m Hm. destruct de; [|exact Hm].
        destruct (postfixed_added ds n into) as (t & Et & _). rewrite Et in Hm. exact (grows_pre _ _ _ _ Hm). }
      apply Hd. destruct g; [|exact (H de _)].
      intros k c x s' c' E. steps. unfold push. eauto.
    - intros i de into. apply grows_wrap. exact (instrument_appends _ (pa_instr _ HX) de into).
    - intros h H de into. apply grows_wrap. exact (H de into).
    - intros u de into. apply grows_wrap. exact (pa_snap _ HX u de into).
  Qed.

  Lemma tele_appends : forall t : tele X, appends (tele_put t).
  Proof.
    intros t de into. destruct tree_appends as (_ & Lh & Lc & Ls). unfold tele_put.
    apply grows_named. clear into. intros into.
    eapply grows_described. apply grows_activity. clear into. intros into.
    apply grows_bind.
    { apply grows_traverse. apply Forall_forall. intros x _ i. exact (Lc x de i). }
    intros cs s1. apply grows_bind.
    { apply grows_traverse. apply Forall_forall. intros x _ i. exact (Lh x de i). }
    intros hs s2. apply grows_bind.
    { apply grows_traverse. apply Forall_forall. intros x _ i. exact (Ls x de i). }
    intros. apply grows_ret.
  Qed.

  Lemma fold_push : forall s into, fold_left (fun into '(k, v) => push into k v) s into = into ++ s.
  Proof.
    induction s as [|[k v] s IH]; intros into; cbn [fold_left]; [rewrite app_nil_r; reflexivity|].
    rewrite IH. unfold push. rewrite <- app_assoc. reflexivity.
  Qed.

  Lemma driver_appends : forall (Y : pext) h, appends (driver_put (Y := Y) h).
  Proof.
    intros Y h de into k c x s c' E. unfold driver_put in E. steps. destruct o as [o|].
    - rewrite fold_push. eauto.
    - exists []. rewrite app_nil_r. reflexivity.
  Qed.

  Lemma processor_appends : forall (Y : pext), (forall u, appends (user_proc_put Y u)) ->
    (forall p : processor X Y, appends (processor_put p)) /\ (forall m : mount X Y, appends (mount_put m)).
  Proof.
    intros Y Hu. destruct tree_appends as (_ & Lh & Lc & Ls).
    apply processor_ind'.
    - intros t de into. apply grows_wrap. exact (tele_appends t de into).
    - intros m H de into. apply grows_wrap. exact (H de into).
    - intros r m H de into. apply grows_wrap. exact (H de into).
    - intros h de into. apply grows_wrap. exact (driver_appends Y h de into).
    - intros u de into. apply grows_wrap. exact (Hu u de into).
    - intros d ps ss Hp de into. cbn [mount_put]. apply grows_named. clear into. intros into.
      eapply grows_described. apply grows_activity. clear into. intros into.
      apply grows_bind.
      { apply grows_traverse. eapply Forall_impl; [|exact Hp]. intros x Hx i. exact (Hx de i). }
      intros ps' s2. apply grows_bind.
      { apply grows_traverse. apply Forall_forall. intros x _ i. exact (Ls x de i). }
      intros. apply grows_ret.
  Qed.
End TreeAppends.

(** ** Groups *)

Lemma named_group : forall A n (f : snapshot -> M (A * snapshot)) into k c,
  put_named (Some n) f into k c
  = match f [] k c with
    | Ok (x, inner) c' => Ok (x, into ++ [(n, ItemSnapshot inner)]) c'
    | Panic => Panic
    | NoFuel => NoFuel
    end.
Proof.
  intros. unfold put_named, bind, snapshot_default, push. destruct (f [] k c) as [[x s] c'| |]; reflexivity.
Qed.

(** The same values under another name. *)
Definition renamed {A} (f : A -> A) (r : res clock (A * snapshot)) : res clock (A * snapshot) :=
  match r with
  | Ok (x, s) c => Ok (f x, s) c
  | Panic => Panic
  | NoFuel => NoFuel
  end.

Lemma activity_renamed : forall A (f : A -> A) limit show last a rest rest' into k c,
  (forall into k c, rest' into k c = renamed f (rest into k c)) ->
  check_activity limit show last (f a) rest' into k c
  = renamed f (check_activity limit show last a rest into k c).
Proof.
  intros A f limit show last a rest rest' into k c H. unfold check_activity.
  destruct limit as [lim|]; [|apply H]. destruct show; [|apply H].
  unfold bind. rewrite elapsed_eq. destruct (lim <? _); [reflexivity | apply H].
Qed.

Lemma group_renamed : forall A n (r r' : res clock (A * snapshot)) (f : A -> A) (into : snapshot),
  r' = renamed f r ->
  match r' with
  | Ok (x, inner) c' => Ok (x, into ++ [(n, ItemSnapshot inner)]) c'
  | Panic => Panic
  | NoFuel => NoFuel
  end
  = match r with
    | Ok (x, inner) c' => Ok (f x, into ++ [(n, ItemSnapshot inner)]) c'
    | Panic => Panic
    | NoFuel => NoFuel
    end.
Proof. intros A n r r' f into ->. destruct r as [[x s] c| |]; reflexivity. Qed.

Lemma panel_group : forall X (p : panel X) n d into k c,
  panel_put (panel_set_name p n) d into k c
  = match panel_put (panel_unnamed p) d [] k c with
    | Ok (p', inner) c' => Ok (panel_set_name p' n, into ++ [(n, ItemSnapshot inner)]) c'
    | Panic => Panic
    | NoFuel => NoFuel
    end.
Proof.
  intros X [d sl ps hs ss] n de into k c. cbn [panel_set_name panel_unnamed]. rewrite !panel_put_eq.
  cbn [pd_name pd_filter pd_descr pd_last_update pd_limit pd_show_activity].
  rewrite named_group. apply group_renamed. unfold put_named.
  apply (activity_renamed _ (fun p => panel_set_name p n) (pd_limit d) (pd_show_activity d)
           (pd_last_update d) (panel_unnamed (Panel d sl ps hs ss))).
  clear. intros into k c. unfold bind.
  destruct (slots_put de sl into k c) as [[sl1 i1] c1| |]; try reflexivity.
  destruct (traverse (fun x => panel_put x de) ps i1 k c1) as [[ps1 i2] c2| |]; try reflexivity.
  destruct (traverse (fun x => snapshooter_put x de) ss i2 k c2) as [[ss1 i3] c3| |]; try reflexivity.
  destruct (traverse (fun x => handler_put x de) hs i3 k c3) as [[hs1 i4] c4| |]; reflexivity.
Qed.

Lemma cockpit_group : forall X (p : cockpit X) n d into k c,
  cockpit_put (cockpit_set_name p n) d into k c
  = match cockpit_put (cockpit_unnamed p) d [] k c with
    | Ok (p', inner) c' => Ok (cockpit_set_name p' n, into ++ [(n, ItemSnapshot inner)]) c'
    | Panic => Panic
    | NoFuel => NoFuel
    end.
Proof.
  intros X [d ps hs ss] n de into k c. cbn [cockpit_set_name cockpit_unnamed]. rewrite !cockpit_put_eq.
  cbn [cd_name cd_descr cd_last_activity cd_limit cd_show_activity].
  rewrite named_group. apply group_renamed. unfold put_named.
  apply (activity_renamed _ (fun p => cockpit_set_name p n) (cd_limit d) (cd_show_activity d)
           (cd_last_activity d) (cockpit_unnamed (Cockpit d ps hs ss))).
  clear. intros into k c. unfold bind.
  destruct (traverse (fun x => panel_put x de) ps into k c) as [[ps1 i2] c2| |]; try reflexivity.
  destruct (traverse (fun x => handler_put x de) hs i2 k c2) as [[hs1 i3] c3| |]; try reflexivity.
  destruct (traverse (fun x => snapshooter_put x de) ss i3 k c3) as [[ss1 i4] c4| |]; reflexivity.
Qed.

Lemma tele_group : forall X (p : tele X) n d into k c,
  tele_put (tele_named p (Some n)) d into k c
  = match tele_put (tele_named p None) d [] k c with
    | Ok (p', inner) c' => Ok (tele_named p' (Some n), into ++ [(n, ItemSnapshot inner)]) c'
    | Panic => Panic
    | NoFuel => NoFuel
    end.
Proof.
  intros X t n de into k c. unfold tele_put.
  cbn [tele_named tp_name tp_descr tp_cockpits tp_handlers tp_receiver tp_snapshooters tp_last_activity
       tp_limit tp_show_activity tp_disconnected].
  rewrite named_group. apply (group_renamed _ _ _ _ (fun p => tele_named p (Some n))). unfold put_named.
  apply (activity_renamed _ (fun p => tele_named p (Some n)) (tp_limit t) (tp_show_activity t)
           (tp_last_activity t) (tele_named t None)).
  clear. intros into k c. unfold bind.
  destruct (traverse (fun x => cockpit_put x de) (tp_cockpits t) into k c) as [[ps1 i2] c2| |]; try reflexivity.
  destruct (traverse (fun x => handler_put x de) (tp_handlers t) i2 k c2) as [[hs1 i3] c3| |]; try reflexivity.
  destruct (traverse (fun x => snapshooter_put x de) (tp_snapshooters t) i3 k c3) as [[ss1 i4] c4| |]; reflexivity.
Qed.

Lemma mount_group : forall X Y (p : mount X Y) n d into k c,
  mount_put (mount_named p (Some n)) d into k c
  = match mount_put (mount_named p None) d [] k c with
    | Ok (p', inner) c' => Ok (mount_named p' (Some n), into ++ [(n, ItemSnapshot inner)]) c'
    | Panic => Panic
    | NoFuel => NoFuel
    end.
Proof.
  intros X Y [d ps ss] n de into k c. cbn [mount_named]. rewrite !mount_put_eq.
  cbn [md_name md_descr md_last_activity md_limit].
  rewrite named_group. apply (group_renamed _ _ _ _ (fun p => mount_named p (Some n))). unfold put_named.
  apply (activity_renamed _ (fun p => mount_named p (Some n)) (md_limit d) true
           (md_last_activity d) (mount_named (Mount d ps ss) None)).
  clear. intros into k c. unfold bind.
  destruct (traverse (fun x => processor_put x de) ps into k c) as [[ps1 i2] c2| |]; try reflexivity.
  destruct (traverse (fun x => snapshooter_put x de) ss i2 k c2) as [[ss1 i4] c4| |]; reflexivity.
Qed.

(** ** The outermost description wins *)

Lemma lookup_app : forall k a b,
  lookup k (a ++ b) = match lookup k a with Some v => Some v | None => lookup k b end.
Proof.
  induction a as [|[n v] a IH]; intros b; cbn; [reflexivity|].
  destruct (String.eqb n k); [reflexivity | apply IH].
Qed.

Lemma lookup_kept : forall k a b v, lookup k a = Some v -> lookup k (a ++ b) = Some v.
Proof. intros. rewrite lookup_app, H. reflexivity. Qed.

Lemma lookup_neq_text : forall k k' t into, k <> k' ->
  lookup k (put_text_once k' t into) = lookup k into.
Proof.
  intros k k' t into Hk. unfold put_text_once. destruct t as [t|]; [|reflexivity].
  destruct (lookup k' into); [reflexivity|]. unfold push. rewrite lookup_app.
  destruct (lookup k into); [reflexivity|]. cbn.
  destruct (String.eqb_spec k' k); [congruence | reflexivity].
Qed.

Lemma text_once_lookup : forall k t into, lookup k into = None ->
  lookup k (put_text_once k (Some t) into) = Some (Text t).
Proof.
  intros k t into H. unfold put_text_once. rewrite H. unfold push. rewrite lookup_app, H.
  cbn. rewrite String.eqb_refl. reflexivity.
Qed.

Lemma described_title : forall ds into,
  lookup "_title" into = None -> lookup "_description" into = None ->
  title_of ds (put_default_descriptives ds into true).
Proof.
  intros ds into H1 H2. unfold put_default_descriptives, put_descriptives, title_field_label, description_field_label.
  split; intros t Ht.
  - rewrite lookup_neq_text by discriminate. rewrite Ht. apply text_once_lookup. exact H1.
  - rewrite Ht. apply text_once_lookup. rewrite lookup_neq_text by discriminate. exact H2.
Qed.

Lemma title_kept : forall ds s added, title_of ds s -> title_of ds (s ++ added).
Proof.
  intros ds s added [H1 H2]. split; intros t Ht; apply lookup_kept; auto.
Qed.

Lemma named_title : forall A name ds (f : snapshot -> M (A * snapshot)) into k c x s c',
  (forall into, grows into (f into)) ->
  put_named name (fun into => f (put_default_descriptives ds into true)) into k c = Ok (x, s) c' ->
  lookup "_title" into = None -> lookup "_description" into = None ->
  exists level, own_level into s name level /\ title_of ds level.
Proof.
  intros A name ds f into k c x s c' Hf E H1 H2. destruct name as [n|]; unfold put_named in E.
  - apply bind_ok in E. destruct E as ([y inner] & c1 & E1 & E). steps.
    exists inner. split; [constructor; reflexivity|].
    destruct (Hf _ _ _ _ _ _ E1) as (l & ->). apply title_kept, described_title; reflexivity.
  - exists s. split; [constructor|]. destruct (Hf _ _ _ _ _ _ E) as (l & ->).
    apply title_kept, described_title; assumption.
Qed.

Section Outermost.
  Context {X : ext} (HX : parts_append X).

  Lemma panel_title : forall (p : panel X) into k c p' s c',
    panel_put p true into k c = Ok (p', s) c' ->
    lookup "_title" into = None -> lookup "_description" into = None ->
    exists level, own_level into s (panel_name p) level /\ title_of (pd_descr (p_data p)) level.
  Proof.
    intros [d sl ps hs ss] into k c p' s c' E. rewrite panel_put_eq in E.
    eapply (named_title _ (pd_name d) (pd_descr d)); [|exact E]. clear E.
    intros i. apply grows_activity. clear - HX. intros into.
    destruct (tree_appends HX) as (Lp & Lh & Lc & Ls).
    apply grows_bind; [exact (writes_appends _ _ (slots_writes sl) true into)|].
    intros sl' s1. apply grows_bind.
    { apply grows_traverse. apply Forall_forall. intros x _ i. exact (Lp x true i). }
    intros ps' s2. apply grows_bind.
    { apply grows_traverse. apply Forall_forall. intros x _ i. exact (Ls x true i). }
    intros ss' s3. apply grows_bind.
    { apply grows_traverse. apply Forall_forall. intros x _ i. exact (Lh x true i). }
    intros. apply grows_ret.
  Qed.

  Lemma cockpit_title : forall (p : cockpit X) into k c p' s c',
    cockpit_put p true into k c = Ok (p', s) c' ->
    lookup "_title" into = None -> lookup "_description" into = None ->
    exists level, own_level into s (cockpit_name p) level /\ title_of (cd_descr (c_data p)) level.
  Proof.
    intros [d ps hs ss] into k c p' s c' E. rewrite cockpit_put_eq in E.
    eapply (named_title _ (cd_name d) (cd_descr d)); [|exact E]. clear E.
    intros i. apply grows_activity. clear - HX. intros into.
    destruct (tree_appends HX) as (Lp & Lh & Lc & Ls).
    apply grows_bind.
    { apply grows_traverse. apply Forall_forall. intros x _ i. exact (Lp x true i). }
    intros ps' s2. apply grows_bind.
    { apply grows_traverse. apply Forall_forall. intros x _ i. exact (Lh x true i). }
    intros ss' s3. apply grows_bind.
    { apply grows_traverse. apply Forall_forall. intros x _ i. exact (Ls x true i). }
    intros. apply grows_ret.
  Qed.

  Lemma tele_title : forall (t : tele X) into k c p' s c',
    tele_put t true into k c = Ok (p', s) c' ->
    lookup "_title" into = None -> lookup "_description" into = None ->
    exists level, own_level into s (tp_name t) level /\ title_of (tp_descr t) level.
  Proof.
    intros t into k c p' s c' E. unfold tele_put in E.
    eapply (named_title _ (tp_name t) (tp_descr t)); [|exact E]. clear E.
    intros i. apply grows_activity. clear - HX. intros into.
    destruct (tree_appends HX) as (Lp & Lh & Lc & Ls).
    apply grows_bind.
    { apply grows_traverse. apply Forall_forall. intros x _ i. exact (Lc x true i). }
    intros ps' s2. apply grows_bind.
    { apply grows_traverse. apply Forall_forall. intros x _ i. exact (Lh x true i). }
    intros ss' s3. apply grows_bind.
    { apply grows_traverse. apply Forall_forall. intros x _ i. exact (Ls x true i). }
    intros. apply grows_ret.
  Qed.

  Lemma mount_title : forall (Y : pext) (m : mount X Y), (forall u, appends (user_proc_put Y u)) ->
    forall into k c p' s c',
    mount_put m true into k c = Ok (p', s) c' ->
    lookup "_title" into = None -> lookup "_description" into = None ->
    exists level, own_level into s (md_name (m_data m)) level /\ title_of (md_descr (m_data m)) level.
  Proof.
    intros Y [d ps ss] Hu into k c p' s c' E. rewrite mount_put_eq in E.
    eapply (named_title _ (md_name d) (md_descr d)); [|exact E]. clear E.
    intros i. apply grows_activity. clear - HX Hu. intros into.
    destruct (tree_appends HX) as (Lp & Lh & Lc & Ls). destruct (processor_appends HX Y Hu) as (Lq & _).
    apply grows_bind.
    { apply grows_traverse. apply Forall_forall. intros x _ i. exact (Lq x true i). }
    intros ps' s2. apply grows_bind.
    { apply grows_traverse. apply Forall_forall. intros x _ i. exact (Ls x true i). }
    intros. apply grows_ret.
  Qed.
End Outermost.
