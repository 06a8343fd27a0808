(** Proofs about configuring in another order. *)
From Coq Require Import ZArith Bool String List Permutation Lia.
From Verif Require Import Base SpecRun MonadFacts ModelObservation ModelSnapshot ModelCounter ModelGauge ModelMeter ModelHistogram ModelSwitches ModelInstrument
  ModelTree ModelProcessor ModelConfig SpecConfig SpecOrder SpecReads StaysProofs.
Import ListNotations.
Open Scope Z_scope.

Section Order.
  Context {A} (config : A -> setting -> M A) (ok : list setting -> Prop).
  Context (ok_perm : forall l l', Permutation l l' -> ok l -> ok l').
  Context (ok_tail : forall s l, ok (s :: l) -> ok l).
  Context (stays : forall x s k t x' c', config x s k (frozen t) = Ok x' c' -> c' = frozen t).
  Context (swap : forall s s' l, ok (s :: s' :: l) -> option_of s <> option_of s' -> forall x k t,
    (let* x := config x s in config x s') k (frozen t) = (let* x := config x s' in config x s) k (frozen t)).

  Lemma order_generic : order_irrelevant config ok.
  Proof.
    intros x l l' k t N P. revert x. induction P as [|s l l' P IH|s s' l|l l' l'' P1 IH1 P2 IH2]; intros x O.
    - reflexivity.
    - cbn [configured]. unfold bind. destruct (config x s k (frozen t)) eqn:E; try reflexivity.
      rewrite (stays _ _ _ _ _ _ E). cbn [map] in N. apply NoDup_cons_iff in N as [_ N].
      apply IH; [exact N | apply (ok_tail _ _ O)].
    - cbn [configured]. cbn [map] in N. apply NoDup_cons_iff in N as [N _].
      assert (D : option_of s' <> option_of s) by (intros E; apply N; rewrite E; left; reflexivity).
      pose proof (swap _ _ _ O D x k t) as S. unfold bind in *.
      destruct (config x s' k (frozen t)) eqn:E1; destruct (config x s k (frozen t)) eqn:E2;
        try rewrite (stays _ _ _ _ _ _ E1) in *; try rewrite (stays _ _ _ _ _ _ E2) in *;
        try rewrite S; try rewrite <- S; try reflexivity; try discriminate S; try congruence.
    - rewrite IH1; [|exact N|exact O]. apply IH2; [|apply (ok_perm _ _ P1 O)].
      apply (Permutation_NoDup (Permutation_map option_of P1) N).
  Qed.
End Order.

Ltac settle := intros; unfold bind, ret, no_such_function in *; try congruence.

Lemma any_generic {A} (config : A -> setting -> M A) :
  (forall x s k t x' c', config x s k (frozen t) = Ok x' c' -> c' = frozen t) ->
  (forall s s', option_of s <> option_of s' -> forall x k t,
    (let* x := config x s in config x s') k (frozen t) = (let* x := config x s' in config x s) k (frozen t)) ->
  order_irrelevant config any.
Proof.
  intros S W. apply order_generic; [intros; exact I | intros; exact I | exact S | intros s s' l _; apply W].
Qed.

Ltac plain_stays := let s := fresh in intros ? s ? ? ? ?; destruct s; cbn;
  unfold ret, no_such_function; intros E; injection E; congruence.
Ltac plain_swap := let s := fresh in let s' := fresh in let D := fresh in let x := fresh in
  intros s s' D x k t; destruct x; destruct s, s'; solve [reflexivity | exfalso; apply D; reflexivity].
Ltac plain := apply any_generic; [plain_stays | plain_swap].

Lemma counter_order : order_irrelevant counter_config any.
Proof. plain. Qed.
Lemma meter_order : order_irrelevant meter_config any.
Proof. plain. Qed.
Lemma value_meter_order : order_irrelevant value_meter_config any.
Proof. plain. Qed.
Lemma histogram_order {H} : order_irrelevant (@histogram_config H) any.
Proof. plain. Qed.
Lemma flag_order : order_irrelevant flag_config any.
Proof. plain. Qed.
Lemma staircase_order : order_irrelevant staircase_config any.
Proof. plain. Qed.
Lemma non_occurrence_order : order_irrelevant non_occurrence_config any.
Proof. plain. Qed.
Lemma last_occurrence_order : order_irrelevant last_occurrence_config any.
Proof. plain. Qed.
Lemma display_order : order_irrelevant display_config any.
Proof. plain. Qed.
Lemma constant_value_order : order_irrelevant constant_value_config any.
Proof. plain. Qed.
Lemma polling_order : order_irrelevant polling_config any.
Proof. plain. Qed.
Lemma panel_order X : order_irrelevant (@panel_config X) any.
Proof. plain. Qed.
Lemma cockpit_order X : order_irrelevant (@cockpit_config X) any.
Proof. plain. Qed.
Lemma tele_order X : order_irrelevant (@tele_config X) any.
Proof. plain. Qed.
Lemma mount_order X Y : order_irrelevant (@mount_config X Y) any.
Proof. plain. Qed.

Lemma occurrence_order : order_irrelevant occurrence_config any.
Proof.
  apply any_generic.
  - intros x s k t x' c'. destruct s; cbn -[occurrence_set_if_happened_within]; unfold ret, no_such_function;
      try (intros E; injection E; congruence).
    unfold occurrence_set_if_happened_within, bind, now, instant_sub. destruct (_ <=? _); [|discriminate].
    intros E. injection E. intros <- _. reflexivity.
  - intros s s' D x k t. destruct x.
    destruct s, s'; try reflexivity; try (exfalso; apply D; reflexivity);
      cbn -[instant_sub now]; unfold bind, now, occurrence_set_if_happened_within, bind, now, instant_sub, ret; destruct (_ <=? _); reflexivity.
Qed.

Lemma gauge_value_eq g v k c : gauge_value g v k c =
  match gauge_track (g_tracking g) v k c with
  | Ok t c' => Ok (gauge_with g (Some v) t) c'
  | Panic => Panic
  | NoFuel => NoFuel
  end.
Proof. unfold gauge_value, gauge_set. destruct (g_value g); reflexivity. Qed.

Lemma gauge_order : order_irrelevant gauge_config not_value_and_tracking.
Proof.
  apply order_generic.
  - intros l l' P H (v & n & I1 & I2). apply H. exists v, n.
    split; apply (Permutation_in _ (Permutation_sym P)); assumption.
  - intros s l H (v & n & I1 & I2). apply H. exists v, n. split; right; assumption.
  - intros x s k t x' c' E. destruct s; cbn [gauge_config] in E; try (injection E; congruence).
    + assert (T : stays (gauge_set_tracking x for_seconds))
        by (unfold gauge_set_tracking, ModelBuckets.buckets_new, ModelBuckets.buckets_initialized; stay).
      exact (T _ _ _ _ E).
    + assert (T : stays (gauge_value x v)) by (unfold gauge_value, gauge_set; stay).
      exact (T _ _ _ _ E).
  - intros s s' l O D x k t. unfold bind.
    destruct s, s'; try reflexivity; try (exfalso; apply D; reflexivity);
      try (exfalso; apply O; do 2 eexists; cbn; eauto; fail); cbn [gauge_config]; unfold no_such_function, ret;
      rewrite ?gauge_value_eq; try (destruct x; reflexivity).
    all: cbn [g_tracking gauge_set_name gauge_set_title gauge_set_description gauge_group_values gauge_set_display_time_unit].
    all: try (destruct (gauge_track _ _ _ _); reflexivity).
    all: try (destruct for_seconds; reflexivity).
Qed.

Lemma counter_texts x : counter_put x true [] =
  (text_field ("_title_" ++ c_name x) (d_title (c_descr x)) ++ text_field ("_description_" ++ c_name x) (d_description (c_descr x))
  ++ [(c_name x, UInt (c_count x))])%list.
Proof. destruct x as [n [[t|] [d|]] v]; reflexivity. Qed.
