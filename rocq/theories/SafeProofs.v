(** Proofs that computations do not panic. *)
From Coq Require Import ZArith Bool String List Lia.
From Verif Require Import Base SpecRun MonadFacts ModelObservation ModelSnapshot ModelCounter ModelBuckets
  ModelLabelFilter ModelGauge ModelMeter ModelHistogram ModelSwitches ModelInstrument ModelTree ModelChannel
  ModelProcessor ModelDriver SpecTree SpecSafe TreeInd TreeEqs.
Import ListNotations.
Open Scope Z_scope.

Section Rules.
  Variables (k : cfg) (lo hi : Z).
  Notation safe := (safe k lo hi).

  Lemma within_tail : forall c, clock_within lo hi c -> clock_within lo hi (clock_tail c).
  Proof. intros c H n. apply (H (S n)). Qed.

  Lemma safe_ret : forall A (a : A) (P : A -> Prop), P a -> safe (ret a) P.
  Proof. intros A a P H c Hc. exists a, c. repeat split; auto; apply Hc. Qed.

  Lemma safe_done : forall A (a : A), safe (ret a) (fun _ => True).
  Proof. intros. apply safe_ret. exact I. Qed.

  Lemma safe_bind : forall A B (m : M A) (f : A -> M B) (P : A -> Prop) (Q : B -> Prop),
    safe m P -> (forall a, P a -> safe (f a) Q) -> safe (bind m f) Q.
  Proof.
    intros A B m f P Q Hm Hf c Hc. destruct (Hm c Hc) as (a & c1 & E & H1 & Ha).
    destruct (Hf a Ha c1 H1) as (b & c2 & E2 & H2 & Hb). exists b, c2.
    rewrite (bind_eq _ _ _ _ _ _ _ _ _ E). auto.
  Qed.

  Lemma safe_now : safe now (fun n => lo <= n <= hi).
  Proof.
    intros c Hc. exists (c O), (clock_tail c). split; [reflexivity|]. split; [apply within_tail, Hc|apply Hc].
  Qed.

  Lemma safe_weak : forall A (m : M A) (P Q : A -> Prop), safe m P -> (forall a, P a -> Q a) -> safe m Q.
  Proof. intros A m P Q H HPQ c Hc. destruct (H c Hc) as (a & c' & E & H1 & Ha). exists a, c'. auto. Qed.

  Lemma safe_and : forall A (m : M A) (P Q : A -> Prop), safe m P -> safe m Q -> safe m (fun a => P a /\ Q a).
  Proof.
    intros A m P Q HP HQ c Hc. destruct (HP c Hc) as (a & c' & E & H1 & Ha).
    destruct (HQ c Hc) as (b & d & E' & _ & Hb). rewrite E in E'. injection E' as -> ->. exists b, d. auto.
  Qed.

  Lemma safe_add_instant : forall t d, t + d <= max_instant k -> safe (instant_add t d) (fun _ => True).
  Proof. intros t d H c Hc. exists (t + d), c. rewrite instant_add_ok by exact H. auto. Qed.

  Lemma safe_sub_instant : forall t d, min_instant k <= t - d -> safe (instant_sub t d) (fun _ => True).
  Proof. intros t d H c Hc. exists (t - d), c. rewrite instant_sub_ok by exact H. auto. Qed.

  Lemma safe_traverse : forall A S (f : A -> S -> M (A * S)) (P : A -> Prop) l,
    Forall (fun x => forall s, safe (f x s) (fun r => P (fst r))) l ->
    forall s, safe (traverse f l s) (fun r => Forall P (fst r)).
  Proof.
    intros A S f P l H. induction H as [|x l Hx Hl IH]; intros s; cbn [traverse].
    - apply safe_ret. constructor.
    - apply (safe_bind _ _ _ _ _ _ (Hx s)). intros [x' s1] Hx'.
      apply (safe_bind _ _ _ _ _ _ (IH s1)). intros [l' s2] Hl'. apply safe_ret. constructor; assumption.
  Qed.

  Lemma safe_traverse_opt : forall A S (f : A -> S -> M (A * S)) (P : A -> Prop) o,
    Forall (fun x => forall s, safe (f x s) (fun r => P (fst r))) (opt_list o) ->
    forall s, safe (traverse_opt f o s) (fun r => Forall P (opt_list (fst r))).
  Proof.
    intros A S f P [x|] H s; cbn [traverse_opt].
    - inversion H; subst. apply (safe_bind _ _ _ _ _ _ (H2 s)). intros [x' s1] Hx'. apply safe_ret.
      repeat constructor. exact Hx'.
    - apply safe_ret. constructor.
  Qed.

  Lemma safe_wrap : forall A B C (f : A -> B) (m : M (A * C)) (P : B -> Prop),
    safe m (fun r => P (f (fst r))) -> safe (wrap f m) (fun r => P (fst r)).
  Proof. intros A B C f m P H. unfold wrap. apply (safe_bind _ _ _ _ _ _ H). intros [a x] Ha. apply safe_ret. exact Ha. Qed.

  Lemma safe_keep : forall A C (a : A) (m : M C) (P : A -> Prop),
    P a -> safe m (fun _ => True) -> safe (keep a m) (fun r => P (fst r)).
  Proof.
    intros A C a m P Ha H. unfold keep. apply (safe_bind _ _ _ _ _ _ H). intros x _. apply safe_ret. exact Ha.
  Qed.

  Lemma safe_elapsed : forall s, safe (elapsed s) (fun _ => True).
  Proof. intros s. unfold elapsed. apply (safe_bind _ _ _ _ _ _ safe_now). intros n _. apply safe_ret. exact I. Qed.

  (** ** Without overflow checks *)

  Hypothesis Hrel : overflow_checks k = false.

  Lemma safe_arith : forall l h w r, safe (arith l h w r) (fun _ => True).
  Proof.
    intros l h w r c Hc. unfold arith. destruct ((l <=? r) && (r <=? h)); [exists r, c; auto|].
    rewrite Hrel. exists (w r), c. auto.
  Qed.

  Lemma safe_add_u64 : forall a b, safe (add_u64 a b) (fun _ => True).
  Proof. intros. apply safe_arith. Qed.
  Lemma safe_mul_u64 : forall a b, safe (mul_u64 a b) (fun _ => True).
  Proof. intros. apply safe_arith. Qed.
  Lemma safe_add_i64 : forall a b, safe (add_i64 a b) (fun _ => True).
  Proof. intros. apply safe_arith. Qed.
  Lemma safe_add_usize : forall a b, safe (add_usize a b) (fun _ => True).
  Proof. intros. apply safe_arith. Qed.

  Lemma safe_tally : forall A (f : A -> M (A * Z)) x acc (P : A -> Prop),
    safe (f x) (fun r => P (fst r)) -> safe (tally f x acc) (fun r => P (fst r)).
  Proof.
    intros A f x acc P H. unfold tally. apply (safe_bind _ _ _ _ _ _ H). intros [x' n] Hx.
    apply (safe_bind _ _ _ _ _ _ (safe_add_usize _ _)). intros acc' _. apply safe_ret. exact Hx.
  Qed.

  Lemma safe_duration : forall t u v, safe (duration_to_display_value t u v) (fun _ => True).
  Proof.
    intros t u v. unfold duration_to_display_value.
    destruct u, v; first [apply safe_ret; exact I | apply safe_mul_u64].
  Qed.

  Lemma safe_of_duration : forall d, safe (value_of_duration d) (fun _ => True).
  Proof.
    intros d. unfold value_of_duration. apply (safe_bind _ _ _ _ _ _ (safe_mul_u64 _ _)). intros s _.
    apply (safe_bind _ _ _ _ _ _ (safe_add_u64 _ _)). intros n _. apply safe_ret. exact I.
  Qed.
End Rules.

Section Instruments.
  Variables (k : cfg) (lo hi : Z).
  Notation safe := (safe k lo hi).
  Hypothesis Hrel : overflow_checks k = false.
  Hypothesis Htime : manageable k lo hi 0.

  Lemma max_now : forall n, lo <= n <= hi -> n <= max_instant k.
  Proof. intros n H. unfold manageable in Htime. lia. Qed.

  Lemma safe_counter : forall c u, safe (counter_update c u) (fun _ => True).
  Proof.
    intros c u. destruct u; cbn [counter_update]; unfold counter_inc, counter_inc_by;
      (eapply safe_bind; [eapply safe_bind; [apply safe_add_u64; assumption|]; intros; apply safe_done|]);
      intros; apply safe_done.
  Qed.

  Section Ring.
    Context {T : Type} (dflt : T).
    Definition ring_ok (b : buckets T) : Prop := (b_current_idx b < length (b_buckets b))%nat.

    Lemma vec_set_some : forall (l : list T) i x, (i < length l)%nat -> exists l', vec_set l i x = Some l' /\ length l' = length l.
    Proof.
      induction l as [|a l IH]; intros [|i] x H; cbn in *; try lia.
      - exists (x :: l). auto.
      - destruct (IH i x ltac:(lia)) as (l' & E & Hl). rewrite E. cbn. exists (a :: l'). cbn. auto.
    Qed.

    Lemma safe_index_set : forall (l : list T) i x, (i < length l)%nat ->
      safe (index_set l i x) (fun l' => length l' = length l).
    Proof.
      intros l i x H. unfold index_set. destruct (vec_set_some l i x H) as (l' & E & Hl). rewrite E.
      apply safe_ret. exact Hl.
    Qed.

    Lemma safe_index_get : forall (l : list T) i, (i < length l)%nat -> safe (index_get l i) (fun _ => True).
    Proof.
      intros l i H. unfold index_get. destruct (nth_error l i) eqn:E; [apply safe_done|].
      apply nth_error_None in E. lia.
    Qed.

    Lemma safe_idx : forall (b : buckets T) o, ring_ok b -> safe (idx b o) (fun i => (i < length (b_buckets b))%nat).
    Proof.
      intros b o H. unfold idx. unfold ring_ok in H. destruct (length (b_buckets b)) as [|n]; [inversion H|].
      apply safe_ret. apply Nat.mod_upper_bound. discriminate.
    Qed.

    Lemma safe_advance : forall b, ring_ok b -> safe (advance dflt b) ring_ok.
    Proof.
      intros b H. unfold advance. eapply safe_bind; [apply safe_idx, H|]. intros i Hi.
      eapply safe_bind; [apply safe_index_set, Hi|]. intros l Hl. cbv beta in *. apply safe_ret.
      unfold ring_ok. cbn. lia.
    Qed.

    Lemma safe_advance_n : forall n b, ring_ok b -> safe (advance_n dflt n b) ring_ok.
    Proof.
      induction n; intros b H; cbn [advance_n]; [apply safe_ret, H|].
      eapply safe_bind; [apply safe_advance, H|]. intros b' Hb. apply IHn, Hb.
    Qed.

    Lemma safe_tick : forall b, ring_ok b -> safe (ModelBuckets.tick dflt b) ring_ok.
    Proof.
      intros b H. unfold ModelBuckets.tick. eapply safe_bind; [apply safe_now|]. intros n Hn. cbv zeta.
      set (d := as_secs (Z.max 0 (n - b_current_time b))).
      destruct (d =? 0) eqn:E0; [apply safe_ret, H|].
      eapply safe_bind.
      { apply safe_add_instant.
        assert (d * nanos_per_sec <= Z.max 0 (n - b_current_time b)).
        { subst d. unfold as_secs. pose proof (Z.mul_div_le (Z.max 0 (n - b_current_time b)) nanos_per_sec ltac:(lia)). lia. }
        apply Z.eqb_neq in E0.
        assert (0 <= d) by (subst d; unfold as_secs; apply Z.div_pos; lia).
        pose proof (max_now n Hn). lia. }
      intros t _. destruct (d =? 1); [apply safe_advance, H|].
      match goal with |- context [if ?b then _ else _] => destruct b end; [apply safe_advance_n, H|].
      apply safe_ret. unfold ring_ok in *. cbn. rewrite map_length. lia.
    Qed.

    Lemma safe_current_mut : forall b f, ring_ok b -> (forall x, safe (f x) (fun _ => True)) ->
      safe (current_mut dflt b f) ring_ok.
    Proof.
      intros b f H Hf. unfold current_mut. eapply safe_bind; [apply safe_tick, H|]. intros b' Hb.
      eapply safe_bind; [apply safe_index_get, Hb|]. intros x _. eapply safe_bind; [apply Hf|]. intros x' _.
      eapply safe_bind; [apply safe_index_set, Hb|]. intros l Hl. cbv beta in *. apply safe_ret.
      unfold ring_ok in *. cbn. lia.
    Qed.

    Lemma safe_iterator : forall n (l : list T) i, (i < length l)%nat -> safe (bucket_iterator l n i) (fun _ => True).
    Proof.
      induction n; intros l i H; cbn [bucket_iterator]; [apply safe_done|].
      eapply safe_bind; [apply safe_index_get, H|]. intros x _.
      eapply safe_bind; [apply IHn; destruct i; lia|]. intros xs _. apply safe_done.
    Qed.

    Lemma safe_iter : forall b, ring_ok b -> safe (iter dflt b) (fun r => ring_ok (fst r)).
    Proof.
      intros b H. unfold iter. eapply safe_bind; [apply safe_tick, H|]. intros b' Hb.
      eapply safe_bind; [apply safe_iterator, Hb|]. intros xs _. apply safe_ret. exact Hb.
    Qed.
  End Ring.

  Lemma safe_bucket_update : forall b v, safe (bucket_update b v) (fun _ => True).
  Proof.
    intros b v. unfold bucket_update.
    destruct (if negb (bk_count b =? 0) then _ else _) as [mn mx].
    eapply safe_bind; [apply safe_add_i64; assumption|]. intros s _.
    eapply safe_bind; [apply safe_add_u64; assumption|]. intros c _. apply safe_done.
  Qed.

  Lemma safe_stats_fold : forall l a, safe (stats_fold l a) (fun _ => True).
  Proof.
    induction l as [|b l IH]; intros a; cbn [stats_fold]; [apply safe_done|].
    apply (safe_bind _ _ _ _ _ _ _ (fun _ => True)); [|intros; apply IH].
    unfold stats_step. destruct (negb (bk_count b =? 0)); [|apply safe_done].
    eapply safe_bind; [apply safe_add_i64; assumption|]; intros ? _.
    eapply safe_bind; [apply safe_add_u64; assumption|]; intros ? _. cbv zeta.
    eapply safe_bind; [apply safe_add_i64; assumption|]; intros ? _.
    eapply safe_bind; [apply safe_add_i64; assumption|]; intros ? _. apply safe_done.
  Qed.

  Lemma safe_from_buckets : forall b v, ring_ok b -> safe (from_buckets b v) (fun r => ring_ok (fst r)).
  Proof.
    intros b v H. unfold from_buckets. eapply safe_bind; [apply safe_iter, H|]. intros [b' l] Hb.
    eapply safe_bind; [apply safe_stats_fold|]. intros a _.
    destruct (negb (sa_total_count a =? 0)); [apply safe_ret, Hb|].
    destruct v; apply safe_ret, Hb.
  Qed.

  Lemma safe_next_value : forall g v o, safe (gauge_next_value g v o) (fun _ => True).
  Proof.
    intros g v o. destruct o; cbn [gauge_next_value];
      try (match goal with |- context [match ?x with Some _ => _ | None => _ end] => destruct x end);
      try (apply safe_done).
    - eapply safe_bind; [apply safe_duration; assumption|]; intros; apply safe_done.
    - eapply safe_bind; [apply safe_add_i64; assumption|]; intros; apply safe_done.
  Qed.

  Definition track_ok (t : option (buckets bucket)) : Prop := match t with None => True | Some b => ring_ok b end.

  Lemma safe_track : forall t v, track_ok t -> safe (gauge_track t v) track_ok.
  Proof.
    intros [b|] v H; cbn [gauge_track]; [|apply safe_ret, H].
    eapply safe_bind; [apply safe_current_mut; [exact H|intros; apply safe_bucket_update]|].
    intros b' Hb. apply safe_ret. exact Hb.
  Qed.

  Lemma safe_gauge_set : forall g o, tracking_in_bounds g -> safe (gauge_set g o) tracking_in_bounds.
  Proof.
    intros g o H. unfold gauge_set. change (track_ok (g_tracking g)) in H.
    destruct (g_value g); (eapply safe_bind; [apply safe_next_value|]); intros [nv|] _; try (apply safe_ret; exact H);
      (eapply safe_bind; [apply safe_track, H|]); intros t Ht; apply safe_ret; exact Ht.
  Qed.

  Lemma safe_gauge : forall g u, tracking_in_bounds g ->
    safe (gauge_update g u) (fun r => tracking_in_bounds (fst r)).
  Proof.
    intros g u H. destruct u; cbn [gauge_update]; try (apply safe_ret; exact H).
    eapply safe_bind; [apply safe_gauge_set, H|]. intros g' Hg. apply safe_ret. exact Hg.
  Qed.

  Lemma safe_gauge_values : forall g into, tracking_in_bounds g ->
    safe (gauge_put_values g into) (fun r => tracking_in_bounds (fst r)).
  Proof.
    intros g into H. unfold gauge_put_values. destruct (g_value g); [|apply safe_ret, H].
    destruct (if g_group_values g then _ else _) as [into' prefix].
    pose proof H as H'. unfold tracking_in_bounds in H'. destruct (g_tracking g) as [b|]; [|apply safe_ret, H].
    eapply safe_bind; [apply safe_from_buckets, H'|]. intros [b' st] Hb. cbv zeta.
    destruct st; apply safe_ret; exact Hb.
  Qed.

  Lemma safe_gauge_put : forall g de into, tracking_in_bounds g ->
    safe (gauge_put g de into) (fun r => tracking_in_bounds (fst r)).
  Proof.
    intros g de into H. unfold gauge_put. cbv zeta. destruct (g_group_values g); [|apply safe_gauge_values, H].
    eapply safe_bind; [apply safe_gauge_values, H|]. intros [g' l] Hg. apply safe_ret. exact Hg.
  Qed.

  (** ** Meters *)

  Hypothesis Hfive : manageable k lo hi (5 * nanos_per_sec).

  Lemma safe_tick_loop : forall n t s, lo <= t <= hi -> t - sm_next_tick s < Z.of_nat n * tick_nanos ->
    safe (std_tick_loop n t s) (fun _ => True).
  Proof.
    induction n as [|n IH]; intros t s Ht H; cbn [std_tick_loop]; destruct (Z.leb_spec (sm_next_tick s) t);
      try (apply safe_done); [lia|].
    eapply safe_bind.
    { intros c Hc. exists (sm_next_tick s + tick_nanos), c.
      rewrite instant_add_ok by (unfold manageable in Hfive; lia).
      split; [reflexivity|]. split; [exact Hc|]. instantiate (1 := fun r => r = sm_next_tick s + tick_nanos). reflexivity. }
    intros nt ->. apply IH; [exact Ht|]. cbn [sm_next_tick]. lia.
  Qed.

  Lemma safe_tick_inner : forall s, safe (std_tick_inner s) (fun _ => True).
  Proof.
    intros s. unfold std_tick_inner. eapply safe_bind; [apply safe_now|]. intros t Ht.
    apply safe_tick_loop; [exact Ht|].
    pose proof (Z.mul_succ_div_gt (t - sm_next_tick s) tick_nanos ltac:(lia)) as Hd.
    destruct (Z.le_gt_cases 0 ((t - sm_next_tick s) / tick_nanos + 1)); [rewrite Z2Nat.id by lia; lia|].
    destruct (Z.to_nat ((t - sm_next_tick s) / tick_nanos + 1)) eqn:E; [cbn; lia|lia].
  Qed.

  Lemma safe_maybe_tick : forall m, safe (meter_maybe_tick m) (fun _ => True).
  Proof.
    intros m. unfold meter_maybe_tick. eapply safe_bind; [apply safe_elapsed|]. intros e _.
    destruct (_ <=? e); [|apply safe_done].
    eapply safe_bind; [apply safe_tick_inner|]. intros s _. eapply safe_bind; [apply safe_now|]. intros t _.
    apply safe_done.
  Qed.

  Lemma safe_mark : forall m n, safe (meter_mark m n) (fun _ => True).
  Proof.
    intros m n. unfold meter_mark, std_mark.
    eapply safe_bind; [|intros; apply safe_done].
    eapply safe_bind; [apply safe_tick_inner|]. intros s _.
    eapply safe_bind; [apply safe_add_i64; assumption|]. intros c _. cbv zeta.
    apply safe_done.
  Qed.

  Lemma safe_meter : forall m u, safe (meter_update m u) (fun _ => True).
  Proof.
    intros m u. unfold meter_update. eapply safe_bind; [apply safe_maybe_tick|]. intros m' _.
    destruct u as [n t|t|v t].
    - destruct ((n <=? i64_max) && negb (n =? 0)); [|apply safe_done].
      eapply safe_bind; [apply safe_mark|]; intros; apply safe_done.
    - eapply safe_bind; [apply safe_mark|]; intros; apply safe_done.
    - eapply safe_bind; [apply safe_mark|]; intros; apply safe_done.
  Qed.

  Lemma safe_mean : forall s, safe (std_mean_inner s) (fun _ => True).
  Proof.
    intros s. unfold std_mean_inner. destruct (sm_count s =? 0); [apply safe_done|].
    eapply safe_bind; [apply safe_elapsed|]. intros d _.
    eapply safe_bind; [apply safe_mul_u64; assumption|]. intros a _.
    eapply safe_bind; [apply safe_add_u64; assumption|]. intros b _. apply safe_done.
  Qed.

  Lemma safe_meter_put : forall m de into, safe (meter_put m de into) (fun _ => True).
  Proof.
    intros m de into. unfold meter_put, meter_get_snapshot, std_snapshot.
    eapply safe_bind; [|intros [m' s] _; apply safe_done].
    eapply safe_bind; [apply safe_maybe_tick|]. intros m' _.
    eapply safe_bind.
    - eapply safe_bind; [apply safe_tick_inner|]. intros s _.
      eapply safe_bind; [apply safe_mean|]. intros x _. apply safe_done.
    - intros [s snap] _. cbv zeta. apply safe_done.
  Qed.

  Lemma safe_value_meter : forall m u, safe (value_meter_update m u) (fun _ => True).
  Proof.
    intros m u. unfold value_meter_update. destruct u as [n t|t|v t]; try (apply safe_done).
    destruct v as [v|v|v|v|v un|v]; try (match goal with |- context [convert_to_i64 ?x] => destruct (convert_to_i64 x) end);
      try (apply safe_done); try (eapply safe_bind; [apply safe_mark|]; intros; apply safe_done).
    eapply safe_bind; [apply safe_duration; assumption|]. intros d _.
    eapply safe_bind; [apply safe_mark|]; intros; apply safe_done.
  Qed.

  Lemma safe_value_meter_put : forall m de into, safe (value_meter_put m de into) (fun _ => True).
  Proof.
    intros m de into. unfold value_meter_put. eapply safe_bind; [apply safe_meter_put|]. intros [m' s] _.
    apply safe_done.
  Qed.
End Instruments.
