From Coq Require Import ZArith Bool String List Lia ZifyBool Floats.SpecFloat.
From Verif Require Import Base SpecRun SpecCounting MonadFacts ModelObservation ModelSnapshot ModelMeter SpecMeter.
Import ListNotations.
Open Scope Z_scope.

Ltac Zify.zify_post_hook ::= Z.to_euclidean_division_equations.

(** ** The marks *)

Lemma marked_in_snoc : forall start l t n i,
  marked_in start (l ++ [(t, n)]) i = marked_in start l i + (if interval5 start t =? i then n else 0).
Proof.
  intros. unfold marked_in. rewrite filter_app, map_app, sum_app. f_equal. cbn.
  destruct (interval5 start t =? i); cbn; lia.
Qed.

Lemma marked_in_later : forall start l i,
  Forall (fun e => interval5 start (fst e) < i) l -> marked_in start l i = 0.
Proof.
  induction 1 as [|e l H Hl IH]; [reflexivity|]. unfold marked_in in *. cbn.
  destruct (Z.eqb_spec (interval5 start (fst e)) i); [lia|]. exact IH.
Qed.

Lemma interval5_mono : forall s a b, a <= b -> interval5 s a <= interval5 s b.
Proof. intros. unfold interval5. apply Z.div_le_mono; lia. Qed.

Lemma interval5_nonneg : forall s t, s <= t -> 0 <= interval5 s t.
Proof. intros. unfold interval5. apply Z.div_pos; lia. Qed.

Definition counts (start : Z) (l : marks) (P : Z) : list Z :=
  map (fun i => marked_in start l (Z.of_nat i) mod two64) (seq 0 (Z.to_nat P)).

Lemma counts_succ : forall start l P, 0 <= P ->
  counts start l (P + 1) = counts start l P ++ [marked_in start l P mod two64].
Proof.
  intros. unfold counts. rewrite Z2Nat.inj_add by lia. change (Z.to_nat 1) with 1%nat.
  rewrite seq_app, map_app. cbn [seq map]. rewrite Nat.add_0_l, Z2Nat.id by lia. reflexivity.
Qed.

Lemma counts_snoc : forall start l t n P, P <= interval5 start t ->
  counts start (l ++ [(t, n)]) P = counts start l P.
Proof.
  intros. unfold counts. apply map_ext_in. intros i Hi. apply in_seq in Hi.
  rewrite marked_in_snoc. replace (interval5 start t =? Z.of_nat i) with false by lia.
  rewrite Z.add_0_r. reflexivity.
Qed.

Lemma counts_empty : forall start l P, counts start l P = [] <-> P <= 0.
Proof.
  intros. unfold counts. split.
  - intros H. apply map_eq_nil in H. destruct (Z.to_nat P) eqn:E; [lia|discriminate].
  - intros H. replace (Z.to_nat P) with 0%nat by lia. reflexivity.
Qed.

Lemma smoothed_snoc : forall a cs n,
  smoothed a (cs ++ [n])
  = match cs with [] => interval_rate n | _ => smooth a (smoothed a cs) (interval_rate n) end.
Proof.
  intros a [|c cs] n; [reflexivity|]. cbn [smoothed app]. rewrite fold_left_app. reflexivity.
Qed.

(** ** Invariant: [t] is the time of the last tick *)

Definition follows (e : ewma) (alpha : f64) (start : Z) (l : marks) (P : Z) : Prop :=
  e_alpha e = alpha
  /\ e_uncounted e = marked_in start l P mod two64
  /\ e_rate e = smoothed alpha (counts start l P)
  /\ e_init e = (0 <? P).

Record metered (s : std_meter) (al : alphas) (start t : Z) (l : marks) : Prop := Metered {
  mt_start : sm_start s = start;
  mt_after : start <= t;
  mt_next : sm_next_tick s = start + (interval5 start t + 1) * 5000000000;
  mt_past : Forall (fun e => interval5 start (fst e) <= interval5 start t) l;
  mt_e1 : follows (sm_e1 s) (alpha1 al) start l (interval5 start t);
  mt_e5 : follows (sm_e5 s) (alpha5 al) start l (interval5 start t);
  mt_e15 : follows (sm_e15 s) (alpha15 al) start l (interval5 start t);
  mt_count : sm_count s = wrap_i64 (sum (map snd l))
}.

Lemma follows_tick : forall e a start l P, 0 <= P ->
  Forall (fun x => interval5 start (fst x) <= P) l ->
  follows e a start l P -> follows (ewma_tick e) a start l (P + 1).
Proof.
  intros e a start l P HP Hl (Ha & Hu & Hr & Hi). unfold follows, ewma_tick.
  assert (H0 : marked_in start l (P + 1) = 0).
  { apply marked_in_later. eapply Forall_impl; [|exact Hl]. intros x; cbn; lia. }
  rewrite H0, counts_succ, smoothed_snoc by assumption.
  replace (0 <? P + 1) with true by lia.
  change (f64_of_Z (tick_rate_secs * nanos_per_sec)) with (f64_of_Z 5000000000).
  rewrite Hu. fold (interval_rate (marked_in start l P mod two64)).
  destruct (e_init e) eqn:Ei; cbn [e_alpha e_uncounted e_rate e_init]; repeat split; auto.
  - destruct (counts start l P) as [|c cs] eqn:E.
    + apply counts_empty in E. lia.
    + rewrite Hr, Ha. reflexivity.
  - destruct (counts start l P) as [|c cs] eqn:E; [reflexivity|].
    assert (counts start l P <> []) by congruence. rewrite counts_empty in H. lia.
Qed.

Definition at_interval (s : std_meter) (al : alphas) (start : Z) (l : marks) (P : Z) : Prop :=
  sm_start s = start /\ 0 <= P
  /\ sm_next_tick s = start + (P + 1) * 5000000000
  /\ Forall (fun e => interval5 start (fst e) <= P) l
  /\ follows (sm_e1 s) (alpha1 al) start l P
  /\ follows (sm_e5 s) (alpha5 al) start l P
  /\ follows (sm_e15 s) (alpha15 al) start l P
  /\ sm_count s = wrap_i64 (sum (map snd l)).

Lemma tick_loop_spec : forall n t s al start l P k c,
  at_interval s al start l P -> (Z.to_nat (interval5 start t - P) <= n)%nat ->
  (start + (Z.max P (interval5 start t) + 1) * 5000000000 <= max_instant k ->
   exists s', std_tick_loop n t s k c = Ok s' c)
  /\ std_tick_loop n t s k c <> NoFuel
  /\ forall s' c', std_tick_loop n t s k c = Ok s' c' ->
       c' = c /\ at_interval s' al start l (Z.max P (interval5 start t)).
Proof.
  induction n as [|n IH]; intros t s al start l P k c H Hn;
    destruct H as (H1 & H2 & H3 & H4 & H5 & H6 & H7 & H8); cbn [std_tick_loop].
  - assert (Hlt : interval5 start t <= P) by lia.
    assert (Hf : sm_next_tick s <=? t = false).
    { apply Z.leb_gt. rewrite H3. unfold interval5 in Hlt. lia. }
    rewrite Hf.
    rewrite Z.max_l by lia. split; [|split].
    + eexists; reflexivity.
    + discriminate.
    + intros s' c' E. steps. split; [reflexivity|].
      unfold at_interval. tauto.
  - destruct (Z.leb_spec (sm_next_tick s) t) as [Hle|Hgt].
    + assert (HP : P + 1 <= interval5 start t) by (rewrite H3 in Hle; unfold interval5; lia).
      assert (Hat : forall nt, nt = sm_next_tick s + tick_nanos ->
        at_interval (StdMeter (sm_count s) (ewma_tick (sm_e1 s)) (ewma_tick (sm_e5 s))
             (ewma_tick (sm_e15 s)) nt (sm_start s)) al start l (P + 1)).
      { intros nt ->. unfold at_interval. cbn [sm_start sm_next_tick sm_e1 sm_e5 sm_e15 sm_count].
        split; [assumption|]. split; [lia|]. split; [rewrite H3; ring|].
        split; [eapply Forall_impl; [|exact H4]; intros x; cbn; lia|].
        split; [apply follows_tick; assumption|].
        split; [apply follows_tick; assumption|].
        split; [apply follows_tick; assumption|]. assumption. }
      specialize (Hat _ eq_refl).
      destruct (IH t _ al start l (P + 1) k c Hat) as (I1 & I2 & I3); [lia|].
      replace (Z.max (P + 1) (interval5 start t)) with (interval5 start t) in * by lia.
      replace (Z.max P (interval5 start t)) with (interval5 start t) in * by lia.
      unfold bind, instant_add.
      destruct (Z.leb_spec (sm_next_tick s + tick_nanos) (max_instant k)) as [Hm|Hm].
      * auto.
      * split; [|split; discriminate]. intros Hk. exfalso. rewrite H3 in Hm. lia.
    + assert (Hlt : interval5 start t <= P) by (rewrite H3 in Hgt; unfold interval5; lia).
      rewrite Z.max_l by lia. split; [|split].
      * eexists; reflexivity.
      * discriminate.
      * intros s' c' E. steps. split; [reflexivity|]. unfold at_interval. tauto.
Qed.

Lemma metered_at : forall s al start t l,
  metered s al start t l <-> start <= t /\ at_interval s al start l (interval5 start t).
Proof.
  intros. unfold at_interval. split.
  - intros [A B C D E F G H]. pose proof (interval5_nonneg start t B). tauto.
  - intros (A & B & _ & C & D & E & F & G & H). constructor; assumption.
Qed.

Lemma tick_inner_metered : forall s al start t l k c s' c',
  metered s al start t l -> t <= c O -> std_tick_inner s k c = Ok s' c' ->
  c' = clock_tail c /\ metered s' al start (c O) l.
Proof.
  intros s al start t l k c s' c' Hm Hle E. apply metered_at in Hm. destruct Hm as [Ht Hm].
  unfold std_tick_inner in E. apply bind_ok in E. destruct E as (t' & c1 & E1 & E). rewrite now_eq in E1.
  injection E1 as <- <-.
  destruct (tick_loop_spec (Z.to_nat ((c O - sm_next_tick s) / tick_nanos + 1)) (c O) s al start l _ k (clock_tail c) Hm)
    as (_ & _ & H).
  - pose proof Hm as (_ & _ & Hn & _). rewrite Hn. unfold interval5.
    pose proof (interval5_mono start t (c O) Hle) as Hmono. unfold interval5 in Hmono.
    lia.
  - destruct (H _ _ E) as (-> & Hat). split; [reflexivity|]. apply metered_at. split; [lia|].
    pose proof (interval5_mono start t (c O) Hle). rewrite Z.max_r in Hat by assumption. exact Hat.
Qed.

(** It neither panics nor runs out of fuel as long as the next tick can be
    represented. *)
Lemma tick_inner_runs : forall s al start t l k c,
  metered s al start t l -> t <= c O -> c O + 5000000000 <= max_instant k ->
  exists s', std_tick_inner s k c = Ok s' (clock_tail c).
Proof.
  intros s al start t l k c Hm Hle Hmax. apply metered_at in Hm. destruct Hm as [Ht Hm].
  unfold std_tick_inner, bind. rewrite now_eq.
  destruct (tick_loop_spec (Z.to_nat ((c O - sm_next_tick s) / tick_nanos + 1)) (c O) s al start l _ k (clock_tail c) Hm)
    as (H & _ & _).
  - pose proof Hm as (_ & _ & Hn & _). rewrite Hn. unfold interval5.
    pose proof (interval5_mono start t (c O) Hle) as Hmono. unfold interval5 in Hmono.
    lia.
  - apply H. pose proof (interval5_mono start t (c O) Hle). rewrite Z.max_r by assumption.
    unfold interval5. lia.
Qed.

Lemma follows_update : forall e a start l P n t, interval5 start t = P ->
  follows e a start l P -> follows (ewma_update e (wrap_u64 n)) a start (l ++ [(t, n)]) P.
Proof.
  intros e a start l P n t HP (Ha & Hu & Hr & Hi). unfold follows, ewma_update.
  cbn [e_alpha e_uncounted e_rate e_init]. repeat split; auto.
  - rewrite marked_in_snoc, HP, Z.eqb_refl, Hu. unfold wrap_u64.
    rewrite Zplus_mod_idemp_r. apply Zplus_mod_idemp_l.
  - rewrite counts_snoc by lia. exact Hr.
Qed.

Lemma mark_metered : forall s al start t l n k c s' c',
  metered s al start t l -> t <= c O -> std_mark s n k c = Ok s' c' ->
  c' = clock_tail c /\ metered s' al start (c O) (l ++ [(c O, n)]).
Proof.
  intros s al start t l n k c s' c' Hm Hle E. unfold std_mark in E.
  apply bind_ok in E. destruct E as (s1 & c1 & E1 & E).
  destruct (tick_inner_metered _ _ _ _ _ _ _ _ _ Hm Hle E1) as (-> & Hm1).
  apply bind_ok in E. destruct E as (cnt & c2 & E2 & E). apply i64_arith_inv in E2. destruct E2 as (-> & -> & _).
  steps. split; [reflexivity|]. destruct Hm1 as [A B C D E F G H].
  constructor; cbn [sm_start sm_next_tick sm_e1 sm_e5 sm_e15 sm_count]; auto.
  - apply Forall_app. split; [exact D|]. constructor; [cbn; lia|constructor].
  - apply follows_update; auto.
  - apply follows_update; auto.
  - apply follows_update; auto.
  - rewrite map_app, sum_app, H, wrap_i64_add_l. cbn. f_equal. lia.
Qed.

Lemma default_metered : forall al k c s c',
  std_meter_default al k c = Ok s c' ->
  c' = clock_tail c /\ metered s al (c O) (c O) [].
Proof.
  intros al k c s c' E. unfold std_meter_default in E.
  apply bind_ok in E. destruct E as (t & c1 & E1 & E). rewrite now_eq in E1. injection E1 as <- <-.
  apply bind_ok in E. destruct E as (nt & c1 & E1 & E). apply instant_add_inv in E1. destruct E1 as (-> & -> & _).
  steps. split; [reflexivity|].
  assert (H0 : interval5 (c O) (c O) = 0) by (unfold interval5; rewrite Z.sub_diag; reflexivity).
  constructor; cbn [sm_start sm_next_tick sm_e1 sm_e5 sm_e15 sm_count]; rewrite ?H0; auto; try lia;
    repeat split; reflexivity.
Qed.

(** ** Meters *)

Lemma std_snapshot_metered : forall s al start t l k c s' d c',
  metered s al start t l -> t <= c O -> std_snapshot s k c = Ok (s', d) c' ->
  (exists j, c' = Nat.iter (S j) clock_tail c)
  /\ metered s' al start (c O) l
  /\ ss_count d = wrap_i64 (sum (map snd l))
  /\ ss_rate1 d = rate_at (alpha1 al) start l (c O)
  /\ ss_rate5 d = rate_at (alpha5 al) start l (c O)
  /\ ss_rate15 d = rate_at (alpha15 al) start l (c O).
Proof.
  intros s al start t l k c s' d c' Hm Hle E. unfold std_snapshot in E.
  apply bind_ok in E. destruct E as (s1 & c1 & E1 & E).
  destruct (tick_inner_metered _ _ _ _ _ _ _ _ _ Hm Hle E1) as (-> & Hm1).
  apply bind_ok in E. destruct E as (mean & c2 & E2 & E). steps.
  assert (Hj : exists j, c' = Nat.iter (S j) clock_tail c).
  { unfold std_mean_inner in E2. destruct (sm_count s' =? 0).
    - steps. exists 0%nat. reflexivity.
    - apply bind_ok in E2. destruct E2 as (e & c3 & E3 & E2). rewrite elapsed_eq in E3. injection E3 as <- <-.
      apply bind_ok in E2. destruct E2 as (x & c3 & E3 & E2). apply u64_arith_inv in E3. destruct E3 as (-> & _ & _).
      apply bind_ok in E2. destruct E2 as (y & c3 & E3 & E2). apply u64_arith_inv in E3. destruct E3 as (-> & _ & _).
      steps. exists 1%nat. reflexivity. }
  split; [exact Hj|]. split; [exact Hm1|].
  destruct Hm1 as [A B C D E F G H]. cbn [ss_count ss_rate1 ss_rate5 ss_rate15].
  split; [exact H|].
  unfold ewma_rate, rate_at, complete_intervals.
  destruct E as (_ & _ & -> & _). destruct F as (_ & _ & -> & _). destruct G as (_ & _ & -> & _).
  repeat split.
Qed.

Lemma iter_tail : forall j c i, Nat.iter j clock_tail c i = c (j + i)%nat.
Proof.
  induction j; intros c i; [reflexivity|].
  change (Nat.iter (S j) clock_tail c i) with (Nat.iter j clock_tail c (S i)). rewrite IHj.
  f_equal. lia.
Qed.

Lemma iter_add : forall i j (c : clock),
  Nat.iter i clock_tail (Nat.iter j clock_tail c) = Nat.iter (i + j) clock_tail c.
Proof.
  induction i; intros; [reflexivity|].
  change (clock_tail (Nat.iter i clock_tail (Nat.iter j clock_tail c))
          = clock_tail (Nat.iter (i + j) clock_tail c)).
  rewrite IHi. reflexivity.
Qed.

Lemma monotone_iter : forall j c, monotone c -> monotone (Nat.iter j clock_tail c).
Proof. intros j c H i. rewrite !iter_tail. rewrite Nat.add_succ_r. apply H. Qed.

(** After an operation: [c'] follows [c] by at least one reading, and the meter
    ticked last at some time before the next reading. *)
Definition passes (c c' : clock) : Prop := exists j, c' = Nat.iter (S j) clock_tail c.

Lemma passes_le : forall c c', monotone c -> passes c c' -> monotone c' /\ c O <= c' O.
Proof.
  intros c c' Hm [j ->]. split; [apply monotone_iter; assumption|].
  rewrite iter_tail. apply monotone_le; [assumption|lia].
Qed.

Lemma passes_trans : forall a b c, passes a b -> passes b c -> passes a c.
Proof. intros a b c [i ->] [j ->]. exists (j + S i)%nat. rewrite iter_add. reflexivity. Qed.

Lemma passes_tail : forall c, passes c (clock_tail c).
Proof. intros c. exists 0%nat. reflexivity. Qed.

Lemma read_first : forall c c', passes c c' -> read_during c c' (c O).
Proof. intros c c' [j ->]. exists 0%nat, (S j). repeat split. lia. Qed.

Lemma read_later : forall a b c t, passes a b -> read_during b c t -> read_during a c t.
Proof.
  intros a b c t [j ->] (x & y & Hlt & -> & ->).
  exists (S j + x)%nat, (y + S j)%nat. split; [lia|]. split; [apply iter_add|].
  rewrite iter_tail. reflexivity.
Qed.

Lemma read_during_le : forall c c' t, monotone c -> read_during c c' t -> c O <= t <= c' O.
Proof.
  intros c c' t Hm (i & j & Hlt & -> & ->). rewrite iter_tail.
  split; apply monotone_le; auto; lia.
Qed.

Definition same_settings (m m' : meter) : Prop :=
  m_name m' = m_name m /\ m_descr m' = m_descr m /\ m_lower_cutoff m' = m_lower_cutoff m
  /\ m_one_minute m' = m_one_minute m /\ m_five_minute m' = m_five_minute m
  /\ m_fifteen_minute m' = m_fifteen_minute m.

Lemma same_settings_refl : forall m, same_settings m m.
Proof. intros. repeat split. Qed.

Lemma same_settings_trans : forall a b c, same_settings a b -> same_settings b c -> same_settings a c.
Proof. unfold same_settings. intros a b c H1 H2. intuition congruence. Qed.

Lemma maybe_tick_metered : forall m al start t l k c m' c',
  monotone c -> metered (m_inner m) al start t l -> t <= c O ->
  meter_maybe_tick m k c = Ok m' c' ->
  exists t', metered (m_inner m') al start t' l /\ t' <= c' O /\ passes c c' /\ same_settings m m'
    /\ (t' = t \/ read_during c c' t').
Proof.
  intros m al start t l k c m' c' Hc Hm Hle E. unfold meter_maybe_tick in E.
  apply bind_ok in E. destruct E as (e & c1 & E1 & E). rewrite elapsed_eq in E1. injection E1 as <- <-.
  destruct (_ <=? _).
  - apply bind_ok in E. destruct E as (s & c1 & E1 & E). unfold std_tick in E1.
    assert (Hle1 : t <= clock_tail c O) by (unfold clock_tail; specialize (Hc O); lia).
    destruct (tick_inner_metered _ _ _ _ _ _ _ _ _ Hm Hle1 E1) as (-> & H1).
    steps. exists (clock_tail c O). cbn [m_inner meter_with].
    split; [exact H1|]. split.
    + unfold clock_tail. pose proof (Hc 1%nat). pose proof (Hc 2%nat). lia.
    + split; [exists 2%nat; reflexivity|]. split; [repeat split|]. right.
      exists 1%nat, 3%nat. split; [lia|]. split; reflexivity.
  - steps. exists t. split; [exact Hm|]. split; [unfold clock_tail; specialize (Hc O); lia|].
    split; [apply passes_tail|]. split; [apply same_settings_refl|]. left. reflexivity.
Qed.

Lemma meter_mark_metered : forall m al start t l n k c m' c',
  monotone c -> metered (m_inner m) al start t l -> t <= c O ->
  meter_mark m n k c = Ok m' c' ->
  metered (m_inner m') al start (c O) (l ++ [(c O, n)]) /\ c' = clock_tail c /\ same_settings m m'.
Proof.
  intros m al start t l n k c m' c' Hc Hm Hle E. unfold meter_mark in E.
  apply bind_ok in E. destruct E as (s & c1 & E1 & E).
  destruct (mark_metered _ _ _ _ _ _ _ _ _ _ Hm Hle E1) as (-> & H1). steps.
  split; [exact H1|]. split; [reflexivity|repeat split].
Qed.

Lemma meter_update_metered : forall m u al start t l k c m' r c',
  update_ok u -> monotone c -> metered (m_inner m) al start t l -> t <= c O ->
  meter_update m u k c = Ok (m', r) c' ->
  passes c c' /\ same_settings m m' /\
  exists t', t' <= c' O /\
    match meter_amount u with
    | Some n => read_during c c' t' /\ metered (m_inner m') al start t' (l ++ [(t', n)])
    | None => metered (m_inner m') al start t' l
    end.
Proof.
  intros m u al start t l k c m' r c' Hok Hc Hm Hle E. unfold meter_update in E.
  apply bind_ok in E. destruct E as (m1 & c1 & E1 & E).
  destruct (maybe_tick_metered _ _ _ _ _ _ _ _ _ Hc Hm Hle E1) as (t1 & H1 & Hle1 & Hp1 & Hs1 & _).
  destruct (passes_le _ _ Hc Hp1) as [Hc1 Hcc1].
  assert (Hmark : forall n m2 r2 c2, (let* m := meter_mark m1 n in ret (m, 1)) k c1 = Ok (m2, r2) c2 ->
    passes c c2 /\ same_settings m m2 /\
    exists t', t' <= c2 O /\ read_during c c2 t' /\ metered (m_inner m2) al start t' (l ++ [(t', n)])).
  { intros n m2 r2 c2 E2. apply bind_ok in E2. destruct E2 as (m3 & c3 & E2 & E3).
    destruct (meter_mark_metered _ _ _ _ _ _ _ _ _ _ Hc1 H1 Hle1 E2) as (H2 & -> & Hs2). steps.
    split; [eapply passes_trans; [exact Hp1|apply passes_tail]|].
    split; [eapply same_settings_trans; eassumption|].
    exists (c1 O). split; [apply Hc1|]. split; [|exact H2].
    eapply read_later; [exact Hp1|]. apply read_first, passes_tail. }
  destruct u as [n ts|ts|v ts]; cbn [meter_amount].
  - destruct ((n <=? i64_max) && negb (n =? 0)) eqn:En.
    + cbn in Hok. unfold in_u64 in Hok.
      replace ((0 <? n) && (n <=? i64_max))%bool with true by lia. eapply Hmark. exact E.
    + replace ((0 <? n) && (n <=? i64_max))%bool with false by (cbn in Hok; unfold in_u64 in Hok; lia). steps.
      split; [exact Hp1|]. split; [exact Hs1|]. exists t1. split; assumption.
  - eapply Hmark. exact E.
  - eapply Hmark. exact E.
Qed.

Lemma wrap_u64_i64 : forall z, wrap_u64 (wrap_i64 z) = z mod two64.
Proof.
  intros. unfold wrap_u64, wrap_i64.
  rewrite <- Zminus_mod_idemp_l, Zmod_mod, Zminus_mod_idemp_l. f_equal. ring.
Qed.

Lemma meter_put_metered : forall m d into al start t l k c m' s c',
  monotone c -> metered (m_inner m) al start t l -> t <= c O ->
  meter_put m d into k c = Ok (m', s) c' ->
  passes c c' /\ same_settings m m' /\
  exists t', read_during c c' t' /\ t' <= c' O /\ metered (m_inner m') al start t' l
    /\ s = put_postfixed_descriptives (m_descr m) (m_name m) into d ++ meter_shows m al start l t'.
Proof.
  intros m d into al start t l k c m' s c' Hc Hm Hle E. unfold meter_put in E.
  apply bind_ok in E. destruct E as ([m1 sn] & c1 & E1 & E). steps.
  unfold meter_get_snapshot in E1.
  apply bind_ok in E1. destruct E1 as (m1 & c1 & E1 & E).
  destruct (maybe_tick_metered _ _ _ _ _ _ _ _ _ Hc Hm Hle E1) as (t1 & H1 & Hle1 & Hp1 & Hs1 & _).
  destruct (passes_le _ _ Hc Hp1) as [Hc1 Hcc1].
  apply bind_ok in E. destruct E as ([s2 sd] & c2 & E2 & E).
  destruct (std_snapshot_metered _ _ _ _ _ _ _ _ _ _ H1 Hle1 E2) as (Hp2 & H2 & Hcount & Hr1 & Hr5 & Hr15).
  cbv zeta in E. cbn [m_lower_cutoff m_one_minute m_five_minute m_fifteen_minute meter_with] in E. steps.
  assert (Hp : passes c c') by (eapply passes_trans; [exact Hp1|exact Hp2]).
  split; [exact Hp|]. split; [eapply same_settings_trans; [exact Hs1|repeat split]|].
  exists (c1 O). split; [eapply read_later; [exact Hp1|apply read_first; exact Hp2]|].
  split; [apply (passes_le _ _ Hc1 Hp2)|]. split; [exact H2|].
  unfold meter_snapshot_put, meter_shows, meter_items.
  cbn [ms_count ms_one_minute ms_five_minutes ms_fifteen_minutes m_name m_descr meter_with].
  destruct Hs1 as (-> & -> & -> & -> & -> & ->).
  rewrite Hcount, Hr1, Hr5, Hr15, wrap_u64_i64. unfold push at 1. do 4 f_equal.
  unfold push_rate, push, cut, shown_rate, f64_ltb, window_item, put_rate.
  destruct (m_one_minute m), (m_five_minute m), (m_fifteen_minute m); reflexivity.
Qed.

(** ** Histories *)

Section Histories.
  Context {X : Type} (upd : X -> update -> M (X * Z))
          (put : X -> bool -> snapshot -> M (X * snapshot))
          (amount : update -> option Z) (inner : X -> std_meter) (same : X -> X -> Prop)
          (good : X -> update -> Prop).

  Definition upd_metered : Prop := forall x u al start t l k c x' r c',
    good x u -> monotone c -> metered (inner x) al start t l -> t <= c O ->
    upd x u k c = Ok (x', r) c' ->
    (c' = c \/ passes c c') /\ same x x' /\
    exists t', t' <= c' O /\
      match amount u with
      | Some n => read_during c c' t' /\ metered (inner x') al start t' (l ++ [(t', n)])
      | None => metered (inner x') al start t' l
      end.

  Definition put_metered : Prop := forall x d into al start t l k c x' s c',
    monotone c -> metered (inner x) al start t l -> t <= c O ->
    put x d into k c = Ok (x', s) c' ->
    passes c c' /\ same x x' /\
    exists t', read_during c c' t' /\ t' <= c' O /\ metered (inner x') al start t' l.

  Context (Hupd : upd_metered) (Hput : put_metered)
          (same_refl : forall x, same x x)
          (same_trans : forall x y z, same x y -> same y z -> same x z)
          (same_good : forall x y u, same x y -> good x u -> good y u).

  Definition op_ok (x : X) (o : meter_op) : Prop :=
    match o with MUpdate u => good x u | MSnapshot _ => True end.

  Lemma same_op_ok : forall x y ops, same x y -> Forall (op_ok x) ops -> Forall (op_ok y) ops.
  Proof.
    intros x y ops Hs. apply Forall_impl. intros [u|d]; cbn; [apply same_good; assumption|auto].
  Qed.

  Lemma same_timed_ok : forall x y (h : list (Z * meter_op)), same x y ->
    Forall (fun to => op_ok x (snd to)) h -> Forall (fun to => op_ok y (snd to)) h.
  Proof.
    intros x y ops Hs. apply Forall_impl. intros [t [u|d]]; cbn; [apply same_good; assumption|auto].
  Qed.

  Lemma history_metered : forall ops x al start t l0 k c x' c',
    Forall (op_ok x) ops -> monotone c -> metered (inner x) al start t l0 -> t <= c O ->
    meter_run upd put x ops k c = Ok x' c' ->
    exists l t', metering upd put amount k x c ops l x' c'
      /\ t' <= c' O /\ (exists j, c' = Nat.iter j clock_tail c)
      /\ metered (inner x') al start t' (l0 ++ l) /\ same x x'.
  Proof.
    induction ops as [|o ops IH]; intros x al start t l0 k c x' c' Hok Hc Hm Hle E.
    - cbn in E. steps. exists [], t. rewrite app_nil_r. split; [constructor|].
      split; [assumption|]. split; [exists 0%nat; reflexivity|]. auto.
    - inversion Hok as [|? ? Hok1 Hok2]; subst.
      destruct o as [u|d]; cbn [meter_run] in E; apply bind_ok in E; destruct E as ([x1 r] & c1 & E1 & E).
      + destruct (Hupd _ _ _ _ _ _ _ _ _ _ _ Hok1 Hc Hm Hle E1) as (Hp & Hs & t1 & Hle1 & H1).
        apply (same_op_ok _ _ _ Hs) in Hok2.
        assert (Hc1 : monotone c1).
        { destruct Hp as [->|Hp]; [assumption|apply (passes_le _ _ Hc Hp)]. }
        assert (Hj : forall c2, (exists j, c2 = Nat.iter j clock_tail c1) -> exists j, c2 = Nat.iter j clock_tail c).
        { intros c2 [j ->]. destruct Hp as [->|[i ->]]; [exists j; reflexivity|].
          exists (j + S i)%nat. apply iter_add. }
        destruct (amount u) as [n|] eqn:Ea.
        * destruct H1 as [Hrd H1].
          destruct (IH _ _ _ _ _ _ _ _ _ Hok2 Hc1 H1 Hle1 E) as (l & t' & A & B & C & D & F).
          exists ((t1, n) :: l), t'. split; [eapply metering_mark; eauto|].
          split; [exact B|]. split; [auto|]. rewrite <- app_assoc in D. split; [exact D|eauto].
        * destruct (IH _ _ _ _ _ _ _ _ _ Hok2 Hc1 H1 Hle1 E) as (l & t' & A & B & C & D & F).
          exists l, t'. split; [eapply metering_ignore; eauto|]. split; [exact B|]. split; [auto|]. eauto.
      + destruct (Hput _ _ _ _ _ _ _ _ _ _ _ _ Hc Hm Hle E1) as (Hp & Hs & t1 & Hrd & Hle1 & H1).
        apply (same_op_ok _ _ _ Hs) in Hok2.
        destruct (passes_le _ _ Hc Hp) as [Hc1 _].
        assert (Hj : forall c2, (exists j, c2 = Nat.iter j clock_tail c1) -> exists j, c2 = Nat.iter j clock_tail c).
        { intros c2 [j ->]. destruct Hp as [i ->]. exists (j + S i)%nat. apply iter_add. }
        destruct (IH _ _ _ _ _ _ _ _ _ Hok2 Hc1 H1 Hle1 E) as (l & t' & A & B & C & D & F).
        exists l, t'. split; [eapply metering_snapshot; eauto|]. split; [exact B|]. split; [auto|]. eauto.
  Qed.

  Lemma frozen_iter : forall j t i, Nat.iter j clock_tail (frozen t) i = t.
  Proof. intros. rewrite iter_tail. reflexivity. Qed.

  Lemma instant_metered : forall h x al start t l0 q k x',
    Forall (fun to => op_ok x (snd to)) h ->
    times_ordered t h q -> metered (inner x) al start t l0 ->
    instant_run upd put k x h = Some x' ->
    exists t', t' <= q /\ metered (inner x') al start t' (l0 ++ instant_marks amount h) /\ same x x'.
  Proof.
    induction h as [|[t1 o] h IH]; intros x al start t l0 q k x' Hok Hord Hm E.
    - cbn in E. injection E as <-. inversion Hord; subst. exists t. rewrite app_nil_r. auto.
    - inversion Hord as [|? ? ? ? ? Hle Hord']; subst. inversion Hok as [|? ? Hok1 Hok2]; subst.
      cbn [instant_run] in E.
      destruct (meter_run upd put x [o] k (frozen t1)) as [x1 c1| |] eqn:E1; try discriminate E.
      destruct (history_metered [o] x al start t l0 k (frozen t1) x1 c1) as (l & t2 & A & B & C & D & F); auto.
      { apply frozen_monotone. }
      destruct C as [j ->]. rewrite frozen_iter in B.
      assert (Hl : l = instant_marks amount [(t1, o)]).
      { clear - A. inversion A; subst; cbn [instant_marks flat_map snd fst];
          match goal with H : metering _ _ _ _ _ _ [] _ _ _ |- _ => inversion H; subst end.
        - match goal with H : amount _ = _ |- _ => rewrite H end.
          match goal with H : read_during _ _ _ |- _ => destruct H as (i & n' & Hij & _ & ->) end.
          reflexivity.
        - match goal with H : amount _ = _ |- _ => rewrite H end. reflexivity.
        - reflexivity. }
      subst l.
      assert (Hord2 : times_ordered t2 h q).
      { inversion Hord'; subst; constructor; auto; lia. }
      apply (same_timed_ok _ _ _ F) in Hok2.
      destruct (IH _ _ _ _ _ _ _ _ Hok2 Hord2 D E) as (t' & G & H & I).
      exists t'. split; [exact G|]. split; [|eauto].
      cbn [instant_marks flat_map] in *. rewrite app_nil_r, <- app_assoc in H. exact H.
  Qed.
End Histories.
