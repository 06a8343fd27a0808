(** Instruments do not panic while their numbers are far from the limits. *)
From Coq Require Import ZArith Bool String List Lia.
From Verif Require Import Base SpecRun MonadFacts ModelObservation ModelLabelFilter ModelSnapshot ModelCounter ModelBuckets
  ModelGauge ModelMeter ModelHistogram ModelSwitches ModelInstrument ModelTree SpecTree SpecSafe SpecRoom
  BucketsProofs SafeProofs SafeTreeProofs.
Import ListNotations.
Open Scope Z_scope.

Section Numbers.
  Variables (k : cfg) (lo hi : Z).
  Notation safe := (safe k lo hi).

  Lemma safe_arith_in : forall l h w r, l <= r <= h -> safe (arith l h w r) (fun x => x = r).
  Proof.
    intros l h w r H c Hc. exists r, c. unfold arith.
    rewrite (proj2 (Z.leb_le _ _)), (proj2 (Z.leb_le _ _)) by lia. auto.
  Qed.
  Lemma safe_u64 : forall r, 0 <= r <= u64_max -> safe (u64_arith r) (fun x => x = r).
  Proof. intros. apply safe_arith_in. assumption. Qed.
  Lemma safe_i64 : forall r, i64_min <= r <= i64_max -> safe (i64_arith r) (fun x => x = r).
  Proof. intros. apply safe_arith_in. assumption. Qed.

  (** ** The ring *)

  Section Ring.
    Hypothesis Htime : manageable k lo hi 0.
    Context {T : Type} (dflt : T) (Q : list T -> Prop).
    Hypothesis Qset : forall l i l', Q l -> vec_set l i dflt = Some l' -> Q l'.
    Hypothesis Qall : forall l, Q l -> Q (map (fun _ => dflt) l).
    Definition ring (b : buckets T) : Prop := ring_ok b /\ Q (b_buckets b).

    Lemma index_set_q : forall (l : list T) i x, (i < length l)%nat ->
      safe (index_set l i x) (fun l' => length l' = length l /\ vec_set l i x = Some l').
    Proof.
      intros l i x H. unfold index_set. destruct (vec_set_spec l i x H) as (l' & E & Hl & _). rewrite E.
      apply safe_ret. auto.
    Qed.

    Lemma advance_q : forall b, ring b -> safe (advance dflt b) ring.
    Proof.
      intros b [H HQ]. unfold advance. eapply safe_bind; [apply safe_idx, H|]. intros i Hi.
      eapply safe_bind; [apply index_set_q, Hi|]. intros l [Hl E]. cbv beta in *. apply safe_ret.
      split; [unfold ring_ok; cbn; lia | exact (Qset _ _ _ HQ E)].
    Qed.

    Lemma advance_n_q : forall n b, ring b -> safe (advance_n dflt n b) ring.
    Proof.
      induction n; intros b H; cbn [advance_n]; [apply safe_ret, H|].
      eapply safe_bind; [apply advance_q, H|]. intros b' Hb. apply IHn, Hb.
    Qed.

    Lemma tick_q : forall b, ring b -> safe (ModelBuckets.tick dflt b) ring.
    Proof.
      intros b H. unfold ModelBuckets.tick. eapply safe_bind; [apply safe_now|]. intros n Hn. cbv zeta.
      set (d := as_secs (Z.max 0 (n - b_current_time b))).
      destruct (d =? 0) eqn:E0; [apply safe_ret, H|].
      eapply safe_bind.
      { apply safe_add_instant.
        assert (d * nanos_per_sec <= Z.max 0 (n - b_current_time b)).
        { subst d. unfold as_secs. pose proof (Z.mul_div_le (Z.max 0 (n - b_current_time b)) nanos_per_sec ltac:(lia)). lia. }
        apply Z.eqb_neq in E0.
        assert (0 <= d) by (subst d; unfold as_secs; apply Z.div_pos; lia).
        unfold manageable in Htime. cbv beta in Hn. lia. }
      intros t _. destruct (d =? 1); [apply advance_q, H|].
      match goal with |- context [if ?b then _ else _] => destruct b end; [apply advance_n_q, H|].
      apply safe_ret. destruct H as [H HQ]. split; [unfold ring_ok in *; cbn; rewrite map_length; lia | apply Qall, HQ].
    Qed.

    Lemma current_mut_q : forall b (f : T -> M T) (Q' : list T -> Prop), ring b ->
      (forall l i x, Q l -> nth_error l i = Some x -> safe (f x) (fun x' => forall l', vec_set l i x' = Some l' -> Q' l')) ->
      safe (current_mut dflt b f) (fun b => ring_ok b /\ Q' (b_buckets b)).
    Proof.
      intros b f Q' H Hf. unfold current_mut. eapply safe_bind; [apply tick_q, H|]. intros b' [Hb HQ].
      unfold index_get. destruct (nth_error (b_buckets b') (b_current_idx b')) as [x|] eqn:E;
        [|apply nth_error_None in E; unfold ring_ok in Hb; lia].
      eapply safe_bind; [apply (safe_ret _ _ _ _ x (fun y => y = x)); reflexivity|]. intros y ->.
      eapply safe_bind; [apply (Hf _ _ _ HQ E)|]. intros x' Hx.
      eapply safe_bind; [apply index_set_q, Hb|]. intros l [Hl E']. cbv beta in *. apply safe_ret.
      split; [unfold ring_ok in *; cbn; lia | exact (Hx _ E')].
    Qed.

    (** *** Reading *)

    Lemma skipn_nth : forall (l : list T) i x, nth_error l i = Some x -> skipn i l = x :: skipn (S i) l.
    Proof. induction l as [|a l IH]; intros [|i] x E; cbn in *; try discriminate; [injection E as ->; reflexivity | exact (IH i x E)]. Qed.

    Lemma nth_skipn : forall a (l : list T) b, nth_error (skipn a l) b = nth_error l (a + b).
    Proof. induction a as [|a IHa]; intros [|y l] b; cbn [skipn Nat.add nth_error]; auto. destruct b; reflexivity. Qed.

    Lemma iterator_back : forall n (l : list T) i c, (i < length l)%nat -> (n <= S i)%nat ->
      bucket_iterator l n i k c = Ok (rev (firstn n (skipn (S i - n) l))) c.
    Proof.
      induction n as [|n IH]; intros l i c Hi Hn; [reflexivity|]. cbn [bucket_iterator].
      destruct (nth_error l i) as [x|] eqn:E; [|apply nth_error_None in E; lia].
      unfold bind, index_get. rewrite E. unfold ret at 1.
      destruct n as [|n].
      - cbn [bucket_iterator]. unfold ret. rewrite Nat.sub_succ, Nat.sub_0_r, (skipn_nth _ _ _ E). reflexivity.
      - destruct i as [|i]; [lia|]. rewrite IH by lia. unfold ret. rewrite !Nat.sub_succ. f_equal.
        replace (firstn (S (S n)) (skipn (i - n) l)) with (firstn (S n) (skipn (i - n) l) ++ [x]).
        { rewrite rev_app_distr. reflexivity. }
        assert (L : nth_error (skipn (i - n) l) (S n) = Some x).
        { rewrite nth_skipn, <- E. f_equal. lia. }
        clear -L. revert L. generalize (skipn (i - n) l) as m. generalize (S n) as a. clear.
        induction a as [|a IHa]; intros [|y m] L; cbn in *; try discriminate; [injection L as ->; reflexivity|].
        f_equal. apply IHa, L.
    Qed.

    Lemma iterator_S : forall (l : list T) n i x c, nth_error l i = Some x ->
      bucket_iterator l (S n) i k c
      = match bucket_iterator l n (match i with O => length l - 1 | S i' => i' end)%nat k c with
        | Ok xs c' => Ok (x :: xs) c' | Panic => Panic | NoFuel => NoFuel end.
    Proof.
      intros l n i x c E. cbn [bucket_iterator]. unfold bind, index_get. rewrite E. unfold ret.
      destruct (bucket_iterator _ n _ k c); reflexivity.
    Qed.

    Lemma iterator_split : forall i (l : list T) n c, (i < length l)%nat ->
      bucket_iterator l (S i + n) i k c
      = (let* a := bucket_iterator l (S i) i in let* b := bucket_iterator l n (length l - 1) in ret (a ++ b)) k c.
    Proof.
      induction i as [|i IH]; intros l n c Hi.
      - destruct (nth_error l 0) as [x|] eqn:E; [|apply nth_error_None in E; lia].
        change (1 + n)%nat with (S n). rewrite (iterator_S _ _ _ _ _ E). unfold bind. rewrite (iterator_S _ _ _ _ _ E).
        cbn [bucket_iterator]. unfold ret. cbn [app]. reflexivity.
      - destruct (nth_error l (S i)) as [x|] eqn:E; [|apply nth_error_None in E; lia].
        change (S (S i) + n)%nat with (S (S i + n)). rewrite (iterator_S _ _ _ _ _ E), IH by lia.
        unfold bind. rewrite (iterator_S _ _ _ _ _ E). unfold ret.
        destruct (bucket_iterator l (S i) i k c) as [a c1| |]; try reflexivity.
        destruct (bucket_iterator l n (length l - 1) k c1) as [b c2| |]; reflexivity.
    Qed.

    Lemma iter_q : forall b, ring b ->
      safe (iter dflt b) (fun r => ring (fst r) /\ exists a l, b_buckets (fst r) = a ++ l /\ snd r = rev a ++ rev l).
    Proof.
      intros b H. unfold iter. eapply safe_bind; [apply tick_q, H|]. intros b' [Hb HQ].
      set (l := b_buckets b') in *. set (i := b_current_idx b') in *. assert (Hi : (i < length l)%nat) by exact Hb.
      eapply (safe_bind _ _ _ _ _ _ _ (fun xs => xs = rev (firstn (S i) l) ++ rev (skipn (S i) l))).
      - intros c Hc. exists (rev (firstn (S i) l) ++ rev (skipn (S i) l)), c. split; [|split; [exact Hc|reflexivity]].
        replace (length l) with (S i + (length l - S i))%nat at 1 by lia.
        rewrite iterator_split by exact Hi. unfold bind. rewrite iterator_back by lia. rewrite Nat.sub_diag. change (skipn 0 l) with l.
        destruct (length l - S i)%nat as [|m] eqn:Em.
        + cbn [bucket_iterator]. unfold ret. rewrite (skipn_all2 l) by lia. reflexivity.
        + rewrite iterator_back by lia. unfold ret. f_equal. f_equal. f_equal.
          replace (S (length l - 1) - S m)%nat with (S i) by lia. apply firstn_all2. rewrite skipn_length. lia.
      - intros xs ->. apply safe_ret. split; [split; [exact Hb | exact HQ]|].
        exists (firstn (S i) l), (skipn (S i) l). split; [symmetry; apply firstn_skipn | reflexivity].
    Qed.
  End Ring.
End Numbers.

(** ** Bounds *)

Lemma square_bound : forall n V, 0 <= n -> 1 <= V -> n * n * V <= i64_max -> n * V <= i64_max /\ n <= i64_max.
Proof.
  intros n V Hn HV H. assert (n * V <= n * n * V \/ n = 0) as [A|A].
  - destruct (Z.eq_dec n 0); [right; assumption|left]. apply Z.mul_le_mono_nonneg_r; nia.
  - split; [lia|]. nia.
  - subst n. lia.
Qed.

Lemma wrap_i64_small : forall v, 0 <= v <= i64_max -> wrap_i64 v = v.
Proof. intros v H. unfold wrap_i64. rewrite Z.mod_small by lia. lia. Qed.

Section Buckets.
  Variables (V : Z).
  Hypothesis HV : 1 <= V.

  Definition records (n : Z) (l : list bucket) : Prop := Forall (bucket_calm V n) l /\ counts l <= n.

  Lemma bucket_calm_mono : forall n n' b, 0 <= n <= n' -> bucket_calm V n b -> bucket_calm V n' b.
  Proof.
    intros n n' b Hn (A & B & C & D). assert (n * V <= n' * V) by (apply Z.mul_le_mono_nonneg_r; lia).
    assert (bk_count b * (n * V) <= bk_count b * (n' * V)) by (apply Z.mul_le_mono_nonneg_l; lia).
    repeat split; lia.
  Qed.

  Lemma default_calm : forall n, 0 <= n -> bucket_calm V n bucket_default.
  Proof. intros n Hn. assert (0 <= n * V) by (apply Z.mul_nonneg_nonneg; lia). unfold bucket_calm. cbn. lia. Qed.

  Lemma counts_cons : forall b l, counts (b :: l) = bk_count b + counts l.
  Proof. reflexivity. Qed.

  Lemma counts_nonneg : forall n l, Forall (bucket_calm V n) l -> 0 <= counts l.
  Proof. intros n l H. induction H as [|b l (A & _) _ IH]; [cbn; lia|]. rewrite counts_cons. lia. Qed.

  Lemma counts_app : forall a b, counts (a ++ b) = counts a + counts b.
  Proof. induction a as [|x a IH]; intros b; [reflexivity|]. cbn [app]. rewrite !counts_cons, IH. lia. Qed.
  Lemma counts_rev : forall a, counts (rev a) = counts a.
  Proof. induction a as [|x a IH]; [reflexivity|]. cbn [rev]. rewrite counts_app, IH, !counts_cons. cbn. lia. Qed.

  Lemma nth_counts : forall n l i x, Forall (bucket_calm V n) l -> nth_error l i = Some x -> bk_count x <= counts l.
  Proof.
    intros n l i x H. revert i. induction H as [|b l B F IH]; intros [|i] E; cbn in E; try discriminate; rewrite counts_cons.
    - injection E as ->. pose proof (counts_nonneg _ _ F). lia.
    - specialize (IH i E). destruct B as (A & _). lia.
  Qed.

  Lemma set_counts : forall l i x x' l', nth_error l i = Some x -> vec_set l i x' = Some l' ->
    counts l' = counts l - bk_count x + bk_count x'.
  Proof.
    induction l as [|b l IH]; intros [|i] x x' l' E S; cbn in E, S; try discriminate.
    - injection E as ->. injection S as <-. rewrite !counts_cons. lia.
    - destruct (vec_set l i x') as [m|] eqn:M; [|discriminate]. injection S as <-. rewrite !counts_cons. rewrite (IH _ _ _ _ E M). lia.
  Qed.

  Lemma set_forall : forall (P : bucket -> Prop) l i x' l', Forall P l -> P x' -> vec_set l i x' = Some l' -> Forall P l'.
  Proof.
    intros P l i x' l' F Hx. revert i l'. induction F as [|b l Hb F IH]; intros [|i] l' S; cbn in *; try discriminate.
    - injection S as <-. constructor; assumption.
    - destruct (vec_set l i x') as [m|] eqn:M; [|discriminate]. injection S as <-. constructor; [assumption|]. exact (IH _ _ M).
  Qed.

  Lemma set_some_nth : forall (l : list bucket) i x l', vec_set l i x = Some l' -> exists y, nth_error l i = Some y.
  Proof.
    induction l as [|b l IH]; intros [|i] x l' S; cbn in *; try discriminate; [eexists; reflexivity|].
    destruct (vec_set l i x) as [m|] eqn:M; [|discriminate]. exact (IH _ _ _ M).
  Qed.

  Lemma records_set_default : forall n l i l', 0 <= n -> records n l -> vec_set l i bucket_default = Some l' -> records n l'.
  Proof.
    intros n l i l' Hn [F C] S. split; [exact (set_forall _ _ _ _ _ F (default_calm n Hn) S)|].
    destruct (set_some_nth _ _ _ _ S) as [y E]. rewrite (set_counts _ _ _ _ _ E S).
    rewrite Forall_forall in F. destruct (F y (nth_error_In _ _ E)) as (A & _). cbn. lia.
  Qed.

  Lemma records_clear : forall n l, 0 <= n -> records n l -> records n (map (fun _ => bucket_default) l).
  Proof.
    intros n l Hn _. split.
    - induction l; cbn; constructor; [apply default_calm, Hn | assumption].
    - assert (counts (map (fun _ => bucket_default) l) = 0) by (induction l as [|b l IH]; [reflexivity | cbn [map]; rewrite counts_cons, IH; reflexivity]). lia.
  Qed.

  Variables (k : cfg) (lo hi : Z).
  Notation safe := (safe k lo hi).

  Lemma room_bucket_update : forall n l i x v, 0 <= n -> (n + 1) * (n + 1) * V <= i64_max -> Z.abs v <= (n + 1) * V ->
    records n l -> nth_error l i = Some x ->
    safe (bucket_update x v) (fun x' => forall l', vec_set l i x' = Some l' -> records (n + 1) l').
  Proof.
    intros n l i x v Hn HB Hv [F C] E. pose proof (nth_counts _ _ _ _ F E) as Hc.
    pose proof (proj1 (Forall_forall _ _) F x (nth_error_In _ _ E)) as B.
    pose proof (bucket_calm_mono n (n + 1) x ltac:(lia) B) as (A & S & Mn & Mx).
    set (B' := (n + 1) * V) in *.
    assert (HB' : (n + 1) * B' <= i64_max) by (unfold B'; lia).
    assert (HB0 : 0 <= B') by (unfold B'; apply Z.mul_nonneg_nonneg; lia).
    assert (Hs : (bk_count x + 1) * B' <= (n + 1) * B') by (apply Z.mul_le_mono_nonneg_r; lia).
    destruct (square_bound (n + 1) V ltac:(lia) HV HB) as [_ Hn1].
    unfold bucket_update.
    set (mm := if negb (bk_count x =? 0) then _ else _).
    assert (Hmm : Z.abs (fst mm) <= B' /\ Z.abs (snd mm) <= B')
      by (unfold mm; destruct (negb (bk_count x =? 0)); cbn [fst snd]; lia).
    destruct mm as [mn mx]. cbn [fst snd] in Hmm.
    eapply safe_bind; [apply safe_i64; lia|]. intros s ->.
    eapply safe_bind; [apply safe_u64; lia|]. intros c ->. apply safe_ret.
    intros l' S'. split.
    - refine (set_forall _ l i _ l' _ _ S'); [|unfold bucket_calm; cbn [bk_sum bk_count bk_min bk_max]; fold B'; lia].
      apply (Forall_impl _ (P := bucket_calm V n)); [|exact F]. intros b Hb. apply (bucket_calm_mono n); [lia | exact Hb].
    - rewrite (set_counts _ _ _ _ _ E S'). cbn [bk_count]. lia.
  Qed.

  Lemma room_stats : forall n, 0 <= n -> n * n * V <= i64_max -> forall l a,
    Forall (bucket_calm V n) l -> 0 <= sa_total_count a -> sa_total_count a + counts l <= n ->
    Z.abs (sa_total_sum a) <= sa_total_count a * (n * V) -> Z.abs (sa_sum_bottom a) <= sa_total_count a * (n * V) ->
    Z.abs (sa_sum_peak a) <= sa_total_count a * (n * V) ->
    safe (stats_fold l a) (fun _ => True).
  Proof.
    intros n Hn HB. destruct (square_bound n V Hn HV HB) as [_ Hn1]. set (B := n * V) in *.
    assert (HB0 : 0 <= B) by (unfold B; apply Z.mul_nonneg_nonneg; lia).
    assert (HB1 : n * B <= i64_max) by (unfold B; lia).
    intros l a F. revert a. induction F as [|b l Hb F IH]; intros a H0 HC H1 H2 H3; cbn [stats_fold]; [apply safe_done|].
    rewrite counts_cons in HC. pose proof (counts_nonneg _ _ F) as Hl. destruct Hb as (A & S & Mn & Mx). fold B in S, Mn, Mx.
    assert (HT : (sa_total_count a + bk_count b) * B <= n * B) by (apply Z.mul_le_mono_nonneg_r; lia).
    unfold stats_step. destruct (Z.eqb_spec (bk_count b) 0) as [E|E]; cbn [negb].
    - eapply safe_bind; [apply (safe_ret _ _ _ _ a (fun y => y = a)); reflexivity|]. intros y ->. apply IH; lia.
    - assert (HB2 : 1 * B <= bk_count b * B) by (apply Z.mul_le_mono_nonneg_r; lia).
      eapply safe_bind with (P := fun a' => 0 <= sa_total_count a' /\ sa_total_count a' + counts l <= n
        /\ Z.abs (sa_total_sum a') <= sa_total_count a' * B /\ Z.abs (sa_sum_bottom a') <= sa_total_count a' * B
        /\ Z.abs (sa_sum_peak a') <= sa_total_count a' * B).
      + eapply safe_bind; [apply safe_i64; lia|]. intros s ->.
        eapply safe_bind; [apply safe_u64; lia|]. intros c ->. cbv zeta.
        eapply safe_bind; [apply safe_i64; lia|]. intros sb ->.
        eapply safe_bind; [apply safe_i64; lia|]. intros sp ->. apply safe_ret.
        cbn [sa_total_count sa_total_sum sa_sum_bottom sa_sum_peak]. lia.
      + intros a' (P0 & P1 & P2 & P3 & P4). apply IH; assumption.
  Qed.

  Hypothesis Htime : manageable k lo hi 0.

  Definition track_calm (n : Z) (t : option (buckets bucket)) : Prop :=
    match t with Some b => ring_ok b /\ records n (b_buckets b) | None => True end.

  Lemma room_track : forall n t v, 0 <= n -> (n + 1) * (n + 1) * V <= i64_max -> Z.abs v <= (n + 1) * V ->
    track_calm n t -> safe (gauge_track t v) (track_calm (n + 1)).
  Proof.
    intros n [b|] v Hn HB Hv Ht; cbn [gauge_track]; [|apply safe_ret; exact I].
    eapply safe_bind.
    { apply (current_mut_q k lo hi Htime bucket_default (records n)) with (Q' := records (n + 1)).
      - intros l i l' Q S. exact (records_set_default n l i l' Hn Q S).
      - intros l Q. exact (records_clear n l Hn Q).
      - exact Ht.
      - intros l i x Q E. apply (room_bucket_update n); assumption. }
    intros b' Hb. apply safe_ret. exact Hb.
  Qed.

  Lemma room_from_buckets : forall n b v, 0 <= n -> n * n * V <= i64_max -> ring_ok b -> records n (b_buckets b) ->
    safe (from_buckets b v) (fun r => ring_ok (fst r) /\ records n (b_buckets (fst r))).
  Proof.
    intros n b v Hn HB Hr Hq. unfold from_buckets.
    eapply safe_bind.
    { apply (iter_q k lo hi Htime bucket_default (records n)).
      - intros l i l' Q S. exact (records_set_default n l i l' Hn Q S).
      - intros l Q. exact (records_clear n l Hn Q).
      - split; assumption. }
    intros [b' l] [Hb (x & y & E & El)]. cbn [fst snd] in *.
    eapply safe_bind.
    { apply (room_stats n Hn HB l stats_init); cbn [stats_init sa_total_count sa_total_sum sa_sum_bottom sa_sum_peak]; try lia;
        destruct Hb as [_ [F C]]; rewrite E in F, C; apply Forall_app in F; destruct F as [F1 F2]; subst l.
      - apply Forall_app. split; apply Forall_rev; assumption.
      - rewrite counts_app, !counts_rev. rewrite counts_app in C. lia. }
    intros a _. destruct (negb (sa_total_count a =? 0)); [apply safe_ret, Hb|]. destruct v; apply safe_ret, Hb.
  Qed.

  (** ** Values *)

  Lemma room_duration : forall t u w, fits_value V (DurationValue t u) -> V <= i64_max ->
    safe (duration_to_display_value t u w) (fun r => 0 <= r <= V).
  Proof.
    intros t u w [H0 H1] HV'. cbn in H1.
    assert (D : forall d, 1 <= d -> 0 <= t / d <= t).
    { intros d Hd. split; [apply Z.div_pos; lia | apply Z.div_le_upper_bound; nia]. }
    pose proof (D 1000 ltac:(lia)). pose proof (D 1000000 ltac:(lia)). pose proof (D 1000000000 ltac:(lia)).
    assert (G : forall f, 0 <= t * f <= V -> safe (mul_u64 t f) (fun r => 0 <= r <= V)).
    { intros f Hf. eapply safe_weak; [apply safe_u64; lia|]. intros r ->. exact Hf. }
    unfold duration_to_display_value. destruct u, w; cbn [nanos_of] in H1; first [apply safe_ret; lia | apply G; lia].
  Qed.

  Lemma room_next : forall n g c o, 0 <= n -> (n + 1) * (n + 1) * V <= i64_max -> fits_value V o ->
    match c with Some v => Z.abs v <= n * V | None => True end ->
    safe (gauge_next_value g c o) (fun r => match r with Some v => Z.abs v <= (n + 1) * V | None => True end).
  Proof.
    intros n g c o Hn HB Ho Hc. destruct (square_bound (n + 1) V ltac:(lia) HV HB) as [Hv _].
    assert (HnV : 0 <= n * V) by (apply Z.mul_nonneg_nonneg; lia).
    assert (EV : (n + 1) * V = n * V + V) by lia. rewrite EV in Hv.
    assert (Hsome : forall x, (forall z, convert_to_i64 x = Some z -> Z.abs z <= V) ->
      safe (match convert_to_i64 x with Some v => ret (Some v) | None => ret c end)
        (fun r => match r with Some v => Z.abs v <= (n + 1) * V | None => True end)).
    { intros x Hx. destruct (convert_to_i64 x) as [z|]; apply safe_ret; [specialize (Hx z eq_refl); lia|]. destruct c; [lia|exact I]. }
    destruct o as [v|v|v|v|t u|d]; try (exact (Hsome _ Ho)); cbn [gauge_next_value].
    - eapply safe_bind; [apply room_duration; [exact Ho | lia]|]. intros r Hr. apply safe_ret. cbv beta in Hr. rewrite wrap_i64_small by lia. lia.
    - cbn in Ho. destruct c as [c|]; [|apply safe_ret; lia].
      eapply safe_bind; [apply safe_i64; lia|]. intros r ->. apply safe_ret. lia.
  Qed.

  Definition gauge_room (n : Z) (g : gauge) : Prop := tracking_in_bounds g /\ gauge_calm V n g.

  Lemma gauge_room_iff : forall n g, gauge_room n g <->
    (match g_value g with Some v => Z.abs v <= n * V | None => True end) /\ track_calm n (g_tracking g).
  Proof.
    intros n g. unfold gauge_room, tracking_in_bounds, gauge_calm, track_calm, records, ring_ok.
    destruct (g_tracking g); tauto.
  Qed.

  Lemma track_mono : forall n n' t, 0 <= n <= n' -> track_calm n t -> track_calm n' t.
  Proof.
    intros n n' [b|] Hn H; [|exact I]. destruct H as [R [F C]]. split; [exact R|]. split; [|lia].
    apply (Forall_impl _ (P := bucket_calm V n)); [|exact F]. intros x Hx. apply (bucket_calm_mono n); assumption.
  Qed.

  Lemma gauge_room_mono : forall n n' g, 0 <= n <= n' -> gauge_room n g -> gauge_room n' g.
  Proof.
    intros n n' g Hn H. apply gauge_room_iff in H. destruct H as [H1 H2]. apply gauge_room_iff.
    split; [|exact (track_mono _ _ _ Hn H2)]. destruct (g_value g); [|exact I].
    assert (n * V <= n' * V) by (apply Z.mul_le_mono_nonneg_r; lia). lia.
  Qed.

  Lemma room_gauge_set : forall n g o, 0 <= n -> (n + 1) * (n + 1) * V <= i64_max -> fits_value V o -> gauge_room n g ->
    safe (gauge_set g o) (gauge_room (n + 1)).
  Proof.
    intros n g o Hn HB Ho H. pose proof (gauge_room_mono n (n + 1) g ltac:(lia) H) as H'.
    apply gauge_room_iff in H. destruct H as [H1 H2].
    assert (G : safe (let* nv := gauge_next_value g (g_value g) o in
        match nv with
        | Some next_value => let* t := gauge_track (g_tracking g) next_value in ret (gauge_with g (Some next_value) t)
        | None => ret (gauge_with g (g_value g) (g_tracking g))
        end) (gauge_room (n + 1))).
    { eapply safe_bind; [apply (room_next n); assumption|]. intros [v|] Hv.
      - eapply safe_bind; [apply (room_track n); assumption|]. intros t Ht. apply safe_ret, gauge_room_iff. split; assumption.
      - apply safe_ret. destruct g as [a1 a2 a3 a4 a5 a6]. exact H'. }
    unfold gauge_set. destruct (g_value g); exact G.
  Qed.

  Lemma room_gauge : forall n g u, 0 <= n -> (n + 1) * (n + 1) * V <= i64_max -> fits V u -> gauge_room n g ->
    safe (gauge_update g u) (fun r => gauge_room (n + 1) (fst r) /\ 0 <= snd r <= V).
  Proof.
    intros n g u Hn HB Hu H. pose proof (gauge_room_mono n (n + 1) g ltac:(lia) H) as H'.
    destruct u as [m t|t|v t]; cbn [gauge_update]; try (apply safe_ret; split; [exact H' | cbn; lia]).
    eapply safe_bind; [apply (room_gauge_set n); assumption|]. intros g' Hg. apply safe_ret. split; [exact Hg | cbn; lia].
  Qed.

  Lemma room_gauge_put : forall n g de into, 0 <= n -> n * n * V <= i64_max -> gauge_room n g ->
    safe (gauge_put g de into) (fun r => gauge_room n (fst r)).
  Proof.
    intros n g de into Hn HB H.
    assert (P : forall into, safe (gauge_put_values g into) (fun r => gauge_room n (fst r))).
    { intros into'. unfold gauge_put_values. destruct (g_value g) as [v|] eqn:Ev; [|apply safe_ret, H].
      destruct (if g_group_values g then _ else _) as [into'' prefix].
      pose proof H as H'. apply gauge_room_iff in H'. destruct H' as [H1 H2].
      destruct (g_tracking g) as [b|] eqn:Et; [|apply safe_ret, H]. destruct H2 as [R Q].
      eapply safe_bind; [apply (room_from_buckets n); assumption|]. intros [b' st] Hb. cbv zeta. cbn [fst] in Hb.
      assert (G : gauge_room n (gauge_with g (Some v) (Some b'))).
      { apply gauge_room_iff. rewrite Ev in H1. split; [exact H1 | exact Hb]. }
      destruct st; apply safe_ret; exact G. }
    unfold gauge_put. cbv zeta. destruct (g_group_values g); [|apply P].
    eapply safe_bind; [apply P|]. intros [g' l] Hg. apply safe_ret. exact Hg.
  Qed.

  (** ** Meters *)

  Hypothesis Hspan : hi - lo <= u64_max.

  Section Meters.
    Hypothesis Hfive : manageable k lo hi (5 * nanos_per_sec).

    Definition same_count (s s' : std_meter) : Prop := sm_count s' = sm_count s /\ sm_start s' = sm_start s.

    Lemma room_tick_loop : forall n t s, lo <= t <= hi -> t - sm_next_tick s < Z.of_nat n * tick_nanos ->
      safe (std_tick_loop n t s) (same_count s).
    Proof.
      induction n as [|n IH]; intros t s Ht H; cbn [std_tick_loop]; destruct (Z.leb_spec (sm_next_tick s) t);
        try (apply safe_ret; split; reflexivity); [lia|].
      eapply safe_bind.
      { intros c Hc. exists (sm_next_tick s + tick_nanos), c.
        rewrite instant_add_ok by (unfold manageable in Hfive; lia).
        split; [reflexivity|]. split; [exact Hc|]. instantiate (1 := fun r => r = sm_next_tick s + tick_nanos). reflexivity. }
      intros nt ->. eapply safe_weak; [apply IH; [exact Ht|cbn [sm_next_tick]; lia]|]. intros s' E. exact E.
    Qed.

    Lemma room_tick_inner : forall s, safe (std_tick_inner s) (same_count s).
    Proof.
      intros s. unfold std_tick_inner. eapply safe_bind; [apply safe_now|]. intros t Ht.
      apply room_tick_loop; [exact Ht|].
      pose proof (Z.mul_succ_div_gt (t - sm_next_tick s) tick_nanos ltac:(lia)) as Hd.
      destruct (Z.le_gt_cases 0 ((t - sm_next_tick s) / tick_nanos + 1)); [rewrite Z2Nat.id by lia; lia|].
      destruct (Z.to_nat ((t - sm_next_tick s) / tick_nanos + 1)) eqn:E; [cbn; lia|lia].
    Qed.

    Lemma room_maybe_tick : forall m, safe (meter_maybe_tick m) (fun m' => same_count (m_inner m) (m_inner m')).
    Proof.
      intros m. unfold meter_maybe_tick. eapply safe_bind; [apply safe_elapsed|]. intros e _.
      destruct (_ <=? e); [|apply safe_ret; split; reflexivity].
      eapply safe_bind; [apply room_tick_inner|]. intros s Hs. eapply safe_bind; [apply safe_now|]. intros t _.
      apply safe_ret. exact Hs.
    Qed.

    Lemma room_mark : forall n m v, 0 <= n -> (n + 1) * (n + 1) * V <= i64_max -> Z.abs v <= V -> meter_calm lo V n m ->
      safe (meter_mark m v) (meter_calm lo V (n + 1)).
    Proof.
      intros n m v Hn HB Hv [H1 H2]. destruct (square_bound (n + 1) V ltac:(lia) HV HB) as [Hb _].
      rewrite Z.mul_add_distr_r, Z.mul_1_l in Hb. unfold meter_mark, std_mark.
      eapply safe_bind with (P := fun s => Z.abs (sm_count s) <= n * V + V /\ lo <= sm_start s).
      - eapply safe_bind; [apply room_tick_inner|]. intros s [E1 E2].
        eapply safe_bind; [apply safe_i64; lia|]. intros c ->. cbv zeta. apply safe_ret. cbn [sm_count sm_start]. lia.
      - intros s [S1 S2]. apply safe_ret. split; cbn [meter_with m_inner]; lia.
    Qed.

    Lemma meter_calm_mono : forall n n' m, 0 <= n <= n' -> meter_calm lo V n m -> meter_calm lo V n' m.
    Proof.
      intros n n' m Hn [H1 H2]. assert (n * V <= n' * V) by (apply Z.mul_le_mono_nonneg_r; lia). split; lia.
    Qed.

    Lemma room_meter : forall n m u, 0 <= n -> (n + 1) * (n + 1) * V <= i64_max -> fits V u -> meter_calm lo V n m ->
      safe (meter_update m u) (fun r => meter_calm lo V (n + 1) (fst r) /\ 0 <= snd r <= V).
    Proof.
      intros n m u Hn HB Hu H. unfold meter_update. eapply safe_bind; [apply room_maybe_tick|]. intros m' [E1 E2].
      assert (Hm : meter_calm lo V n m') by (destruct H; split; lia).
      assert (G : forall v, Z.abs v <= V -> safe (let* m := meter_mark m' v in ret (m, 1))
        (fun r => meter_calm lo V (n + 1) (fst r) /\ 0 <= snd r <= V)).
      { intros v Hv. eapply safe_bind; [apply (room_mark n); assumption|]. intros m2 H2. apply safe_ret. split; [exact H2 | cbn; lia]. }
      destruct u as [x t|t|v t]; try (apply G; lia).
      cbn in Hu. destruct ((x <=? i64_max) && negb (x =? 0)); [apply G; lia|].
      apply safe_ret. split; [apply (meter_calm_mono n); [lia | exact Hm] | cbn; lia].
    Qed.

    Lemma room_mean : forall s, lo <= sm_start s -> safe (std_mean_inner s) (fun _ => True).
    Proof.
      intros s Hs. unfold std_mean_inner. destruct (sm_count s =? 0); [apply safe_done|].
      eapply safe_bind with (P := fun d => 0 <= d <= u64_max).
      { unfold elapsed. eapply safe_bind; [apply safe_now|]. intros n Hn. cbv beta in Hn. apply safe_ret. lia. }
      intros d Hd. pose proof (Z.div_mod d nanos_per_sec ltac:(lia)) as DM. pose proof (Z.mod_pos_bound d nanos_per_sec ltac:(lia)) as Hr.
      assert (0 <= d / nanos_per_sec) by (apply Z.div_pos; lia). unfold as_secs, subsec_nanos.
      eapply safe_bind; [apply safe_u64; lia|]. intros a ->.
      eapply safe_bind; [apply safe_u64; lia|]. intros b ->. apply safe_done.
    Qed.

    Lemma room_meter_put : forall n m de into, meter_calm lo V n m ->
      safe (meter_put m de into) (fun r => meter_calm lo V n (fst r)).
    Proof.
      intros n m de into [H1 H2]. unfold meter_put, meter_get_snapshot, std_snapshot.
      eapply safe_bind with (P := fun r => meter_calm lo V n (fst r)); [|intros [m' s] Hm; apply safe_ret; exact Hm].
      eapply safe_bind; [apply room_maybe_tick|]. intros m' [E1 E2].
      eapply safe_bind with (P := fun r => Z.abs (sm_count (fst r)) <= n * V /\ lo <= sm_start (fst r)).
      - eapply safe_bind; [apply room_tick_inner|]. intros s [F1 F2].
        eapply safe_bind; [apply room_mean; lia|]. intros x _. apply safe_ret. cbn [fst]. lia.
      - intros [s snap] Hs. cbv zeta. apply safe_ret. exact Hs.
    Qed.

    Lemma room_value_meter : forall n m u, 0 <= n -> (n + 1) * (n + 1) * V <= i64_max -> fits V u -> meter_calm lo V n (vm_meter m) ->
      safe (value_meter_update m u) (fun r => meter_calm lo V (n + 1) (vm_meter (fst r)) /\ 0 <= snd r <= V).
    Proof.
      intros n m u Hn HB Hu H.
      assert (N : safe (ret (m, 0)) (fun r : value_meter * Z => meter_calm lo V (n + 1) (vm_meter (fst r)) /\ 0 <= snd r <= V)).
      { apply safe_ret. split; [apply (meter_calm_mono n); [lia | exact H] | cbn; lia]. }
      assert (G : forall v, Z.abs v <= V -> safe (let* m' := meter_mark (vm_meter m) v in ret (ValueMeter m' (vm_display_time_unit m), 1))
        (fun r => meter_calm lo V (n + 1) (vm_meter (fst r)) /\ 0 <= snd r <= V)).
      { intros v Hv. eapply safe_bind; [apply (room_mark n); assumption|]. intros m2 H2. apply safe_ret. split; [exact H2 | cbn; lia]. }
      assert (C : forall x, (forall z, convert_to_i64 x = Some z -> Z.abs z <= V) ->
        safe (match convert_to_i64 x with
              | Some v => let* m' := meter_mark (vm_meter m) v in ret (ValueMeter m' (vm_display_time_unit m), 1)
              | None => ret (m, 0)
              end) (fun r => meter_calm lo V (n + 1) (vm_meter (fst r)) /\ 0 <= snd r <= V)).
      { intros x Hx. destruct (convert_to_i64 x) as [z|]; [apply G, Hx; reflexivity | exact N]. }
      destruct u as [x t|t|v t]; try exact N. cbn in Hu.
      destruct v as [v|v|v|v|d un|v]; cbn [value_meter_update]; try (exact (C _ Hu)); [|exact N].
      destruct (square_bound (n + 1) V ltac:(lia) HV HB) as [Hv1 _]. rewrite Z.mul_add_distr_r, Z.mul_1_l in Hv1.
      assert (0 <= n * V) by (apply Z.mul_nonneg_nonneg; lia).
      eapply safe_bind; [apply room_duration; [exact Hu | lia]|]. intros r Hr. apply G. cbv beta in Hr. rewrite wrap_i64_small by lia. lia.
    Qed.

    Lemma room_value_meter_put : forall n m de into, meter_calm lo V n (vm_meter m) ->
      safe (value_meter_put m de into) (fun r => meter_calm lo V n (vm_meter (fst r))).
    Proof.
      intros n m de into H. unfold value_meter_put. eapply safe_bind; [apply (room_meter_put n); exact H|]. intros [m' s] Hm.
      apply safe_ret. exact Hm.
    Qed.
  End Meters.
End Buckets.
