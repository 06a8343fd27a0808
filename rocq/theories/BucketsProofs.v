From Coq Require Import ZArith Bool String List Lia ZifyBool Arith ZifyNat.
From Verif Require Import Base SpecRun MonadFacts ModelBuckets SpecTracking.
Import ListNotations.
Open Scope Z_scope.

Section Buckets.
  Context {T : Type} (default : T).

  Lemma vec_set_spec : forall (l : list T) i x, (i < length l)%nat ->
    exists l', vec_set l i x = Some l' /\ length l' = length l
      /\ nth_error l' i = Some x
      /\ forall j, j <> i -> nth_error l' j = nth_error l j.
  Proof.
    induction l as [|h l IH]; intros i x Hi; cbn in Hi; [lia|].
    destruct i as [|i].
    - exists (x :: l). repeat split. intros [|j] Hj; [lia|reflexivity].
    - destruct (IH i x) as (l' & H1 & H2 & H3 & H4); [lia|].
      exists (h :: l'). cbn. rewrite H1. repeat split; cbn; auto.
      intros [|j] Hj; [reflexivity|]. cbn. apply H4. lia.
  Qed.

  (** Position of the record [j] steps back. *)
  Definition slot (b : buckets T) (j : nat) : nat :=
    ((b_current_idx b + length (b_buckets b) - j) mod length (b_buckets b))%nat.

  (** [b] stores the records [m p] of the intervals [P], [P-1], .. *)
  Record tracks (b : buckets T) (n : nat) (t0 P : Z) (m : Z -> T) : Prop := Tracks {
    tr_len : length (b_buckets b) = n;
    tr_pos : (0 < n)%nat;
    tr_idx : (b_current_idx b < n)%nat;
    tr_time : b_current_time b = t0 + P * 1000000000;
    tr_slots : forall j, (j < n)%nat -> nth_error (b_buckets b) (slot b j) = Some (m (P - Z.of_nat j));
    tr_future : forall p, P < p -> m p = default
  }.

  Lemma slot_lt : forall b j, (0 < length (b_buckets b))%nat -> (slot b j < length (b_buckets b))%nat.
  Proof. intros. unfold slot. apply Nat.mod_upper_bound. lia. Qed.

  (** position of the j-th slot without modulo *)
  Lemma slot_eq : forall b j, (b_current_idx b < length (b_buckets b))%nat -> (j < length (b_buckets b))%nat ->
    slot b j = if (j <=? b_current_idx b)%nat then (b_current_idx b - j)%nat
               else (b_current_idx b + length (b_buckets b) - j)%nat.
  Proof.
    intros b j Hi Hj. unfold slot. set (n := length (b_buckets b)) in *.
    destruct (Nat.leb_spec j (b_current_idx b)).
    - replace (b_current_idx b + n - j)%nat with (b_current_idx b - j + 1 * n)%nat by lia.
      rewrite Nat.mod_add by lia. apply Nat.mod_small. lia.
    - apply Nat.mod_small. lia.
  Qed.

  Lemma advance_tracks : forall b n t0 P m k c,
    tracks b n t0 P m ->
    exists b', advance default b k c = Ok b' c
      /\ b_current_time b' = b_current_time b
      /\ tracks (Buckets (b_buckets b') (b_current_time b' + 1000000000) (b_current_idx b')) n t0 (P + 1) m.
  Proof.
    intros b n t0 P m k c [Hlen Hpos Hidx Htime Hslots Hfut]. unfold advance.
    unfold idx. rewrite Hlen. destruct n as [|n]; [lia|].
    set (i := ((b_current_idx b + 1) mod S n)%nat).
    assert (Hi : (i < S n)%nat) by (apply Nat.mod_upper_bound; lia).
    destruct (vec_set_spec (b_buckets b) i default) as (l' & H1 & H2 & H3 & H4); [lia|].
    eexists. split.
    { unfold bind, ret, index_set. fold i. rewrite H1. reflexivity. }
    split; [reflexivity|].
    assert (Hie : i = if (b_current_idx b + 1 =? S n)%nat then O else (b_current_idx b + 1)%nat).
    { unfold i. destruct (Nat.eqb_spec (b_current_idx b + 1) (S n)) as [->|E].
      - apply Nat.mod_same. lia.
      - apply Nat.mod_small. lia. }
    constructor; cbn [b_buckets b_current_time b_current_idx]; auto; try lia.
    - intros j Hj.
      assert (Hs : slot (Buckets l' (b_current_time b + 1000000000) i) j
                   = match j with O => i | S j' => slot b j' end).
      { rewrite slot_eq by (cbn; lia). cbn [b_buckets b_current_idx]. rewrite H2, Hlen.
        destruct j as [|j'].
        - rewrite Nat.sub_0_r. reflexivity.
        - rewrite slot_eq by (rewrite ?Hlen; lia). rewrite Hlen. rewrite Hie.
          destruct (Nat.eqb_spec (b_current_idx b + 1) (S n)).
          + destruct (Nat.leb_spec (S j') 0); [lia|].
            destruct (Nat.leb_spec j' (b_current_idx b)); lia.
          + destruct (Nat.leb_spec (S j') (b_current_idx b + 1));
              destruct (Nat.leb_spec j' (b_current_idx b)); lia. }
      rewrite Hs. destruct j as [|j'].
      + rewrite H3. f_equal. symmetry. apply Hfut. lia.
      + rewrite H4.
        * rewrite Hslots by lia. do 2 f_equal. lia.
        * rewrite slot_eq by (rewrite ?Hlen; lia). rewrite Hlen, Hie.
          destruct (Nat.eqb_spec (b_current_idx b + 1) (S n));
            destruct (Nat.leb_spec j' (b_current_idx b)); lia.
    - intros p Hp. apply Hfut. lia.
  Qed.

  Lemma advance_n_tracks : forall d b n t0 P m k c,
    tracks b n t0 P m ->
    exists b', advance_n default d b k c = Ok b' c
      /\ b_current_time b' = b_current_time b
      /\ tracks (Buckets (b_buckets b') (b_current_time b' + Z.of_nat d * 1000000000) (b_current_idx b'))
           n t0 (P + Z.of_nat d) m.
  Proof.
    induction d as [|d IH]; intros b n t0 P m k c H.
    - exists b. split; [reflexivity|split; [reflexivity|]].
      replace (b_current_time b + Z.of_nat 0 * 1000000000) with (b_current_time b) by lia.
      replace (P + Z.of_nat 0) with P by lia. destruct b; exact H.
    - destruct (advance_tracks b n t0 P m k c H) as (b1 & E1 & T1 & H1).
      cbn [advance_n]. unfold bind. rewrite E1.
      (* the time of [b1] lags behind: continue with a shifted origin *)
      assert (H1' : tracks b1 n (t0 - 1000000000) (P + 1) m).
      { destruct H1 as [A B C D E F]. cbn [b_buckets b_current_idx b_current_time] in *.
        constructor; auto; lia. }
      destruct (IH b1 n (t0 - 1000000000) (P + 1) m k c H1') as (b2 & E2 & T2 & H2).
      exists b2. split; [exact E2|split; [congruence|]].
      destruct H2 as [A B C D E F]. cbn [b_buckets b_current_idx b_current_time] in *.
      replace (P + Z.of_nat (S d)) with (P + 1 + Z.of_nat d) by lia.
      constructor; cbn [b_buckets b_current_idx b_current_time]; auto; lia.
  Qed.

  Definition next_interval (t0 P t : Z) : Z := Z.max P (interval t0 t).

  Lemma tick_tracks : forall b n t0 P m k c b' c',
    tracks b n t0 P m ->
    tick default b k c = Ok b' c' ->
    tracks b' n t0 (next_interval t0 P (c O)) m /\ c' = clock_tail c.
  Proof.
    intros b n t0 P m k c b' c' H E. unfold tick in E.
    apply bind_ok in E. destruct E as (t & c1 & E1 & E). rewrite now_eq in E1. injection E1. clear E1. intros <- <-.
    pose proof (tr_time _ _ _ _ _ H) as Ht.
    set (d := as_secs (Z.max 0 (c O - b_current_time b))) in *.
    assert (Hd : next_interval t0 P (c O) = P + d /\ 0 <= d).
    { unfold next_interval, interval, d, as_secs. rewrite Ht.
      replace (c O - (t0 + P * 1000000000)) with (c O - t0 - P * 1000000000) by ring.
      destruct (Z.le_ge_cases 0 (c O - t0 - P * 1000000000)).
      - rewrite (Z.max_r 0) by lia.
        replace (c O - t0 - P * 1000000000) with (c O - t0 + (- P) * 1000000000) by ring.
        rewrite Z.div_add by lia.
        assert (P <= (c O - t0) / 1000000000) by (apply Z.div_le_lower_bound; lia). lia.
      - rewrite (Z.max_l 0) by lia. change (0 / 1000000000) with 0.
        assert ((c O - t0) / 1000000000 < P + 1) by (apply Z.div_lt_upper_bound; lia).
        destruct (Z.eq_dec (c O - t0) (P * 1000000000)).
        + rewrite e. rewrite Z.div_mul by lia. lia.
        + lia. }
    destruct Hd as [Hd Hd0]. rewrite Hd. clear Hd. clearbody d.
    destruct (Z.eqb_spec d 0) as [Hdz|Hdn]; [subst d|].
    { steps. split; [|reflexivity]. replace (P + 0) with P by lia. exact H. }
    apply bind_ok in E. destruct E as (t & c1 & E1 & E).
    apply instant_add_inv in E1. destruct E1 as (-> & -> & _).
    cbv zeta in E. cbn [b_buckets] in E.
    set (b0 := Buckets (b_buckets b) (b_current_time b + d * 1000000000) (b_current_idx b)) in *.
    assert (H0 : tracks b0 n (t0 + d * 1000000000) P m).
    { destruct H as [A B C D EE F]. constructor; cbn; auto. lia. }
    destruct (Z.eqb_spec d 1) as [Hd1|Hd1]; [subst d|].
    { destruct (advance_tracks b0 n _ P m k (clock_tail c) H0) as (b1 & Eb & Tb & Hb).
      rewrite Eb in E. steps. split; [|reflexivity].
      destruct Hb as [A B C D EE F]. cbn [b_buckets b_current_idx b_current_time] in *.
      constructor; auto; [rewrite Tb; cbn; lia]. }
    destruct (Z.ltb_spec d (Z.of_nat (length (b_buckets b)))) as [Hlt|Hge].
    { destruct (advance_n_tracks (Z.to_nat d) b0 n _ P m k (clock_tail c) H0) as (b1 & Eb & Tb & Hb).
      rewrite Eb in E. steps. split; [|reflexivity].
      rewrite Z2Nat.id in Hb by lia.
      destruct Hb as [A B C D EE F]. cbn [b_buckets b_current_idx b_current_time] in *.
      constructor; auto. rewrite Tb. cbn. lia. }
    steps. split; [|reflexivity]. destruct H as [A B C D EE F].
    constructor; cbn [b_buckets b_current_idx b_current_time]; auto; try lia.
    - rewrite map_length. exact A.
    - intros j Hj. rewrite F by lia.
      match goal with |- nth_error _ ?s = _ => assert (Hs : (s < n)%nat) end.
      { rewrite <- A, <- (map_length (fun _ : T => default)). apply slot_lt. cbn. rewrite map_length. lia. }
      destruct (nth_error (map (fun _ => default) (b_buckets b)) _) as [x|] eqn:En.
      + apply nth_error_In in En. apply in_map_iff in En. destruct En as (y & <- & _). reflexivity.
      + apply nth_error_None in En. rewrite map_length in En. lia.
    - intros p Hp. apply F. lia.
  Qed.

  Definition set_record (m : Z -> T) (p : Z) (x : T) : Z -> T :=
    fun q => if q =? p then x else m q.

  Lemma current_mut_tracks : forall b n t0 P m (f : T -> M T) k c b' c',
    tracks b n t0 P m ->
    current_mut default b f k c = Ok b' c' ->
    let P' := next_interval t0 P (c O) in
    exists x, f (m P') k (clock_tail c) = Ok x c' /\ tracks b' n t0 P' (set_record m P' x).
  Proof.
    intros b n t0 P m f k c b' c' H E P'. unfold current_mut in E.
    apply bind_ok in E. destruct E as (b1 & c1 & E1 & E).
    destruct (tick_tracks _ _ _ _ _ _ _ _ _ H E1) as (H1 & ->). fold P' in H1. clear H E1.
    destruct H1 as [A B C D EE F].
    pose proof (EE 0%nat ltac:(lia)) as E0.
    rewrite slot_eq in E0 by lia. cbn [Nat.leb] in E0. rewrite Nat.sub_0_r in E0.
    replace (P' - Z.of_nat 0) with P' in E0 by lia.
    apply bind_ok in E. destruct E as (x0 & c2 & E2 & E).
    unfold index_get in E2. rewrite E0 in E2. steps.
    match goal with H : f _ _ _ = Ok ?x ?w |- _ => exists x; rename H into Ef; rename x into y end.
    match goal with H : index_set _ _ _ _ _ = Ok _ _ |- _ => rename H into Es end.
    unfold index_set in Es.
    destruct (vec_set_spec (b_buckets b1) (b_current_idx b1) y) as (l' & V1 & V2 & V3 & V4); [lia|].
    rewrite V1 in Es. steps. split; [exact Ef|].
    constructor; cbn [b_buckets b_current_idx b_current_time]; auto; try lia.
    - intros j Hj. rewrite slot_eq by (cbn; lia). cbn [b_buckets b_current_idx]. rewrite V2.
      pose proof (EE j Hj) as Ej. rewrite slot_eq in Ej by lia.
      unfold set_record. destruct (Z.eqb_spec (P' - Z.of_nat j) P').
      + replace j with 0%nat by lia. cbn [Nat.leb]. rewrite Nat.sub_0_r. exact V3.
      + rewrite <- Ej. apply V4. destruct (Nat.leb_spec j (b_current_idx b1)); lia.
    - intros p Hp. unfold set_record. destruct (Z.eqb_spec p P'); [lia|]. apply F. lia.
  Qed.

  Lemma iterator_spec : forall count (l : list T) i k c n (f : nat -> T),
    length l = n -> (i < n)%nat -> (count <= n)%nat ->
    (forall j, (j < count)%nat ->
       nth_error l (if (j <=? i)%nat then (i - j)%nat else (i + n - j)%nat) = Some (f j)) ->
    bucket_iterator l count i k c = Ok (map f (seq 0 count)) c.
  Proof.
    induction count as [|count IH]; intros l i k c n f Hl Hi Hc Hf; [reflexivity|].
    cbn [bucket_iterator].
    pose proof (Hf 0%nat ltac:(lia)) as H0. cbn [Nat.leb] in H0. rewrite Nat.sub_0_r in H0.
    unfold bind. unfold index_get. rewrite H0. unfold ret at 1.
    rewrite (IH l _ k c n (fun j => f (S j))); auto; try lia.
    - unfold ret. cbn [seq map]. rewrite <- seq_shift, map_map. reflexivity.
    - destruct i; lia.
    - intros j Hj. rewrite <- Hf by lia.
      destruct i as [|i].
      + destruct (Nat.leb_spec (S j) 0); [lia|]. destruct (Nat.leb_spec j (length l - 1)); f_equal; lia.
      + destruct (Nat.leb_spec j i); destruct (Nat.leb_spec (S j) (S i)); f_equal; lia.
  Qed.

  Lemma iter_tracks : forall b n t0 P m k c b' l c',
    tracks b n t0 P m ->
    iter default b k c = Ok (b', l) c' ->
    let P' := next_interval t0 P (c O) in
    tracks b' n t0 P' m /\ l = map (fun j => m (P' - Z.of_nat j)) (seq 0 n) /\ c' = clock_tail c.
  Proof.
    intros b n t0 P m k c b' l c' H E P'. unfold iter in E.
    apply bind_ok in E. destruct E as (b1 & c1 & E1 & E).
    destruct (tick_tracks _ _ _ _ _ _ _ _ _ H E1) as (H1 & ->). fold P' in H1. clear H E1.
    apply bind_ok in E. destruct E as (xs & c2 & E2 & E). steps.
    pose proof H1 as [A B C D EE F]. subst n.
    rewrite (iterator_spec _ _ _ _ _ (length (b_buckets b')) (fun j => m (P' - Z.of_nat j))) in E2; auto; try lia.
    - steps. auto.
    - intros j Hj. rewrite <- EE by lia. f_equal. symmetry. apply slot_eq; lia.
  Qed.

  Lemma buckets_new_tracks : forall n k c b c',
    buckets_new default n k c = Ok b c' ->
    tracks b n (c O) 0 (fun _ => default) /\ c' = clock_tail c /\ (0 < n)%nat.
  Proof.
    intros n k c b c' E. unfold buckets_new, buckets_initialized in E.
    destruct (repeat default n) as [|x l] eqn:Er; [discriminate E|].
    assert (Hl : length (x :: l) = n) by (rewrite <- Er; apply repeat_length).
    assert (Hn : (0 < n)%nat) by (cbn in Hl; lia).
    steps. split; [|split; [reflexivity|assumption]].
    constructor; cbn [b_buckets b_current_idx b_current_time]; auto; try lia; try (cbn [length]; lia).
    intros j Hj.
    match goal with |- nth_error _ ?s = _ => assert (Hs : (s < length (x :: l))%nat) end.
    { apply slot_lt. cbn. lia. }
    destruct (nth_error (x :: l) _) as [y|] eqn:En.
    - apply nth_error_In in En. rewrite <- Er in En. apply repeat_spec in En. subst. reflexivity.
    - apply nth_error_None in En. lia.
  Qed.
End Buckets.
