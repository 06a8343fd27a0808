(** Normal forms of rings and meters at a point in time: what they look like after
    they have caught up with the clock. Two of them that have the same normal form
    cannot be told apart any more. *)
From Coq Require Import ZArith Bool String List Lia ZifyBool Arith ZifyNat.
From Verif Require Import Base SpecRun MonadFacts ModelObservation ModelSnapshot ModelBuckets
  ModelGauge ModelMeter BucketsProofs SpecReads StaysProofs.
Import ListNotations.
Open Scope Z_scope.

(** ** Rings *)

Section Ring.
  Context {T : Type} (dflt : T).

  (** The records, newest first. *)
  Definition view (b : buckets T) : list T :=
    map (fun j => nth (slot b j) (b_buckets b) dflt) (seq 0 (length (b_buckets b))).

  Definition shift (d : nat) (v : list T) : list T := firstn (length v) (repeat dflt d ++ v).

  Definition behind (t : Z) (b : buckets T) : Z := as_secs (Z.max 0 (t - b_current_time b)).

  Definition ring_of (v : list T) (time : Z) : buckets T :=
    match v with [] => Buckets [] 0 O | _ => Buckets (rev v) time (length v - 1)%nat end.

  Definition norm_ring (t : Z) (b : buckets T) : buckets T :=
    ring_of (shift (Z.to_nat (behind t b)) (view b)) (b_current_time b + behind t b * nanos_per_sec).

  Lemma view_length : forall b, length (view b) = length (b_buckets b).
  Proof. intros. unfold view. rewrite map_length, seq_length. reflexivity. Qed.

  Lemma shift_length : forall d v, length (shift d v) = length v.
  Proof. intros. unfold shift. rewrite firstn_length, app_length, repeat_length. lia. Qed.

  Lemma shift_0 : forall v, shift 0 v = v.
  Proof. intros. unfold shift. cbn [repeat app]. apply firstn_all. Qed.

  Lemma firstn_inner : forall n (x y : list T), firstn n (x ++ firstn n y) = firstn n (x ++ y).
  Proof.
    intros. rewrite !firstn_app, firstn_firstn. f_equal. f_equal. lia.
  Qed.

  Lemma shift_add : forall a b v, shift a (shift b v) = shift (a + b) v.
  Proof.
    intros. unfold shift at 1. rewrite shift_length. unfold shift. rewrite firstn_inner, repeat_app, app_assoc.
    reflexivity.
  Qed.

  Lemma shift_all : forall d v, (length v <= d)%nat -> shift d v = map (fun _ => dflt) v.
  Proof.
    intros d v H. unfold shift. rewrite firstn_app, repeat_length.
    replace (length v - d)%nat with O by lia. rewrite app_nil_r.
    replace d with (length v + (d - length v))%nat by lia. rewrite repeat_app, firstn_app, repeat_length.
    replace (length v - length v)%nat with O by lia. rewrite app_nil_r.
    rewrite firstn_all2 by (rewrite repeat_length; lia).
    clear. induction v; cbn; congruence.
  Qed.

  Lemma shift_1 : forall x v, shift 1 (v ++ [x]) = dflt :: v.
  Proof.
    intros. unfold shift. rewrite app_length. cbn [length repeat app]. rewrite Nat.add_1_r. cbn [firstn]. f_equal.
    rewrite firstn_app. rewrite firstn_all, Nat.sub_diag. apply app_nil_r.
  Qed.

  Lemma view_nth : forall b j, (j < length (b_buckets b))%nat ->
    nth j (view b) dflt = nth (slot b j) (b_buckets b) dflt.
  Proof.
    intros b j H. unfold view.
    set (f := fun j => nth (slot b j) (b_buckets b) dflt). change (nth (slot b j) (b_buckets b) dflt) with (f j).
    rewrite (nth_indep _ dflt (f O)) by (rewrite map_length, seq_length; lia).
    rewrite map_nth, seq_nth by lia. reflexivity.
  Qed.

  Lemma list_ext : forall (l l' : list T), length l = length l' ->
    (forall j, (j < length l)%nat -> nth j l dflt = nth j l' dflt) -> l = l'.
  Proof. intros. apply nth_ext with (d := dflt) (d' := dflt); auto. Qed.

  Lemma ring_of_view : forall v time, view (ring_of v time) = v.
  Proof.
    intros [|x v] time; [reflexivity|]. set (l := x :: v).
    change (ring_of l time) with (Buckets (rev l) time (length l - 1)%nat).
    assert (0 < length l)%nat by (unfold l; cbn; lia). clearbody l.
    apply list_ext; [rewrite view_length; cbn; apply rev_length|].
    intros j Hj. rewrite view_length in Hj. cbn [b_buckets] in Hj. rewrite rev_length in Hj.
    rewrite view_nth by (cbn [b_buckets]; rewrite rev_length; exact Hj).
    unfold slot. cbn [b_buckets b_current_idx]. rewrite rev_length.
    replace (length l - 1 + length l - j)%nat with ((length l - 1 - j) + 1 * length l)%nat by lia.
    rewrite Nat.mod_add, Nat.mod_small by lia. rewrite rev_nth by lia. f_equal. lia.
  Qed.

  Lemma ring_of_time : forall v time, v <> [] -> b_current_time (ring_of v time) = time.
  Proof. intros [|x v] time H; [congruence|reflexivity]. Qed.

  Lemma behind_later : forall t t' b, t <= t' ->
    behind t' (Buckets (b_buckets b) (b_current_time b + behind t b * nanos_per_sec) (b_current_idx b))
    = behind t' b - behind t b /\ 0 <= behind t b <= behind t' b.
  Proof.
    intros t t' b H. unfold behind, as_secs. cbn [b_current_time]. set (c := b_current_time b). clearbody c.
    assert (Hn : 0 < nanos_per_sec) by lia. generalize dependent nanos_per_sec. intros s Hs.
    assert (0 <= Z.max 0 (t - c) / s) by (apply Z.div_pos; lia).
    assert (Z.max 0 (t - c) / s <= Z.max 0 (t' - c) / s) by (apply Z.div_le_mono; lia).
    split; [|lia]. destruct (Z.le_gt_cases 0 (t - c)).
    - rewrite (Z.max_r 0 (t - c)) in * by lia. rewrite (Z.max_r 0 (t' - c)) in * by lia.
      pose proof (Z.mul_div_le (t - c) s Hs).
      rewrite Z.max_r by lia.
      replace (t' - (c + (t - c) / s * s)) with (t' - c + (- ((t - c) / s)) * s) by ring.
      rewrite Z.div_add by lia. ring.
    - rewrite (Z.max_l 0 (t - c)) in * by lia. rewrite Z.div_0_l in * by lia.
      replace (c + 0 * s) with c by ring. lia.
  Qed.

  (** [b'] is [b] after it caught up with the clock. *)
  Definition caught_up (t : Z) (b b' : buckets T) : Prop :=
    view b' = shift (Z.to_nat (behind t b)) (view b)
    /\ b_current_time b' = b_current_time b + behind t b * nanos_per_sec.

  Lemma norm_caught_up : forall t t' b b', t <= t' -> caught_up t b b' -> norm_ring t' b' = norm_ring t' b.
  Proof.
    intros t t' b b' H (Hv & Ht). unfold norm_ring.
    assert (Hb : behind t' b' = behind t' b - behind t b /\ 0 <= behind t b <= behind t' b).
    { destruct (behind_later t t' b H) as [E1 E2]. split; [|exact E2]. rewrite <- E1. unfold behind.
      cbn [b_current_time]. rewrite Ht. reflexivity. }
    destruct Hb as [Hb Hb2]. rewrite Hv, shift_add, Hb, Ht.
    f_equal; [f_equal; lia|lia].
  Qed.

  Lemma norm_ring_norm : forall t t' b, t <= t' -> norm_ring t' (norm_ring t b) = norm_ring t' b.
  Proof.
    intros t t' b H. destruct (view b) as [|x v] eqn:E.
    - unfold norm_ring. rewrite E. unfold shift. cbn [length firstn ring_of]. cbn. reflexivity.
    - apply (norm_caught_up t); [exact H|]. unfold caught_up, norm_ring.
      rewrite ring_of_view. split; [reflexivity|]. apply ring_of_time.
      intros E2. apply (f_equal (@length T)) in E2. rewrite shift_length, E in E2. discriminate E2.
  Qed.

  Lemma slot_shifted : forall (bs : list T) time i j n, n = length bs -> (S j <= n)%nat ->
    ((((i + 1) mod n) + n - S j) mod n)%nat = slot (Buckets bs time i) j.
  Proof.
    intros bs time i j n Hn Hj. unfold slot. cbn [b_buckets b_current_idx]. rewrite <- Hn.
    replace ((i + 1) mod n + n - S j)%nat with ((i + 1) mod n + (n - S j))%nat by lia.
    rewrite Nat.add_mod_idemp_l by lia. f_equal. lia.
  Qed.

  Lemma advance_view : forall b k c b' c', advance dflt b k c = Ok b' c' ->
    c' = c /\ view b' = shift 1 (view b) /\ b_current_time b' = b_current_time b.
  Proof.
    intros [bs time i] k c b' c' E. unfold advance in E. cbn [b_buckets b_current_idx b_current_time] in E.
    apply bind_ok in E. destruct E as (i' & c1 & E1 & E). unfold idx in E1. cbn [b_buckets] in E1.
    destruct (length bs) as [|n] eqn:Hn; [discriminate E1|].
    assert (Hi' : i' = ((i + 1) mod S n)%nat /\ c1 = c) by (inversion E1; auto). clear E1.
    destruct Hi' as [Hi' ->].
    apply bind_ok in E. destruct E as (bs' & c1 & E1 & E). injection E as <- <-. unfold index_set in E1.
    assert (Hi : (i' < S n)%nat) by (rewrite Hi'; apply Nat.mod_upper_bound; lia).
    destruct (vec_set_spec bs i' dflt) as (l' & H1 & H2 & H3 & H4); [lia|]. rewrite H1 in E1.
    injection E1 as <- <-. split; [reflexivity|]. split; [|reflexivity]. cbn [b_current_time].
    apply list_ext.
    - rewrite shift_length, !view_length. cbn [b_buckets]. exact H2.
    - rewrite view_length. cbn [b_buckets]. intros j Hj. rewrite view_nth by exact Hj.
      assert (Hshift : shift 1 (view (Buckets bs time i)) = dflt :: removelast (view (Buckets bs time i))).
      { destruct (exists_last (l := view (Buckets bs time i))) as (v & x & ->).
        - intros E. apply (f_equal (@length T)) in E. rewrite view_length in E. cbn in E. lia.
        - rewrite shift_1, removelast_last. reflexivity. }
      rewrite Hshift. rewrite H2, Hn in Hj. cbn [b_buckets]. destruct j as [|j]; cbn [nth].
      + replace (slot (Buckets l' time i') 0) with i'.
        * erewrite nth_error_nth; [reflexivity|exact H3].
        * unfold slot. cbn [b_buckets b_current_idx]. rewrite H2, Hn.
          replace (i' + S n - 0)%nat with (i' + 1 * S n)%nat by lia. rewrite Nat.mod_add, Nat.mod_small by lia.
          reflexivity.
      + assert (Hs : slot (Buckets l' time i') (S j) = slot (Buckets bs time i) j).
        { unfold slot at 1. cbn [b_buckets b_current_idx]. rewrite H2, Hn, Hi'. apply slot_shifted; lia. }
        assert (Hne : slot (Buckets l' time i') (S j) <> i').
        { rewrite slot_eq by (cbn; lia). cbn [b_buckets b_current_idx]. rewrite H2, Hn.
          destruct (Nat.leb_spec (S j) i'); lia. }
        transitivity (nth (slot (Buckets bs time i) j) bs dflt).
        * rewrite <- Hs. rewrite <- !nth_default_eq. unfold nth_default. rewrite H4 by exact Hne. reflexivity.
        * rewrite <- view_nth with (b := Buckets bs time i) by (cbn; lia).
          assert (Hl : length (view (Buckets bs time i)) = S n) by (rewrite view_length; exact Hn).
          destruct (exists_last (l := view (Buckets bs time i))) as (v & x & E).
          { intros E. rewrite E in Hl. discriminate Hl. }
          rewrite E in *. rewrite app_length in Hl. cbn in Hl. rewrite removelast_last.
          apply app_nth1. lia.
  Qed.

  Lemma advance_n_view : forall n b k c b' c', advance_n dflt n b k c = Ok b' c' ->
    c' = c /\ view b' = shift n (view b) /\ b_current_time b' = b_current_time b.
  Proof.
    induction n as [|n IH]; intros b k c b' c' E; cbn [advance_n] in E.
    - injection E as <- <-. rewrite shift_0. auto.
    - apply bind_ok in E. destruct E as (b1 & c1 & E1 & E).
      destruct (advance_view _ _ _ _ _ E1) as (-> & V1 & T1).
      destruct (IH _ _ _ _ _ E) as (-> & V2 & T2). rewrite V2, V1, shift_add, T2, T1.
      split; [reflexivity|]. split; [f_equal; lia|reflexivity].
  Qed.

  Lemma const_map : forall A B (l : list A) (l' : list B), length l = length l' ->
    map (fun _ => dflt) l = map (fun _ => dflt) l'.
  Proof.
    induction l as [|x l IH]; intros [|y l'] H; cbn in *; try discriminate H; [reflexivity|].
    f_equal. apply IH. lia.
  Qed.

  Lemma const_view : forall (bs : list T) time,
    view (Buckets (map (fun _ => dflt) bs) time O) = map (fun _ => dflt) bs.
  Proof.
    intros. apply list_ext; [apply view_length|]. intros j Hj. rewrite view_length in Hj. cbn [b_buckets] in Hj.
    rewrite view_nth by exact Hj. cbn [b_buckets].
    assert (H : forall i, nth i (map (fun _ => dflt) bs) dflt = dflt).
    { clear. induction bs as [|x bs IH]; intros [|i]; cbn; auto. }
    rewrite !H. reflexivity.
  Qed.

  Lemma tick_view : forall b k t b' c, tick dflt b k (frozen t) = Ok b' c ->
    c = frozen t /\ caught_up t b b'.
  Proof.
    intros b k t b' c E. pose proof (tick_stays dflt b k t b' c E) as ->. split; [reflexivity|].
    unfold tick in E. apply bind_ok in E. destruct E as (t0 & c1 & E1 & E). injection E1 as <- <-.
    change (frozen t 0%nat) with t in E. fold (behind t b) in E. unfold caught_up.
    assert (H0 : 0 <= behind t b) by (destruct (behind_later t t b); lia).
    set (d := behind t b) in *. clearbody d.
    destruct (Z.eqb_spec d 0) as [Hd|Hd].
    - subst d. injection E as <-. change (Z.to_nat 0) with O. rewrite shift_0. split; [reflexivity|lia].
    - apply bind_ok in E. destruct E as (t1 & c1 & E1 & E). apply instant_add_inv in E1.
      destruct E1 as (-> & -> & _).
      set (b1 := Buckets (b_buckets b) (b_current_time b + d * nanos_per_sec) (b_current_idx b)) in *.
      assert (Hv1 : view b1 = view b) by reflexivity.
      assert (Ht1 : b_current_time b1 = b_current_time b + d * nanos_per_sec) by reflexivity.
      rewrite <- Ht1, <- Hv1.
      destruct (Z.eqb_spec d 1) as [Hd1|Hd1].
      + subst d. destruct (advance_view _ _ _ _ _ E) as (_ & V & TT). auto.
      + destruct (Z.ltb_spec d (Z.of_nat (length (b_buckets b1)))).
        * destruct (advance_n_view _ _ _ _ _ _ E) as (_ & V & TT). auto.
        * injection E as <-. split; [|reflexivity]. rewrite const_view, shift_all.
          -- apply const_map. rewrite view_length. reflexivity.
          -- rewrite view_length. lia.
  Qed.

  Lemma norm_current : forall t b b', caught_up t b b' -> view b' <> [] ->
    norm_ring t b = ring_of (view b') (b_current_time b').
  Proof. intros t b b' (H1 & H2) _. unfold norm_ring. rewrite <- H1, <- H2. reflexivity. Qed.

  Lemma ring_of_inj : forall v w t s, v <> [] -> ring_of v t = ring_of w s -> v = w /\ t = s.
  Proof.
    intros [|x v] [|y w] t s H E; try congruence.
    - apply (f_equal b_buckets) in E. cbn [ring_of b_buckets] in E. apply (f_equal (@length T)) in E.
      rewrite rev_length in E. discriminate E.
    - unfold ring_of in E. injection E as E1 E2 _. split; [|exact E2].
      apply (f_equal (@rev T)) in E1. change (rev v ++ [x]) with (rev (x :: v)) in E1.
      change (rev w ++ [y]) with (rev (y :: w)) in E1. rewrite !rev_involutive in E1. exact E1.
  Qed.

  Lemma view_head : forall b x k c c', index_get (b_buckets b) (b_current_idx b) k c = Ok x c' ->
    c' = c /\ (b_current_idx b < length (b_buckets b))%nat /\ exists r, view b = x :: r.
  Proof.
    intros b x k c c' E. unfold index_get in E.
    destruct (nth_error (b_buckets b) (b_current_idx b)) as [y|] eqn:En; [|discriminate E]. injection E as -> <-.
    assert (Hi : (b_current_idx b < length (b_buckets b))%nat) by (apply nth_error_Some; congruence).
    split; [reflexivity|]. split; [exact Hi|].
    destruct (view b) as [|y r] eqn:Ev.
    - apply (f_equal (@length T)) in Ev. rewrite view_length in Ev. cbn in Ev. lia.
    - exists r. f_equal. change y with (nth 0 (y :: r) dflt). rewrite <- Ev, view_nth by lia.
      rewrite slot_eq by lia. cbn [Nat.leb]. rewrite Nat.sub_0_r. apply nth_error_nth. exact En.
  Qed.

  Lemma view_set : forall b x k c l c', index_set (b_buckets b) (b_current_idx b) x k c = Ok l c' ->
    c' = c /\ view (Buckets l (b_current_time b) (b_current_idx b)) = x :: tl (view b).
  Proof.
    intros b x k c l c' E. unfold index_set in E.
    destruct (vec_set (b_buckets b) (b_current_idx b) x) as [l'|] eqn:Es; [|discriminate E]. injection E as -> <-.
    split; [reflexivity|].
    destruct (le_lt_dec (length (b_buckets b)) (b_current_idx b)) as [Hi|Hi].
    { exfalso. clear - Es Hi. revert Es Hi. generalize (b_current_idx b), (b_buckets b). intros i bs. revert i l.
      induction bs as [|y bs IH]; intros [|i] l Es Hi; cbn in *; try discriminate Es; [lia|].
      destruct (vec_set bs i x) eqn:E; [|discriminate Es]. apply (IH i l0); [exact E|lia]. }
    destruct (vec_set_spec (b_buckets b) (b_current_idx b) x Hi) as (l' & H1 & H2 & H3 & H4).
    rewrite H1 in Es. injection Es as ->.
    apply list_ext.
    - rewrite view_length. cbn [b_buckets length]. rewrite H2. pose proof (view_length b).
      destruct (view b); cbn in *; lia.
    - rewrite view_length. cbn [b_buckets]. intros j Hj. rewrite view_nth by exact Hj. rewrite H2 in Hj.
      cbn [b_buckets]. rewrite slot_eq by (cbn; lia). cbn [b_buckets b_current_idx]. rewrite H2.
      destruct j as [|j].
      + cbn [Nat.leb nth]. rewrite Nat.sub_0_r. apply nth_error_nth. exact H3.
      + cbn [nth]. transitivity (nth (S j) (view b) dflt).
        * rewrite view_nth by lia. rewrite slot_eq by lia.
          destruct (Nat.leb_spec (S j) (b_current_idx b));
            rewrite <- !nth_default_eq; unfold nth_default; rewrite H4 by lia; reflexivity.
        * destruct (view b); [destruct j|]; reflexivity.
  Qed.

  Lemma current_mut_same : forall (f : T -> M T) t k b1 b2 b1' b2' c1 c2,
    (forall x, stays (f x)) ->
    norm_ring t b1 = norm_ring t b2 ->
    current_mut dflt b1 f k (frozen t) = Ok b1' c1 ->
    current_mut dflt b2 f k (frozen t) = Ok b2' c2 ->
    norm_ring t b1' = norm_ring t b2'.
  Proof.
    intros f t k b1 b2 b1' b2' c1 c2 Hf HE E1 E2. unfold current_mut in E1, E2.
    apply bind_ok in E1. destruct E1 as (a1 & d1 & T1 & E1). apply tick_view in T1. destruct T1 as (-> & V1).
    apply bind_ok in E2. destruct E2 as (a2 & d2 & T2 & E2). apply tick_view in T2. destruct T2 as (-> & V2).
    apply bind_ok in E1. destruct E1 as (x1 & d1 & G1 & E1). apply view_head in G1.
    destruct G1 as (-> & I1 & r1 & R1).
    apply bind_ok in E2. destruct E2 as (x2 & d2 & G2 & E2). apply view_head in G2.
    destruct G2 as (-> & I2 & r2 & R2).
    rewrite (norm_current _ _ _ V1), (norm_current _ _ _ V2) in HE by congruence.
    apply ring_of_inj in HE; [|congruence]. destruct HE as [HV HT].
    assert (x1 = x2) as <- by congruence.
    apply bind_ok in E1. destruct E1 as (y1 & d1 & F1 & E1). apply bind_ok in E2. destruct E2 as (y2 & d2 & F2 & E2).
    pose proof (Hf _ _ _ _ _ F1) as ->. pose proof (Hf _ _ _ _ _ F2) as ->.
    assert (y1 = y2) as <- by congruence.
    apply bind_ok in E1. destruct E1 as (l1 & d1 & S1 & E1). apply bind_ok in E2. destruct E2 as (l2 & d2 & S2 & E2).
    injection E1 as <- <-. injection E2 as <- <-. apply view_set in S1, S2. destruct S1 as [-> S1], S2 as [-> S2].
    unfold norm_ring. rewrite S1, S2, HV. unfold behind. cbn [b_current_time]. rewrite HT. reflexivity.
  Qed.

  Lemma iterator_view : forall b k c xs c',
    bucket_iterator (b_buckets b) (length (b_buckets b)) (b_current_idx b) k c = Ok xs c' -> c' = c /\ xs = view b.
  Proof.
    intros b k c xs c' E. destruct (length (b_buckets b)) as [|n] eqn:Hn.
    - injection E as <- <-. split; [reflexivity|]. unfold view. rewrite Hn. reflexivity.
    - assert (Hi : (b_current_idx b < length (b_buckets b))%nat).
      { cbn [bucket_iterator] in E. apply bind_ok in E. destruct E as (x & c1 & E1 & _).
        apply view_head in E1. tauto. }
      rewrite <- Hn in E.
      rewrite (iterator_spec _ _ _ _ _ _ (fun j => nth (slot b j) (b_buckets b) dflt) eq_refl Hi (le_n _)) in E.
      + injection E as <- <-. split; reflexivity.
      + intros j Hj. rewrite slot_eq by lia. apply nth_error_nth'. destruct (Nat.leb_spec j (b_current_idx b)); lia.
  Qed.

  Lemma iter_same : forall t k b1 b2 b1' b2' xs1 xs2 c1 c2,
    norm_ring t b1 = norm_ring t b2 ->
    iter dflt b1 k (frozen t) = Ok (b1', xs1) c1 ->
    iter dflt b2 k (frozen t) = Ok (b2', xs2) c2 ->
    c1 = frozen t /\ c2 = frozen t /\ xs1 = xs2 /\ buckets_len b1' = buckets_len b2'
    /\ norm_ring t b1' = norm_ring t b1 /\ norm_ring t b2' = norm_ring t b2.
  Proof.
    intros t k b1 b2 b1' b2' xs1 xs2 c1 c2 HE E1 E2. unfold iter in E1, E2.
    apply bind_ok in E1. destruct E1 as (a1 & d1 & T1 & E1). apply tick_view in T1. destruct T1 as (-> & V1).
    apply bind_ok in E2. destruct E2 as (a2 & d2 & T2 & E2). apply tick_view in T2. destruct T2 as (-> & V2).
    apply bind_ok in E1. destruct E1 as (x1 & d1 & I1 & E1). apply iterator_view in I1. destruct I1 as [-> ->].
    apply bind_ok in E2. destruct E2 as (x2 & d2 & I2 & E2). apply iterator_view in I2. destruct I2 as [-> ->].
    injection E1 as <- <- <-. injection E2 as <- <- <-.
    assert (HV : view a1 = view a2).
    { unfold norm_ring in HE. destruct V1 as (V1 & _), V2 as (V2 & _). rewrite <- V1, <- V2 in HE.
      apply (f_equal view) in HE. rewrite !ring_of_view in HE. exact HE. }
    repeat split; auto.
    - unfold buckets_len. apply (f_equal (@length T)) in HV. rewrite !view_length in HV. lia.
    - apply (norm_caught_up t); [lia|exact V1].
    - apply (norm_caught_up t); [lia|exact V2].
  Qed.
End Ring.

(** ** Gauges *)

Definition norm_gauge (t : Z) (g : gauge) : gauge :=
  gauge_with g (g_value g) (option_map (norm_ring bucket_default t) (g_tracking g)).

Lemma norm_gauge_norm : forall t t' g, t <= t' -> norm_gauge t' (norm_gauge t g) = norm_gauge t' g.
Proof.
  intros t t' [n d v tr u gr] H. unfold norm_gauge, gauge_with. cbn. f_equal.
  destruct tr as [b|]; cbn; [|reflexivity]. f_equal. apply norm_ring_norm. exact H.
Qed.

(** ** Meters *)

Definition std_step (s : std_meter) : std_meter :=
  StdMeter (sm_count s) (ewma_tick (sm_e1 s)) (ewma_tick (sm_e5 s)) (ewma_tick (sm_e15 s))
    (sm_next_tick s + tick_nanos) (sm_start s).

Definition due (t : Z) (s : std_meter) : nat := Z.to_nat ((t - sm_next_tick s) / tick_nanos + 1).

Definition norm_std (t : Z) (s : std_meter) : std_meter := Nat.iter (due t s) std_step s.

Lemma iter_step_next : forall n s, sm_next_tick (Nat.iter n std_step s) = sm_next_tick s + Z.of_nat n * tick_nanos.
Proof.
  induction n as [|n IH]; intros s; [cbn; lia|].
  change (Nat.iter (S n) std_step s) with (std_step (Nat.iter n std_step s)). cbn [std_step sm_next_tick].
  rewrite IH. lia.
Qed.

Lemma iter_add : forall A (f : A -> A) a b x, Nat.iter a f (Nat.iter b f x) = Nat.iter (a + b) f x.
Proof. induction a; intros; cbn; [reflexivity|]. f_equal. apply IHa. Qed.

Lemma due_le : forall t n, n <= t -> 0 <= (t - n) / tick_nanos.
Proof. intros. apply Z.div_pos; lia. Qed.

Lemma norm_std_norm : forall t t' s, t <= t' -> norm_std t' (norm_std t s) = norm_std t' s.
Proof.
  intros t t' s H. unfold norm_std at 1. unfold norm_std at 2. rewrite iter_add. unfold norm_std. f_equal.
  unfold due at 1. unfold norm_std. rewrite iter_step_next. unfold due.
  set (n := sm_next_tick s). clearbody n.
  assert (Hm : (t - n) / tick_nanos <= (t' - n) / tick_nanos) by (apply Z.div_le_mono; lia).
  destruct (Z.le_gt_cases 0 ((t - n) / tick_nanos + 1)) as [Hp|Hp].
  - rewrite Z2Nat.id by exact Hp.
    replace (t' - (n + ((t - n) / tick_nanos + 1) * tick_nanos))
      with (t' - n + (- ((t - n) / tick_nanos + 1)) * tick_nanos) by ring.
    rewrite Z.div_add by lia. lia.
  - replace (Z.to_nat ((t - n) / tick_nanos + 1)) with O by lia.
    replace (t' - (n + Z.of_nat 0 * tick_nanos)) with (t' - n) by ring. lia.
Qed.

Lemma loop_catches_up : forall f t s k c s' c', f = due t s ->
  std_tick_loop f t s k c = Ok s' c' -> c' = c /\ s' = norm_std t s.
Proof.
  induction f as [|f IH]; intros t s k c s' c' Hf E; cbn [std_tick_loop] in E.
  - destruct (sm_next_tick s <=? t); [discriminate E|]. injection E as <- <-. split; [reflexivity|].
    unfold norm_std. rewrite <- Hf. reflexivity.
  - destruct (Z.leb_spec (sm_next_tick s) t) as [Hn|Hn].
    + apply bind_ok in E. destruct E as (nt & c1 & E1 & E). apply instant_add_inv in E1.
      destruct E1 as (-> & -> & _).
      fold (std_step s) in E.
      assert (Hf' : f = due t (std_step s)).
      { revert Hf. unfold due. cbn [std_step sm_next_tick]. generalize (sm_next_tick s) Hn. clear. intros n Hn Hf.
        replace (t - (n + tick_nanos)) with (t - n + (-1) * tick_nanos) by ring. rewrite Z.div_add by lia.
        pose proof (due_le t n Hn). lia. }
      destruct (IH _ _ _ _ _ _ Hf' E) as [-> ->]. split; [reflexivity|].
      unfold norm_std. rewrite <- Hf, <- Hf'. clear.
      change (std_step s) with (Nat.iter 1 std_step s). rewrite iter_add. f_equal. lia.
    + exfalso. unfold due in Hf. assert ((t - sm_next_tick s) / tick_nanos < 0) by (apply Z.div_lt_upper_bound; lia).
      lia.
Qed.

Lemma tick_inner_catches_up : forall s k t s' c, std_tick_inner s k (frozen t) = Ok s' c ->
  c = frozen t /\ s' = norm_std t s.
Proof.
  intros s k t s' c E. unfold std_tick_inner in E. apply bind_ok in E. destruct E as (t0 & c1 & E1 & E).
  injection E1 as <- <-. change (frozen t 0%nat) with t in E. apply loop_catches_up in E; [exact E|reflexivity].
Qed.

Definition norm_meter (t : Z) (m : meter) : meter := meter_with m 0 (norm_std t (m_inner m)).

Lemma norm_meter_norm : forall t t' m, t <= t' -> norm_meter t' (norm_meter t m) = norm_meter t' m.
Proof.
  intros t t' m H. unfold norm_meter, meter_with. cbn. f_equal. apply norm_std_norm. exact H.
Qed.

Definition norm_value_meter (t : Z) (m : value_meter) : value_meter :=
  ValueMeter (norm_meter t (vm_meter m)) (vm_display_time_unit m).

Lemma norm_value_meter_norm : forall t t' m, t <= t' ->
  norm_value_meter t' (norm_value_meter t m) = norm_value_meter t' m.
Proof. intros. unfold norm_value_meter. cbn. f_equal. apply norm_meter_norm. assumption. Qed.
