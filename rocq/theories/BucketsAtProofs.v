(** Windows whose records are changed by their time. *)
From Coq Require Import ZArith Bool String List Lia ZifyBool Arith ZifyNat.
From Verif Require Import Base SpecRun MonadFacts ModelBuckets ModelBucketsAt SpecTracking SpecBucketsAt BucketsProofs.
Import ListNotations.
Open Scope Z_scope.

Section At.
  Context {T : Type} (default : T).
  Notation tracks := (tracks default).

  Lemma tracks_ext : forall b n t0 P m m', (forall p, m p = m' p) -> tracks b n t0 P m -> tracks b n t0 P m'.
  Proof.
    intros b n t0 P m m' H [A B C D E F]. constructor; auto.
    - intros j Hj. rewrite E by exact Hj. f_equal. apply H.
    - intros p Hp. rewrite <- H. apply F, Hp.
  Qed.

  Lemma slot_inj : forall (b : buckets T) i j, (b_current_idx b < length (b_buckets b))%nat ->
    (i < length (b_buckets b))%nat -> (j < length (b_buckets b))%nat -> slot b i = slot b j -> i = j.
  Proof.
    intros b i j H Hi Hj E. rewrite !slot_eq in E by assumption.
    destruct (Nat.leb_spec i (b_current_idx b)), (Nat.leb_spec j (b_current_idx b)); lia.
  Qed.

  Lemma get_at_tracks : forall b n t0 P m w u k c b' found c',
    tracks b n t0 P m -> get_at_mut default b w (fun v => ret (u v)) k c = Ok (b', found) c' ->
    let s := Z.max P (second_of t0 (c O)) in
    c' = clock_tail c
    /\ found = ((s - Z.of_nat n <? second_up t0 w) && (second_up t0 w <=? s))
    /\ tracks b' n t0 s (if found then change m (second_up t0 w) u else m).
  Proof.
    intros b n t0 P m w u k c b' found c' H E s. unfold get_at_mut in E.
    apply bind_ok in E. destruct E as (b1 & c1 & E1 & E).
    destruct (tick_tracks _ _ _ _ _ _ _ _ _ _ H E1) as (H1 & ->). clear H E1.
    change (next_interval t0 P (c O)) with s in H1.
    pose proof H1 as [A B C D EE F].
    assert (Hd : as_secs (b_current_time b1 - w) = s - second_up t0 w).
    { unfold as_secs, second_up, second_of. rewrite D.
      replace (t0 + s * 1000000000 - w) with (t0 - w + s * 1000000000) by ring. rewrite Z.div_add by lia. lia. }
    assert (Hw : (b_current_time b1 <? w) = (s <? second_up t0 w)).
    { unfold as_secs in Hd.
      pose proof (Z.div_mod (b_current_time b1 - w) nanos_per_sec ltac:(lia)) as M.
      pose proof (Z.mod_pos_bound (b_current_time b1 - w) nanos_per_sec ltac:(lia)) as M2.
      destruct (Z.ltb_spec (b_current_time b1) w), (Z.ltb_spec s (second_up t0 w)); lia. }
    rewrite Hw in E. set (p := second_up t0 w) in *. clearbody p.
    destruct (Z.ltb_spec s p) as [G|G].
    { steps. split; [reflexivity|]. split; [lia|]. exact H1. }
    cbv zeta in E. rewrite Hd, A in E.
    destruct (Z.leb_spec (Z.of_nat n) (s - p)) as [G2|G2].
    { steps. split; [reflexivity|]. split; [lia|]. exact H1. }
    set (j := Z.to_nat (s - p)) in *. assert (Hj : (j < n)%nat) by lia.
    assert (Hi : idx b1 (n + b_current_idx b1 - j) k (clock_tail c) = Ok (slot b1 j) (clock_tail c)).
    { unfold idx, slot. rewrite A. destruct n as [|n]; [lia|]. unfold ret. do 2 f_equal. lia. }
    apply bind_ok in E. destruct E as (i & c2 & E2 & E). rewrite Hi in E2. injection E2 as <- <-.
    pose proof (EE j Hj) as Ej. replace (s - Z.of_nat j) with p in Ej by lia.
    apply bind_ok in E. destruct E as (x & c3 & E3 & E). unfold index_get in E3. rewrite Ej in E3. injection E3 as <- <-.
    apply bind_ok in E. destruct E as (y & c4 & E4 & E). injection E4 as <- <-.
    apply bind_ok in E. destruct E as (bs & c5 & E5 & E). unfold index_set in E5.
    assert (Hs : (slot b1 j < length (b_buckets b1))%nat) by (apply slot_lt; lia).
    destruct (vec_set_spec (b_buckets b1) (slot b1 j) (u (m p)) Hs) as (l' & V1 & V2 & V3 & V4).
    rewrite V1 in E5. injection E5 as <- <-. injection E as <- <- <-.
    split; [reflexivity|]. split; [lia|].
    constructor; cbn [b_buckets b_current_idx b_current_time]; auto; try lia.
    - intros i Hi'.
      assert (Hsl : slot (Buckets l' (b_current_time b1) (b_current_idx b1)) i = slot b1 i).
      { unfold slot. cbn [b_buckets b_current_idx]. rewrite V2. reflexivity. }
      rewrite Hsl. unfold change. destruct (Z.eqb_spec (s - Z.of_nat i) p) as [G3|G3].
      + replace i with j by lia. rewrite V3. f_equal. f_equal. f_equal. lia.
      + rewrite <- (EE i Hi'). apply V4. intros E. apply slot_inj in E; lia.
    - intros q Hq. unfold change. destruct (Z.eqb_spec q p); [lia|]. apply F, Hq.
  Qed.

  Lemma use_tracks : forall b n t0 P m x k c b' a c',
    tracks b n t0 P m -> use_window default b x k c = Ok (b', a) c' ->
    let r := write n t0 (Book P m) (c O) x in
    c' = clock_tail c /\ a = snd r /\ tracks b' n t0 (newest (fst r)) (records (fst r)).
  Proof.
    intros b n t0 P m x k c b' a c' H E. destruct x as [u|w u|]; cbn [use_window] in E; cbn [write newest records].
    - apply bind_ok in E. destruct E as (b1 & c1 & E1 & E). injection E as <- <- <-.
      destruct (current_mut_tracks default _ _ _ _ _ _ _ _ _ _ H E1) as (y & Ey & Hb). injection Ey as <- <-.
      split; [reflexivity|]. split; [reflexivity|]. cbn [fst newest records].
      eapply tracks_ext; [|exact Hb]. intros p. unfold set_record, change.
      change (next_interval t0 P (c O)) with (Z.max P (second_of t0 (c O))).
      destruct (Z.eqb_spec p (Z.max P (second_of t0 (c O)))) as [-> | _]; reflexivity.
    - apply bind_ok in E. destruct E as ([b1 fd] & c1 & E1 & E). injection E as <- <- <-.
      destruct (get_at_tracks _ _ _ _ _ _ _ _ _ _ _ _ H E1) as (-> & Hf & Hb). cbv zeta in *.
      rewrite <- Hf. destruct fd; (split; [reflexivity|]; split; [reflexivity|]; exact Hb).
    - apply bind_ok in E. destruct E as ([b1 l] & c1 & E1 & E). injection E as <- <- <-.
      destruct (iter_tracks default _ _ _ _ _ _ _ _ _ _ H E1) as (Hb & -> & ->).
      split; [reflexivity|]. split; [reflexivity|]. exact Hb.
  Qed.

  (** The times of a clock *)
  Lemma use_all_tracks : forall l b n t0 P m k c r c',
    tracks b n t0 P m -> use_all default b l k c = Ok r c' ->
    r = write_all n t0 (Book P m) (map c (seq 0 (length l))) l.
  Proof.
    induction l as [|x l IH]; intros b n t0 P m k c r c' H E; cbn [use_all] in E.
    - injection E as <- <-. reflexivity.
    - apply bind_ok in E. destruct E as ([b1 a] & c1 & E1 & E).
      apply bind_ok in E. destruct E as (r1 & c2 & E2 & E). injection E as <- <-.
      destruct (use_tracks _ _ _ _ _ _ _ _ _ _ _ H E1) as (-> & -> & Hb).
      cbn [length seq map write_all]. destruct (write n t0 (Book P m) (c O) x) as [[P' m'] a] eqn:W.
      cbn [fst snd newest records] in *. f_equal.
      rewrite (IH _ _ _ _ _ _ _ _ _ Hb E2). f_equal. rewrite <- seq_shift, map_map. reflexivity.
  Qed.

  Lemma used_window : forall n l k c b c1 r c2,
    buckets_new default n k c = Ok b c1 -> use_all default b l k c1 = Ok r c2 ->
    r = write_all n (c O) (Book 0 (fun _ => default)) (map c (seq 1 (length l))) l.
  Proof.
    intros n l k c b c1 r c2 E1 E2. destruct (buckets_new_tracks default _ _ _ _ _ E1) as (H & -> & _).
    rewrite (use_all_tracks _ _ _ _ _ _ _ _ _ _ H E2). f_equal. rewrite <- seq_shift, map_map. reflexivity.
  Qed.

  (** ** Whole seconds *)

  Lemma whole_second : forall t0 s, second_up t0 (t0 + s * nanos_per_sec) = s /\ second_of t0 (t0 + s * nanos_per_sec) = s.
  Proof.
    intros t0 s. unfold second_up, second_of.
    replace (t0 - (t0 + s * 1000000000)) with ((- s) * 1000000000) by ring.
    replace (t0 + s * 1000000000 - t0) with (s * 1000000000) by ring. rewrite !Z.div_mul by lia. lia.
  Qed.

  Lemma other_times : forall t0 t, (t - t0) mod nanos_per_sec <> 0 -> second_up t0 t = second_of t0 t + 1.
  Proof.
    intros t0 t H. unfold second_up, second_of.
    replace (t0 - t) with (- (t - t0)) by ring. rewrite Z.div_opp_l_nz by (lia || exact H). lia.
  Qed.

  Fixpoint book_after (n : nat) (t0 : Z) (k : book T) (times : list Z) (l : list (use T)) : book T :=
    match times, l with
    | t :: times, x :: l => book_after n t0 (fst (write n t0 k t x)) times l
    | _, _ => k
    end.

  Lemma write_app : forall n t0 times l k times' l', length times = length l ->
    write_all n t0 k (times ++ times') (l ++ l')
    = write_all n t0 k times l ++ write_all n t0 (book_after n t0 k times l) times' l'.
  Proof.
    intros n t0. induction times as [|t times IH]; intros [|x l] k times' l' H; try discriminate H; [reflexivity|].
    cbn [app write_all book_after]. destruct (write n t0 k t x) as [k' a]. cbn [fst app]. f_equal. apply IH.
    injection H as ->. reflexivity.
  Qed.

  Lemma newest_write : forall n t0 (k : book T) t x, newest (fst (write n t0 k t x)) = Z.max (newest k) (second_of t0 t).
  Proof. intros n t0 k t [u|w u|]; cbn; try reflexivity. destruct (_ && _); reflexivity. Qed.

  Lemma newest_after : forall n t0 s times l k, newest k <= s -> Forall (fun t => second_of t0 t <= s) times ->
    newest (book_after n t0 k times l) <= s.
  Proof.
    intros n t0 s times l k Hk F. revert l k Hk. induction F as [|t times Ht F IH]; intros [|x l] k Hk; cbn [book_after]; try exact Hk.
    apply IH. rewrite newest_write. lia.
  Qed.

  Lemma second_mono : forall t0 a b, a <= b -> second_of t0 a <= second_of t0 b.
  Proof. intros t0 a b H. unfold second_of. apply Z.div_le_mono; lia. Qed.

  Lemma change_found : forall n l k c b c1 r c2 s x v,
    (forall i j, (i <= j)%nat -> c i <= c j) ->
    let t := c (S (length l)) in let later := c (S (S (S (length l)))) in
    t = c O + s * nanos_per_sec -> later < t + Z.of_nat n * nanos_per_sec ->
    buckets_new default n k c = Ok b c1 ->
    use_all default b (l ++ [Record (fun _ => x); Amend t v; Look]) k c1 = Ok r c2 ->
    exists before shown, r = before ++ [Done; Amended true; Shown shown]
      /\ nth_error shown (Z.to_nat (second_of t later)) = Some (v x).
  Proof.
    intros n l k c b c1 r c2 s x v Hc t later Ht Hl E1 E2.
    pose proof (used_window n _ k c b c1 r c2 E1 E2) as R. set (N := length l) in *.
    set (t0 := c O) in *. destruct (whole_second t0 s) as [U O']. rewrite <- Ht in U, O'.
    rewrite app_length in R. cbn [length] in R. fold N in R.
    rewrite seq_app, map_app in R. cbn [Nat.add seq map] in R.
    replace (S N) with (1 + N)%nat in R by lia.
    rewrite write_app in R by (rewrite map_length, seq_length; reflexivity).
    set (kk := book_after _ _ _ _ _) in R.
    assert (Hn : newest kk <= s).
    { unfold kk. apply newest_after.
      - cbn. pose proof (Hc 0%nat (S N) ltac:(lia)) as H0. fold t0 t in H0. lia.
      - apply Forall_map, Forall_forall. intros i Hi. apply in_seq in Hi. rewrite <- O'. apply second_mono. apply Hc. fold N. lia. }
    cbn [Nat.add] in R. fold t later in R. set (t2 := c (S (S N))) in R.
    assert (M2 : s <= second_of t0 t2) by (rewrite <- O'; apply second_mono, Hc; fold N; lia).
    assert (M3 : second_of t0 t2 <= second_of t0 later) by (apply second_mono, Hc; fold N; lia).
    assert (L : second_of t0 later = s + second_of t later).
    { unfold second_of. rewrite Ht. replace (later - (t0 + s * 1000000000)) with (later - t0 + (- s) * 1000000000) by ring.
      rewrite Z.div_add by lia. lia. }
    assert (B : 0 <= second_of t later < Z.of_nat n).
    { split; [lia|]. unfold second_of. apply Z.div_lt_upper_bound; lia. }
    cbn [write_all write newest records] in R. rewrite O', U in R.
    replace (Z.max (newest kk) s) with s in R by lia.
    replace (Z.max s (second_of t0 t2)) with (second_of t0 t2) in R by lia.
    replace ((second_of t0 t2 - Z.of_nat n <? s) && (s <=? second_of t0 t2)) with true in R by lia.
    cbn [newest records] in R.
    replace (Z.max (second_of t0 t2) (second_of t0 later)) with (second_of t0 later) in R by lia.
    eexists. eexists. split; [exact R|]. unfold reads. rewrite nth_error_map.
    rewrite (nth_error_nth' _ 0%nat) by (rewrite seq_length; lia). rewrite seq_nth by lia. cbn [option_map Nat.add].
    replace (second_of t0 later - Z.of_nat (Z.to_nat (second_of t later))) with s by lia.
    unfold change. rewrite Z.eqb_refl. reflexivity.
  Qed.
End At.
