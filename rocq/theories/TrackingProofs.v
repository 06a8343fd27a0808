From Coq Require Import ZArith Bool String List Lia ZifyBool Arith ZifyNat.
From Verif Require Import Base SpecRun SpecCounting MonadFacts ModelObservation ModelSnapshot ModelBuckets
  ModelGauge SpecTracking BucketsProofs GaugeProofs.
Import ListNotations.
Open Scope Z_scope.

(** ** Summaries of records *)

Definition summarises (vs : list Z) (b : bucket) : Prop :=
  bk_count b = Z.of_nat (length vs)
  /\ bk_sum b = wrap_i64 (sum vs)
  /\ (vs <> [] -> is_min vs (bk_min b) /\ is_max vs (bk_max b)).

Lemma summarises_empty : summarises [] bucket_default.
Proof. repeat split; intros; congruence. Qed.

Lemma is_max_snoc : forall l x v, is_max l x -> is_max (l ++ [v]) (Z.max x v).
Proof.
  intros l x v [Hin Hall]. split.
  - apply in_or_app. destruct (Z.max_spec x v) as [[_ ->]|[_ ->]]; [right; left; reflexivity|left; exact Hin].
  - apply Forall_app. split; [|repeat constructor; lia].
    eapply Forall_impl; [|exact Hall]. cbn. lia.
Qed.

Lemma is_min_snoc : forall l x v, is_min l x -> is_min (l ++ [v]) (Z.min x v).
Proof.
  intros l x v [Hin Hall]. split.
  - apply in_or_app. destruct (Z.min_spec x v) as [[_ ->]|[_ ->]]; [left; exact Hin|right; left; reflexivity].
  - apply Forall_app. split; [|repeat constructor; lia].
    eapply Forall_impl; [|exact Hall]. cbn. lia.
Qed.

Lemma is_max_one : forall v, is_max [v] v.
Proof. split; [left; reflexivity|repeat constructor; lia]. Qed.
Lemma is_min_one : forall v, is_min [v] v.
Proof. split; [left; reflexivity|repeat constructor; lia]. Qed.

Lemma bucket_update_summarises : forall vs b v k (w w' : clock) b',
  summarises vs b -> Z.of_nat (length vs) + 1 <= u64_max ->
  bucket_update b v k w = Ok b' w' -> summarises (vs ++ [v]) b' /\ w' = w.
Proof.
  intros vs b v k w w' b' (Hc & Hs & Hm) Hlen E. unfold bucket_update in E.
  assert (HE : exists mn mx, (if negb (bk_count b =? 0)
        then (Z.min (bk_min b) v, Z.max (bk_max b) v) else (v, v)) = (mn, mx)
        /\ is_min (vs ++ [v]) mn /\ is_max (vs ++ [v]) mx).
  { destruct vs as [|v0 vs].
    - rewrite Hc. cbn. exists v, v. split; [reflexivity|split; [apply is_min_one|apply is_max_one]].
    - destruct Hm as [Hmin Hmax]; [congruence|].
      replace (bk_count b =? 0) with false by (cbn in Hc; lia). cbn [negb].
      eexists _, _. split; [reflexivity|]. split; [apply is_min_snoc|apply is_max_snoc]; assumption. }
  destruct HE as (mn & mx & HE & Hmin & Hmax). rewrite HE in E.
  apply bind_ok in E. destruct E as (s & w1 & E1 & E). apply i64_arith_inv in E1. destruct E1 as (-> & -> & _).
  apply bind_ok in E. destruct E as (n & w1 & E1 & E). apply u64_arith_inv in E1. destruct E1 as (-> & -> & _).
  steps. split; [|reflexivity]. repeat split; cbn [bk_count bk_sum bk_min bk_max].
  - rewrite Hc, wrap_u64_id by lia. rewrite app_length. cbn. lia.
  - rewrite Hs, wrap_i64_add_l, sum_app. cbn. f_equal. lia.
  - apply Hmin.
  - apply Hmin.
  - apply Hmax.
  - apply Hmax.
Qed.

(** The update without overflow checks. *)
Definition pure_update (b : bucket) (v : Z) : bucket :=
  let '(mn, mx) :=
    if negb (bk_count b =? 0) then (Z.min (bk_min b) v, Z.max (bk_max b) v) else (v, v) in
  Bucket (wrap_i64 (bk_sum b + v)) (wrap_u64 (bk_count b + 1)) mn mx.

Lemma bucket_update_pure : forall b v k (w w' : clock) b',
  bucket_update b v k w = Ok b' w' -> b' = pure_update b v.
Proof.
  intros b v k w w' b' E. unfold bucket_update, pure_update in *.
  destruct (if negb _ then _ else _) as [mn mx].
  apply bind_ok in E. destruct E as (s & w1 & E1 & E). apply i64_arith_inv in E1. destruct E1 as (-> & -> & _).
  apply bind_ok in E. destruct E as (n & w1 & E1 & E). apply u64_arith_inv in E1. destruct E1 as (-> & -> & _).
  steps. reflexivity.
Qed.

Definition content (vs : list Z) : bucket := fold_left pure_update vs bucket_default.

(** ** The log *)

Lemma values_in_app : forall t0 (a b : log) p, values_in t0 (a ++ b) p = values_in t0 a p ++ values_in t0 b p.
Proof. intros. unfold values_in. rewrite filter_app, map_app. reflexivity. Qed.

Lemma values_in_one : forall t0 t (v : Z) p,
  values_in t0 [(t, v)] p = if interval t0 t =? p then [v] else [].
Proof. intros. unfold values_in. cbn. destruct (interval t0 t =? p); reflexivity. Qed.

Lemma values_in_length : forall t0 (l : log) p, (length (values_in t0 l p) <= length l)%nat.
Proof.
  intros. unfold values_in. rewrite map_length.
  induction l as [|x l IH]; cbn; [lia|]. destruct (_ =? p); cbn; lia.
Qed.

Lemma interval_mono : forall t0 a b, a <= b -> interval t0 a <= interval t0 b.
Proof. intros. unfold interval. apply Z.div_le_mono; lia. Qed.

(** ** The invariant of a tracked gauge *)

Inductive tracked (g : gauge) (n : nat) (t0 t : Z) (l : log) : Prop :=
| Tracked : forall b (Hb : g_tracking g = Some b) P m,
    tracks bucket_default b n t0 P m -> P <= interval t0 t ->
    (forall p, summarises (values_in t0 l p) (m p) /\ m p = content (values_in t0 l p)) ->
    tracked g n t0 t l.

Lemma next_is_interval : forall t0 P t t', P <= interval t0 t -> t <= t' ->
  next_interval t0 P t' = interval t0 t'.
Proof. intros. unfold next_interval. pose proof (interval_mono t0 t t'). lia. Qed.

Lemma tracked_record : forall b n t0 P m t v l k c b' c',
  tracks bucket_default b n t0 P m -> P <= interval t0 t -> t <= c O ->
  (forall p, summarises (values_in t0 l p) (m p) /\ m p = content (values_in t0 l p)) ->
  Z.of_nat (length l) + 1 <= u64_max ->
  current_mut bucket_default b (fun x => bucket_update x v) k c = Ok b' c' ->
  exists m', tracks bucket_default b' n t0 (interval t0 (c O)) m'
    /\ forall p, summarises (values_in t0 (l ++ [(c O, v)]) p) (m' p)
                 /\ m' p = content (values_in t0 (l ++ [(c O, v)]) p).
Proof.
  intros b n t0 P m t v l k c b' c' Ht Hp Hle Hs Hlen E.
  pose proof (current_mut_tracks _ _ _ _ _ _ _ _ _ _ _ Ht E) as H. cbv zeta in H.
  rewrite (next_is_interval _ _ _ _ Hp Hle) in H. destruct H as (x & Ex & Hx).
  eexists. split; [exact Hx|]. intros p. rewrite values_in_app, values_in_one. unfold set_record.
  destruct (Z.eqb_spec p (interval t0 (c O))) as [->|Hne].
  - rewrite Z.eqb_refl. destruct (Hs (interval t0 (c O))) as [Hs1 Hs2]. split.
    + refine (proj1 (bucket_update_summarises _ _ _ _ _ _ _ Hs1 _ Ex)).
      pose proof (values_in_length t0 l (interval t0 (c O))). lia.
    + unfold content. rewrite fold_left_app. cbn. apply bucket_update_pure in Ex. subst x.
      f_equal. exact Hs2.
  - replace (interval t0 (c O) =? p) with false by lia. rewrite app_nil_r. apply Hs.
Qed.

(** ** Values stay in the range of i64 *)

Lemma convert_range : forall v z, observed_value_ok v -> convert_to_i64 v = Some z -> in_i64 z.
Proof.
  intros v z Hok H. destruct v as [x|x|f|b|t a|d]; cbn in *; try discriminate.
  - injection H as <-. exact Hok.
  - unfold in_i64, in_u64 in *. destruct (Z.leb_spec x i64_max); inversion H; lia.
  - destruct (f64_leb _ _); [|discriminate]. injection H as <-.
    unfold round_as, in_i64. destruct f as [s|[|]| |s m e]; try lia. unfold clamp. lia.
Qed.

Lemma next_value_range : forall g cur v k (w w' : clock) nv,
  observed_value_ok v -> opt_in_i64 cur ->
  gauge_next_value g cur v k w = Ok nv w' -> opt_in_i64 nv.
Proof.
  intros g cur v k w w' nv Hok Hc H. destruct v as [x|x|f|b|t a|d]; cbn [gauge_next_value] in H.
  1-4: match type of H with match ?e with _ => _ end _ _ = _ => destruct e eqn:Ec end;
       steps; [apply (convert_range _ _ Hok Ec)|exact Hc].
  - steps. apply wrap_i64_range.
  - destruct cur; steps; [|exact Hok].
    match goal with A : add_i64 _ _ _ _ = _ |- _ => apply i64_arith_inv in A; destruct A as (_ & -> & _) end.
    apply wrap_i64_range.
Qed.

(** [gauge_set] when tracking: the new value is recorded. *)
Lemma gauge_set_tracked : forall g v b k c g' c',
  g_tracking g = Some b -> gauge_set g v k c = Ok g' c' ->
  exists nv, gauge_next_value g (g_value g) v k c = Ok nv c
    /\ match nv with
       | Some z => g_value g' = Some z /\
           exists b', current_mut bucket_default b (fun x => bucket_update x z) k c = Ok b' c'
                      /\ g_tracking g' = Some b'
       | None => g' = g /\ c' = c
       end
    /\ g_name g' = g_name g /\ g_group_values g' = g_group_values g
    /\ g_descr g' = g_descr g /\ g_display_time_unit g' = g_display_time_unit g.
Proof.
  intros g v b k c g' c' Hb E. unfold gauge_set in E.
  destruct (g_value g) as [val|] eqn:Ev.
  all: apply bind_ok in E; destruct E as (nv & c1 & E1 & E);
       pose proof (gauge_next_value_clock _ _ _ _ _ _ _ _ E1); subst c1;
       exists nv; split; [exact E1|].
  all: destruct nv as [z|].
  all: rewrite ?Hb in E; try (apply bind_ok in E; destruct E as (t & c2 & E2 & E));
       cbn [gauge_track] in *; steps; cbn; repeat split; eauto.
  all: destruct g; cbn in *; subst; reflexivity.
Qed.

Lemma gauge_update_tracked : forall g u n t0 t l k c g' r c',
  tracked g n t0 t l -> opt_in_i64 (gauge_get g) -> update_ok u -> t <= c O ->
  Z.of_nat (length l) + 1 <= u64_max ->
  gauge_update g u k c = Ok (g', r) c' ->
  tracked g' n t0 (c O)
    (l ++ match u, gauge_get g' with ObservationWithValue _ _, Some v => [(c O, v)] | _, _ => [] end)
  /\ opt_in_i64 (gauge_get g')
  /\ g_name g' = g_name g /\ g_group_values g' = g_group_values g /\ g_descr g' = g_descr g.
Proof.
  intros g u n t0 t l k c g' r c' [b Hb P m Htr Hp Hs] Hin Hok Hle Hlen E.
  pose proof (interval_mono t0 t (c O) Hle) as Hmono.
  destruct u as [x ts|ts|v ts]; cbn in E.
  1-2: steps; rewrite app_nil_r; split; [|auto]; eapply Tracked; eauto; lia.
  apply bind_ok in E. destruct E as (g1 & c1 & E & E1). steps.
  destruct (gauge_set_tracked _ _ _ _ _ _ _ Hb E) as (nv & Env & Hnv & H1 & H2 & H3 & H4).
  pose proof (next_value_range _ _ _ _ _ _ _ Hok Hin Env) as Hr.
  destruct nv as [z|].
  - destruct Hnv as (Hv & b' & Eb & Hb'). unfold gauge_get. rewrite Hv.
    destruct (tracked_record _ _ _ _ _ _ _ _ _ _ _ _ Htr Hp Hle Hs Hlen Eb) as (m' & Ht' & Hs').
    split; [|auto]. eapply Tracked; eauto. lia.
  - destruct Hnv as (-> & ->).
    assert (Hnone : gauge_get g = None).
    { clear - Env. unfold gauge_get. destruct (g_value g) as [z|]; [|reflexivity]. exfalso.
      destruct v; cbn [gauge_next_value] in Env;
        try (match type of Env with match ?e with _ => _ end _ _ = _ => destruct e end);
        steps; try discriminate; try congruence. }
    rewrite Hnone, app_nil_r. split; [|repeat split; auto].
    eapply Tracked; eauto. lia.
Qed.

(** ** Reading *)

Lemma gauge_put_tracked : forall g d s n t0 t l k c g' s' c',
  tracked g n t0 t l -> t <= c O ->
  gauge_put g d s k c = Ok (g', s') c' ->
  tracked g' n t0 (c O) l /\ gauge_get g' = gauge_get g
  /\ g_name g' = g_name g /\ g_group_values g' = g_group_values g /\ g_descr g' = g_descr g.
Proof.
  intros g d s n t0 t l k c g' s' c' [b Hb P m Htr Hp Hs] Hle E.
  pose proof (interval_mono t0 t (c O) Hle) as Hmono.
  assert (HV : forall into g1 s1 c1, gauge_put_values g into k c = Ok (g1, s1) c1 ->
    tracked g1 n t0 (c O) l /\ gauge_get g1 = gauge_get g
    /\ g_name g1 = g_name g /\ g_group_values g1 = g_group_values g /\ g_descr g1 = g_descr g).
  { intros into g1 s1 c1 E1. unfold gauge_put_values in E1.
    destruct (g_value g) as [z|] eqn:Ev.
    - rewrite Hb in E1.
      assert (E2 : exists b' st c2 , from_buckets b (Some z) k c = Ok (b', st) c2
                     /\ g1 = gauge_with g (g_value g) (Some b')).
      { rewrite Ev. destruct (g_group_values g); apply bind_ok in E1;
          destruct E1 as ([b' [st|]] & c2 & E2 & E3); steps; eauto 6. }
      destruct E2 as (b' & st & c2 & E2 & ->). unfold from_buckets in E2.
      apply bind_ok in E2. destruct E2 as ([b1 lst] & c3 & E3 & E2).
      destruct (iter_tracks _ _ _ _ _ _ _ _ _ _ _ Htr E3) as (Ht1 & _ & _).
      rewrite (next_is_interval _ _ _ _ Hp Hle) in Ht1.
      assert (b' = b1).
      { apply bind_ok in E2. destruct E2 as (a & c4 & _ & E2).
        destruct (negb _); steps; auto. }
      subst b'. split; [|cbn; rewrite ?Ev; auto].
      eapply Tracked; eauto; [reflexivity|lia].
    - steps. split; [|auto]. eapply Tracked; eauto. lia. }
  unfold gauge_put in E. destruct (g_group_values g) eqn:Eg.
  - apply bind_ok in E. destruct E as ([g1 s1] & c1 & E1 & E). steps.
    rewrite <- Eg. rewrite Eg. eapply HV; eauto.
  - eapply HV; eauto.
Qed.

Lemma history_tracked : forall h g n t0 t l0 q k g' l,
  tracked g n t0 t l0 -> opt_in_i64 (gauge_get g) -> ordered t h q ->
  Forall (fun co => match snd co with GObserve u => update_ok u | _ => True end) h ->
  gauge_history k g h = Some (g', l) ->
  Z.of_nat (length (l0 ++ l)) <= u64_max ->
  tracked g' n t0 q (l0 ++ l) /\ opt_in_i64 (gauge_get g')
  /\ g_name g' = g_name g /\ g_group_values g' = g_group_values g /\ g_descr g' = g_descr g.
Proof.
  induction h as [|[c o] h IH]; intros g n t0 t l0 q k g' l Ht Hin Ho Hok E Hlen.
  - cbn in E. inversion E; subst. inversion Ho; subst. rewrite app_nil_r.
    split; [|auto]. destruct Ht as [b Hb P m A B C]. eapply Tracked; eauto.
    pose proof (interval_mono t0 t q). lia.
  - inversion Ho as [|? ? ? ? ? Hle Ho2]; subst. inversion Hok as [|? ? Hok1 Hok2]; subst. cbn in Hok1.
    destruct o as [u|d]; cbn [gauge_history] in E.
    + destruct (gauge_update g u k c) as [[g1 r] c1| |] eqn:E1; try discriminate.
      destruct (gauge_history k g1 h) as [[g2 l2]|] eqn:E2; [|discriminate].
      inversion E; subst.
      match type of E with Some (_, ?e ++ _) = _ => set (entry := e) in * end.
      rewrite app_assoc in *.
      assert (He : (length l0 + 1 <= length l0 + length entry + length l2)%nat \/ entry = []).
      { destruct entry; [right; reflexivity|left; cbn; lia]. }
      assert (Hlen1 : Z.of_nat (length l0) + 1 <= u64_max \/ entry = []).
      { destruct He as [He|He]; [left|right; exact He].
        rewrite !app_length in Hlen. lia. }
      destruct Hlen1 as [Hlen1|Hnil].
      * destruct (gauge_update_tracked _ _ _ _ _ _ _ _ _ _ _ Ht Hin Hok1 Hle Hlen1 E1) as (T1 & I1 & N1 & G1 & D1).
        fold entry in T1.
        destruct (IH _ _ _ _ _ _ _ _ _ T1 I1 Ho2 Hok2 E2 Hlen) as (A & B & C & D & F).
        repeat split; auto; congruence.
      * (* nothing was recorded: no bound needed *)
        assert (T1 : tracked g1 n t0 (c O) l0 /\ opt_in_i64 (gauge_get g1)
                     /\ g_name g1 = g_name g /\ g_group_values g1 = g_group_values g /\ g_descr g1 = g_descr g).
        { pose proof (interval_mono t0 t (c O) Hle) as Hmono.
          destruct u as [x ts|ts|v ts].
          1-2: cbn in E1; steps; split; [|auto]; destruct Ht as [b Hb P m A B C]; eapply Tracked; eauto; lia.
          destruct Ht as [b Hb P m A B C]. cbn in E1.
          apply bind_ok in E1. destruct E1 as (g3 & c3 & E1 & E3). steps.
          destruct (gauge_set_tracked _ _ _ _ _ _ _ Hb E1) as (nv & Env & Hnv & H1 & H2 & H3 & H4).
          destruct nv as [z|].
          - destruct Hnv as (Hv & _). exfalso. unfold entry, gauge_get in Hnil. rewrite Hv in Hnil. discriminate.
          - destruct Hnv as (-> & ->). split; [|auto]. eapply Tracked; eauto. lia. }
        destruct T1 as (T1 & I1 & N1 & G1 & D1). rewrite Hnil, app_nil_r in *.
        destruct (IH _ _ _ _ _ _ _ _ _ T1 I1 Ho2 Hok2 E2 Hlen) as (A & B & C & D & F).
        repeat split; auto; congruence.
    + destruct (gauge_put g d [] k c) as [[g1 r] c1| |] eqn:E1; try discriminate.
      destruct (gauge_put_tracked _ _ _ _ _ _ _ _ _ _ _ _ Ht Hle E1) as (T1 & V1 & N1 & G1 & D1).
      rewrite <- V1 in Hin.
      destruct (IH _ _ _ _ _ _ _ _ _ T1 Hin Ho2 Hok2 E Hlen) as (A & B & C & D & F).
      repeat split; auto; congruence.
Qed.
