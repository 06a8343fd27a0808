From Coq Require Import ZArith Bool String List Lia ZifyBool Arith ZifyNat.
From Verif Require Import Base SpecRun SpecCounting MonadFacts ModelObservation ModelSnapshot ModelBuckets
  ModelGauge SpecTracking BucketsProofs GaugeProofs TrackingProofs.
Import ListNotations.
Open Scope Z_scope.

Lemma is_max_app : forall a b x y, is_max a x -> is_max b y -> is_max (a ++ b) (Z.max x y).
Proof.
  intros a b x y [H1 H2] [H3 H4]. split.
  - apply in_or_app. destruct (Z.max_spec x y) as [[_ ->]|[_ ->]]; auto.
  - apply Forall_app. split; (eapply Forall_impl; [|eassumption]); cbn; lia.
Qed.

Lemma is_min_app : forall a b x y, is_min a x -> is_min b y -> is_min (a ++ b) (Z.min x y).
Proof.
  intros a b x y [H1 H2] [H3 H4]. split.
  - apply in_or_app. destruct (Z.min_spec x y) as [[_ ->]|[_ ->]]; auto.
  - apply Forall_app. split; (eapply Forall_impl; [|eassumption]); cbn; lia.
Qed.

Lemma each_snoc_empty : forall rel ws xs, each rel ws xs -> each rel (ws ++ [[]]) xs.
Proof. induction 1; cbn; constructor; auto. constructor. Qed.

Lemma each_snoc : forall rel ws xs w x, each rel ws xs -> w <> [] -> rel w x ->
  each rel (ws ++ [w]) (xs ++ [x]).
Proof. induction 1; intros; cbn; constructor; auto. constructor. Qed.

Lemma each_nil_iff : forall rel ws xs, each rel ws xs -> (xs = [] <-> concat ws = []).
Proof.
  induction 1 as [|ws xs H IH|w ws x xs Hw Hr H IH]; cbn; [tauto|exact IH|].
  split; [discriminate|]. intros E. apply app_eq_nil in E. tauto.
Qed.

Record acc_ok (ws : list (list Z)) (a : stats_acc) : Prop := AccOk {
  ao_count : sa_total_count a = how_many_values ws;
  ao_sum : sa_total_sum a = wrap_i64 (sum (concat ws));
  ao_ext : exists maxima minima,
    each is_max ws maxima /\ each is_min ws minima
    /\ sa_sum_peak a = wrap_i64 (sum maxima) /\ sa_sum_bottom a = wrap_i64 (sum minima)
    /\ (concat ws = [] ->
        sa_peak a = i64_min /\ sa_peak_min a = i64_max /\ sa_bottom a = i64_max /\ sa_bottom_max a = i64_min)
    /\ (concat ws <> [] ->
        is_max (concat ws) (sa_peak a) /\ is_min maxima (sa_peak_min a)
        /\ is_min (concat ws) (sa_bottom a) /\ is_max minima (sa_bottom_max a))
}.

Lemma acc_init : acc_ok [] stats_init.
Proof.
  constructor; [reflexivity|reflexivity|].
  exists [], []. split; [constructor|]. split; [constructor|]. split; [reflexivity|]. split; [reflexivity|].
  split; [intros _; repeat split|intros H; exfalso; apply H; reflexivity].
Qed.

Lemma stats_step_ok : forall ws a w b k (c c' : clock) a',
  acc_ok ws a -> summarises w b -> Forall in_i64 w ->
  Z.of_nat (length (concat (ws ++ [w]))) <= u64_max ->
  stats_step a b k c = Ok a' c' -> acc_ok (ws ++ [w]) a' /\ c' = c.
Proof.
  intros ws a w b k c c' a' [Hcnt Hsum (mxs & mns & E1 & E2 & Hsp & Hsb & Hemp & Hne)] (Bc & Bs & Bm) Hr Hlen H.
  rewrite concat_app in *. cbn [concat] in *. rewrite app_nil_r in *.
  unfold stats_step in H. destruct w as [|v w].
  - replace (bk_count b =? 0) with true in H by (cbn in Bc; lia). cbn [negb] in H. steps.
    split; [|reflexivity].
    constructor; unfold how_many_values; rewrite ?concat_app; cbn [concat]; rewrite ?app_nil_r; auto.
    exists mxs, mns. auto 7 using each_snoc_empty.
  - destruct Bm as [Bmin Bmax]; [discriminate|].
    replace (bk_count b =? 0) with false in H by (cbn [length] in Bc; lia). cbn [negb] in H.
    set (W := v :: w) in *.
    assert (HmxR : in_i64 (bk_max b)) by (eapply Forall_forall; [exact Hr|apply Bmax]).
    assert (HmnR : in_i64 (bk_min b)) by (eapply Forall_forall; [exact Hr|apply Bmin]).
    repeat (apply bind_ok in H; let x := fresh "x" in let cc := fresh "cc" in let E := fresh "E" in
            destruct H as (x & cc & E & H);
            first [apply i64_arith_inv in E | apply u64_arith_inv in E];
            destruct E as (-> & -> & _)).
    cbv zeta in H. steps. split; [|reflexivity].
    constructor; unfold how_many_values; rewrite ?concat_app; cbn [concat]; rewrite ?app_nil_r.
    + cbn [sa_total_count]. rewrite Hcnt, Bc. unfold how_many_values.
      rewrite app_length in *. rewrite wrap_u64_id; lia.
    + cbn [sa_total_sum]. rewrite Hsum, Bs, wrap_i64_add_l, wrap_i64_add_r, sum_app. reflexivity.
    + exists (mxs ++ [bk_max b]), (mns ++ [bk_min b]).
      split; [apply each_snoc; auto; discriminate|].
      split; [apply each_snoc; auto; discriminate|].
      cbn [sa_sum_peak sa_sum_bottom sa_peak sa_peak_min sa_bottom sa_bottom_max].
      split; [rewrite Hsp, wrap_i64_add_l, sum_app; cbn; f_equal; lia|].
      split; [rewrite Hsb, wrap_i64_add_l, sum_app; cbn; f_equal; lia|].
      split; [intros E; apply app_eq_nil in E; destruct E; discriminate|]. intros _.
      destruct (concat ws) as [|y ys] eqn:Ec.
      * destruct (Hemp eq_refl) as (-> & -> & -> & ->).
        assert (mxs = []) as -> by (apply (each_nil_iff _ _ _ E1); exact Ec).
        assert (mns = []) as -> by (apply (each_nil_iff _ _ _ E2); exact Ec).
        cbn [app]. unfold in_i64 in *.
        rewrite !Z.max_r, !Z.min_r by lia.
        split; [exact Bmax|]. split; [apply is_min_one|]. split; [exact Bmin|apply is_max_one].
      * destruct Hne as (P1 & P2 & P3 & P4); [discriminate|].
        split; [apply is_max_app; assumption|].
        split; [apply is_min_snoc; assumption|].
        split; [apply is_min_app; assumption|apply is_max_snoc; assumption].
Qed.

Lemma stats_fold_ok : forall bs ws ws2 a k (c c' : clock) a',
  acc_ok ws a -> Forall2 summarises ws2 bs -> Forall (Forall in_i64) ws2 ->
  Z.of_nat (length (concat (ws ++ ws2))) <= u64_max ->
  stats_fold bs a k c = Ok a' c' -> acc_ok (ws ++ ws2) a' /\ c' = c.
Proof.
  induction bs as [|b bs IH]; intros ws ws2 a k c c' a' Ha Hs Hr Hlen H.
  - inversion Hs; subst. cbn in H. steps. rewrite app_nil_r. auto.
  - inversion Hs as [|w ? ws2' ? Hw Hws]; subst. inversion Hr; subst. cbn [stats_fold] in H.
    apply bind_ok in H. destruct H as (a1 & c1 & E & H).
    replace (ws ++ w :: ws2') with ((ws ++ [w]) ++ ws2') in * by (rewrite <- app_assoc; reflexivity).
    destruct (stats_step_ok ws a w b k c c1 a1) as (Ha1 & ->); auto.
    { rewrite concat_app, app_length in Hlen. lia. }
    eapply IH; eauto.
Qed.

(** ** The statistics of a tracked gauge *)

Lemma Forall2_map2 : forall A B C (R : B -> C -> Prop) (f : A -> B) (g : A -> C) l,
  (forall x, R (f x) (g x)) -> Forall2 R (map f l) (map g l).
Proof. intros. induction l; cbn; constructor; auto. Qed.

Lemma values_in_Forall : forall (P : Z -> Prop) t0 (l : log) p, Forall (fun e => P (snd e)) l -> Forall P (values_in t0 l p).
Proof.
  intros. unfold values_in. apply Forall_forall. intros x Hx. apply in_map_iff in Hx.
  destruct Hx as ([t v] & <- & Hx). apply filter_In in Hx. destruct Hx as [Hx _].
  rewrite Forall_forall in H. apply (H _ Hx).
Qed.

Lemma window_length_aux : forall t0 (l : log) q n,
  (length (concat (map (fun j => values_in t0 l (q - Z.of_nat j)%Z) (seq 0 n))) <= length l)%nat.
Proof.
  intros t0 l q n. induction l as [|[t v] l IH].
  - induction (seq 0 n) as [|j js IHj]; cbn in *; [lia|exact IHj].
  - assert (Hs : forall js, NoDup js ->
      (length (concat (map (fun j => values_in t0 ((t, v) :: l) (q - Z.of_nat j)%Z) js))
       <= (if existsb (fun j => (interval t0 t =? q - Z.of_nat j)%Z) js then 1 else 0)
          + length (concat (map (fun j => values_in t0 l (q - Z.of_nat j)%Z) js)))%nat).
    { induction js as [|j js IHj]; intros Hnd; cbn [map concat existsb]; [cbn; lia|].
      inversion Hnd; subst. specialize (IHj H2).
      change ((t, v) :: l) with ([(t, v)] ++ l) in *. rewrite values_in_app, values_in_one.
      destruct (Z.eqb_spec (interval t0 t) (q - Z.of_nat j)) as [E|E]; cbn [orb].
      - assert (existsb (fun j0 => interval t0 t =? q - Z.of_nat j0) js = false) as Hf.
        { apply not_true_is_false. intros Hx. apply existsb_exists in Hx. destruct Hx as (j' & Hin & Hj').
          assert (j' = j) by lia. subst. contradiction. }
        rewrite Hf in IHj. rewrite !app_length. cbn [length]. lia.
      - rewrite app_nil_l, !app_length. destruct (existsb _ js); lia. }
    specialize (Hs (seq 0 n) (seq_NoDup _ _)). cbn [length].
    destruct (existsb _ _); lia.
Qed.

Lemma window_length : forall t0 n q (l : log), (length (concat (window t0 n q l)) <= length l)%nat.
Proof. intros. apply window_length_aux. Qed.

Lemma from_buckets_stats : forall b n t0 P m t l k c b' st c' z,
  tracks bucket_default b n t0 P m -> P <= interval t0 t -> t <= c O ->
  (forall p, summarises (values_in t0 l p) (m p)) ->
  Forall (fun e => in_i64 (snd e)) l -> Z.of_nat (length l) <= u64_max ->
  from_buckets b (Some z) k c = Ok (b', st) c' ->
  let ws := window t0 n (c O) l in
  exists s, st = Some s
    /\ (concat ws <> [] -> stats_of ws s)
    /\ (concat ws = [] -> stats_of_nothing z s).
Proof.
  intros b n t0 P m t l k c b' st c' z Ht Hp Hle Hs Hr Hlen E ws.
  unfold from_buckets in E. apply bind_ok in E. destruct E as ([b1 lst] & c1 & E1 & E).
  destruct (iter_tracks _ _ _ _ _ _ _ _ _ _ _ Ht E1) as (Ht1 & Hl & _).
  rewrite (next_is_interval _ _ _ _ Hp Hle) in *.
  apply bind_ok in E. destruct E as (a & c2 & E2 & E).
  assert (Hws : Forall2 summarises ws lst).
  { subst lst ws. unfold window. apply Forall2_map2. intros j. apply Hs. }
  pose proof (window_length t0 n (c O) l) as Hwl. fold ws in Hwl.
  destruct (stats_fold_ok lst [] ws stats_init k c1 c2 a) as (Ha & ->); auto using acc_init.
  { apply Forall_forall. intros w Hw. apply in_map_iff in Hw. destruct Hw as (j & <- & _).
    apply values_in_Forall. exact Hr. }
  { cbn [app]. lia. }
  cbn [app] in Ha. destruct Ha as [Hcnt Hsum (mxs & mns & A1 & A2 & Hsp & Hsb & _ & Hne)].
  assert (Hlen1 : buckets_len b1 = Z.of_nat (length ws)).
  { unfold buckets_len. rewrite (tr_len _ _ _ _ _ _ Ht1). unfold ws, window. rewrite map_length, seq_length. reflexivity. }
  destruct (Z.eqb_spec (sa_total_count a) 0) as [E0|E0]; cbn [negb] in E.
  - steps. eexists. split; [reflexivity|]. split; [|intros _; reflexivity].
    intros Hc. exfalso. apply Hc. rewrite Hcnt in E0. unfold how_many_values in E0.
    destruct (concat ws); [reflexivity|cbn in E0; lia].
  - cbv zeta in E. steps. eexists. split; [reflexivity|].
    assert (Hc : concat ws <> []).
    { intros Hc. apply E0. rewrite Hcnt. unfold how_many_values. rewrite Hc. reflexivity. }
    split; [intros _|intros; contradiction].
    destruct (Hne Hc) as (P1 & P2 & P3 & P4).
    exists mxs, mns. cbn [bs_peak bs_peak_min bs_bottom bs_bottom_max bs_avg bs_peak_avg bs_bottom_avg].
    rewrite Hcnt, Hsum, Hsp, Hsb, Hlen1.
    split; [assumption|]. split; [assumption|]. split; [assumption|]. split; [assumption|].
    split; [assumption|]. split; [assumption|].
    split; [|split]; intros Hfit; rewrite wrap_i64_id by exact Hfit; reflexivity.
Qed.

(** ** The shown items *)

Lemma stats_add_items : forall s into p,
  stats_add_to_snapshot s into p
  = into ++ stats_items (match p with Some x => (x ++ "_")%string | None => ""%string end) s.
Proof.
  intros s into p. unfold stats_add_to_snapshot, push, stats_items. rewrite <- !app_assoc. reflexivity.
Qed.

Lemma history_log_range : forall h k g g' l,
  opt_in_i64 (gauge_get g) ->
  Forall (fun co => match snd co with GObserve u => update_ok u | _ => True end) h ->
  gauge_history k g h = Some (g', l) -> Forall (fun e => in_i64 (snd e)) l.
Proof.
  induction h as [|[c o] h IH]; intros k g g' l Hin Hok E.
  - cbn in E. inversion E; subst. constructor.
  - inversion Hok as [|? ? Hok1 Hok2]; subst. cbn in Hok1. destruct o as [u|d]; cbn [gauge_history] in E.
    + destruct (gauge_update g u k c) as [[g1 r] c1| |] eqn:E1; try discriminate.
      destruct (gauge_history k g1 h) as [[g2 l2]|] eqn:E2; [|discriminate]. inversion E; subst.
      assert (Hin1 : opt_in_i64 (gauge_get g1)).
      { destruct u as [x ts|ts|v ts]; cbn in E1; steps; auto.
        match goal with H : gauge_set _ _ _ _ = Ok _ _ |- _ => apply gauge_set_inv in H;
          destruct H as (nv & c2 & Hn & Hv & _) end.
        unfold gauge_get in *. rewrite Hv.
        pose proof (next_value_range _ _ _ _ _ _ _ Hok1 Hin Hn). destruct nv; auto. }
      apply Forall_app. split; [|eapply IH; eauto].
      destruct u; try constructor. destruct (gauge_get g1) as [z|]; constructor; auto.
    + destruct (gauge_put g d [] k c) as [[g1 r] c1| |] eqn:E1; try discriminate.
      eapply IH; [|eauto|eauto].
      assert (HV : forall into g1 s1 c1, gauge_put_values g into k c = Ok (g1, s1) c1 -> gauge_get g1 = gauge_get g).
      { clear. intros into g1 s1 c1 E. unfold gauge_put_values in E. unfold gauge_get.
        destruct (g_value g) eqn:Ev; [|steps; auto].
        destruct (g_group_values g); destruct (g_tracking g); steps; cbn; auto;
          match goal with H : context [match ?o with Some _ => _ | None => _ end] |- _ => destruct o end; steps; cbn; auto. }
      unfold gauge_put in E1. destruct (g_group_values g); steps; erewrite HV; eauto.
Qed.

Lemma tracked_history : forall g0 n k c0 g1 c1 h g l q,
  opt_in_i64 (gauge_get g0) ->
  gauge_set_tracking g0 (S n) k c0 = Ok g1 c1 ->
  Forall (fun co => match snd co with GObserve u => update_ok u | _ => True end) h ->
  ordered (c0 O) h q ->
  gauge_history k g1 h = Some (g, l) ->
  Z.of_nat (length l) <= u64_max ->
  tracked g (S n) (c0 O) q l
  /\ Forall (fun e => in_i64 (snd e)) l
  /\ g_name g = g_name g0 /\ g_group_values g = g_group_values g0 /\ g_descr g = g_descr g0.
Proof.
  intros g0 n k c0 g1 c1 h g l q Hin Hset Hok Hord Hh Hlen.
  cbn [gauge_set_tracking] in Hset. apply bind_ok in Hset. destruct Hset as (b & c2 & Eb & Hset). steps.
  destruct (buckets_new_tracks _ _ _ _ _ _ Eb) as (Htr & _ & _).
  set (g1 := Gauge (g_name g0) (g_descr g0) (g_value g0) (Some b) (g_display_time_unit g0) (g_group_values g0)) in *.
  assert (T0 : tracked g1 (S n) (c0 O) (c0 O) []).
  { eapply Tracked; [reflexivity|exact Htr| |].
    - unfold interval. rewrite Z.sub_diag. cbn. lia.
    - intros p. split; [apply summarises_empty|reflexivity]. }
  destruct (history_tracked h g1 (S n) (c0 O) (c0 O) [] q k g l T0 Hin Hord Hok Hh Hlen)
    as (T & Hin' & Hname & Hgrp & Hdescr).
  pose proof (history_log_range _ _ _ _ _ (Hin : opt_in_i64 (gauge_get g1)) Hok Hh) as Hrange.
  auto.
Qed.

Lemma tracked_gauge_shows : forall g0 n k c0 g1 c1 h g l q g' s c',
  opt_in_i64 (gauge_get g0) ->
  gauge_set_tracking g0 (S n) k c0 = Ok g1 c1 ->
  Forall (fun co => match snd co with GObserve u => update_ok u | _ => True end) h ->
  ordered (c0 O) h (q O) ->
  gauge_history k g1 h = Some (g, l) ->
  Z.of_nat (length l) <= u64_max ->
  gauge_put g false [] k q = Ok (g', s) c' ->
  let ws := window (c0 O) (S n) (q O) l in
  match gauge_get g with
  | None => s = (if g_group_values g0 then [(g_name g0, ItemSnapshot [])] else [])
  | Some z =>
      exists st,
        s = (if g_group_values g0
             then [(g_name g0, ItemSnapshot (("current"%string, Int z) :: stats_items "" st))]
             else (g_name g0, Int z) :: stats_items (g_name g0 ++ "_") st)
        /\ (concat ws <> [] -> stats_of ws st)
        /\ (concat ws = [] -> stats_of_nothing z st)
  end.
Proof.
  intros g0 n k c0 g1 c1 h g l q g' s c' Hin Hset Hok Hord Hh Hlen Hput ws.
  destruct (tracked_history _ _ _ _ _ _ _ _ _ _ Hin Hset Hok Hord Hh Hlen)
    as (T & Hrange & Hname & Hgrp & Hdescr).
  destruct T as [bb Hbb P m Htrk Hp Hs].
  assert (Hs1 : forall p, summarises (values_in (c0 O) l p) (m p)) by (intros p; apply Hs).
  unfold gauge_put in Hput. cbn [put_postfixed_descriptives] in Hput.
  unfold gauge_put_values in Hput. unfold gauge_get in *. rewrite Hgrp, Hname, Hbb in Hput.
  destruct (g_value g) as [z|] eqn:Ev.
  - destruct (g_group_values g0).
    + apply bind_ok in Hput. destruct Hput as ([g2 s2] & cc & E1 & E2). steps.
      match goal with H : from_buckets _ _ _ _ = Ok (?x, ?o) _ |- _ =>
        destruct (from_buckets_stats _ _ _ _ _ (q O) l _ _ _ _ _ _ Htrk Hp (Z.le_refl _) Hs1 Hrange Hlen H)
          as (st & -> & H1 & H2) end.
      steps. exists st. split; [|auto]. rewrite stats_add_items. reflexivity.
    + steps.
      match goal with H : from_buckets _ _ _ _ = Ok (?x, ?o) _ |- _ =>
        destruct (from_buckets_stats _ _ _ _ _ (q O) l _ _ _ _ _ _ Htrk Hp (Z.le_refl _) Hs1 Hrange Hlen H)
          as (st & -> & H1 & H2) end.
      steps. exists st. split; [|auto]. rewrite stats_add_items. reflexivity.
  - destruct (g_group_values g0); steps; reflexivity.
Qed.

(** The shown items only depend on the log: two histories with the same log and
    the same value show the same at the same time. *)
Lemma from_buckets_same : forall b1 b2 n t0 P1 P2 m1 m2 t l v k c b1' b2' s1 s2 c1 c2,
  tracks bucket_default b1 n t0 P1 m1 -> P1 <= interval t0 t ->
  tracks bucket_default b2 n t0 P2 m2 -> P2 <= interval t0 t -> t <= c O ->
  (forall p, m1 p = content (values_in t0 l p)) ->
  (forall p, m2 p = content (values_in t0 l p)) ->
  from_buckets b1 v k c = Ok (b1', s1) c1 ->
  from_buckets b2 v k c = Ok (b2', s2) c2 -> s1 = s2.
Proof.
  intros b1 b2 n t0 P1 P2 m1 m2 t l v k c b1' b2' s1 s2 c1 c2 T1 H1 T2 H2 Hle M1 M2 E1 E2.
  unfold from_buckets in *.
  apply bind_ok in E1. destruct E1 as ([x1 l1] & d1 & I1 & E1).
  apply bind_ok in E2. destruct E2 as ([x2 l2] & d2 & I2 & E2).
  destruct (iter_tracks _ _ _ _ _ _ _ _ _ _ _ T1 I1) as (U1 & L1 & ->).
  destruct (iter_tracks _ _ _ _ _ _ _ _ _ _ _ T2 I2) as (U2 & L2 & ->).
  rewrite (next_is_interval _ _ _ _ H1 Hle) in *. rewrite (next_is_interval _ _ _ _ H2 Hle) in *.
  assert (l1 = l2) as -> by (subst; apply map_ext; intros; rewrite M1, M2; reflexivity).
  assert (Hlen : buckets_len x1 = buckets_len x2).
  { unfold buckets_len. rewrite (tr_len _ _ _ _ _ _ U1), (tr_len _ _ _ _ _ _ U2). reflexivity. }
  apply bind_ok in E1. destruct E1 as (a1 & e1 & F1 & E1).
  apply bind_ok in E2. destruct E2 as (a2 & e2 & F2 & E2).
  rewrite F1 in F2. injection F2 as -> ->. rewrite Hlen in E1.
  destruct (negb _); [cbv zeta in *; steps; reflexivity|].
  destruct v; steps; reflexivity.
Qed.

Lemma reads_do_not_matter : forall g0 n k c0 g1 c1 h1 h2 ga gb l q ga' gb' sa sb ca cb,
  opt_in_i64 (gauge_get g0) ->
  gauge_set_tracking g0 (S n) k c0 = Ok g1 c1 ->
  Forall (fun co => match snd co with GObserve u => update_ok u | _ => True end) h1 ->
  Forall (fun co => match snd co with GObserve u => update_ok u | _ => True end) h2 ->
  ordered (c0 O) h1 (q O) -> ordered (c0 O) h2 (q O) ->
  gauge_history k g1 h1 = Some (ga, l) -> gauge_history k g1 h2 = Some (gb, l) ->
  gauge_get ga = gauge_get gb ->
  Z.of_nat (length l) <= u64_max ->
  gauge_put ga false [] k q = Ok (ga', sa) ca ->
  gauge_put gb false [] k q = Ok (gb', sb) cb ->
  sa = sb.
Proof.
  intros g0 n k c0 g1 c1 h1 h2 ga gb l q ga' gb' sa sb ca cb Hin Hset Ok1 Ok2 O1 O2 R1 R2 Hv Hlen P1 P2.
  destruct (tracked_history _ _ _ _ _ _ _ _ _ _ Hin Hset Ok1 O1 R1 Hlen) as (T1 & _ & N1 & G1 & _).
  destruct (tracked_history _ _ _ _ _ _ _ _ _ _ Hin Hset Ok2 O2 R2 Hlen) as (T2 & _ & N2 & G2 & _).
  destruct T1 as [b1 B1 Q1 m1 A1 L1 M1]. destruct T2 as [b2 B2 Q2 m2 A2 L2 M2].
  unfold gauge_put in *. cbn [put_postfixed_descriptives] in *.
  unfold gauge_put_values in *. unfold gauge_get in *.
  rewrite G1, N1, B1, Hv in P1. rewrite G2, N2, B2 in P2.
  destruct (g_value gb) as [z|] eqn:Ev.
  - assert (HS : forall x1 s1 d1 x2 s2 d2, from_buckets b1 (Some z) k q = Ok (x1, s1) d1 ->
        from_buckets b2 (Some z) k q = Ok (x2, s2) d2 -> s1 = s2).
    { intros. eapply from_buckets_same; [exact A1|exact L1|exact A2|exact L2|apply Z.le_refl| | |eassumption|eassumption].
      - intros p. apply M1.
      - intros p. apply M2. }
    destruct (g_group_values g0).
    + steps. match goal with X : from_buckets b1 _ _ _ = Ok (_, ?s1) _, Y : from_buckets b2 _ _ _ = Ok (_, ?s2) _ |- _ =>
        assert (s1 = s2) by (eapply HS; eauto); subst; destruct s2 end; steps; reflexivity.
    + steps. match goal with X : from_buckets b1 _ _ _ = Ok (_, ?s1) _, Y : from_buckets b2 _ _ _ = Ok (_, ?s2) _ |- _ =>
        assert (s1 = s2) by (eapply HS; eauto); subst; destruct s2 end; steps; reflexivity.
  - destruct (g_group_values g0); steps; reflexivity.
Qed.

(** ** Relations between the statistics *)

Lemma each_in : forall rel ws xs x, each rel ws xs -> In x xs ->
  exists w, In w ws /\ w <> [] /\ rel w x.
Proof.
  induction 1 as [|ws xs H IH|w ws y xs Hw Hr H IH]; intros Hin.
  - destruct Hin.
  - destruct (IH Hin) as (w & A & B & C). exists w. cbn. auto.
  - destruct Hin as [->|Hin].
    + exists w. cbn. auto.
    + destruct (IH Hin) as (w' & A & B & C). exists w'. cbn. auto.
Qed.

Lemma stats_order : forall ws s, stats_of ws s ->
  bs_bottom s <= bs_bottom_max s /\ bs_peak_min s <= bs_peak s
  /\ bs_bottom s <= bs_peak_min s /\ bs_bottom_max s <= bs_peak s.
Proof.
  intros ws s (mxs & mns & E1 & E2 & [Pi Pa] & [Mi Ma] & [Bi Ba] & [Xi Xa] & _).
  destruct (each_in _ _ _ _ E1 Mi) as (w1 & W1 & _ & [In1 All1]).
  destruct (each_in _ _ _ _ E2 Xi) as (w2 & W2 & _ & [In2 All2]).
  rewrite Forall_forall in Pa, Ba, All1, All2.
  assert (C1 : In (bs_peak_min s) (concat ws)) by (apply in_concat; eauto).
  assert (C2 : In (bs_bottom_max s) (concat ws)) by (apply in_concat; eauto).
  pose proof (Pa _ C1). pose proof (Pa _ C2). pose proof (Ba _ C1). pose proof (Ba _ C2). lia.
Qed.

Lemma each_full_length : forall rel ws xs, each rel ws xs -> Forall (fun w => w <> []) ws ->
  length xs = length ws.
Proof.
  induction 1 as [|ws xs H IH|w ws x xs Hw Hr H IH]; intros F; [reflexivity| |].
  - inversion F; subst. congruence.
  - inversion F; subst. cbn. f_equal. auto.
Qed.

Lemma sum_lower : forall l m, Forall (fun y => m <= y) l -> Z.of_nat (length l) * m <= sum l.
Proof. induction 1; [cbn; lia|]. cbn [sum length]. lia. Qed.

Lemma sum_upper : forall l m, Forall (fun y => y <= m) l -> sum l <= Z.of_nat (length l) * m.
Proof. induction 1; [cbn; lia|]. cbn [sum length]. lia. Qed.

Lemma full_window_averages : forall ws s, stats_of ws s -> Forall (fun w => w <> []) ws ->
  exists maxima minima,
    each is_max ws maxima /\ each is_min ws minima
    /\ length maxima = length ws /\ length minima = length ws
    /\ (in_i64 (sum maxima) ->
        bs_peak_avg s = f64_div (f64_of_Z (sum maxima)) (f64_of_Z (Z.of_nat (length ws))))
    /\ (in_i64 (sum minima) ->
        bs_bottom_avg s = f64_div (f64_of_Z (sum minima)) (f64_of_Z (Z.of_nat (length ws))))
    /\ Z.of_nat (length ws) * bs_peak_min s <= sum maxima <= Z.of_nat (length ws) * bs_peak s
    /\ Z.of_nat (length ws) * bs_bottom s <= sum minima <= Z.of_nat (length ws) * bs_bottom_max s.
Proof.
  intros ws s (mxs & mns & E1 & E2 & [Pi Pa] & [Mi Ma] & [Bi Ba] & [Xi Xa] & _ & A2 & A3) F.
  exists mxs, mns. pose proof (each_full_length _ _ _ E1 F) as L1. pose proof (each_full_length _ _ _ E2 F) as L2.
  split; [assumption|]. split; [assumption|]. split; [assumption|]. split; [assumption|].
  split; [assumption|]. split; [assumption|].
  rewrite Forall_forall in Pa, Ba.
  split; split.
  - rewrite <- L1. apply sum_lower. assumption.
  - rewrite <- L1. apply sum_upper. apply Forall_forall. intros x Hx.
    destruct (each_in _ _ _ _ E1 Hx) as (w & W & _ & [I _]). apply Pa, in_concat. eauto.
  - rewrite <- L2. apply sum_lower. apply Forall_forall. intros x Hx.
    destruct (each_in _ _ _ _ E2 Hx) as (w & W & _ & [I _]). apply Ba, in_concat. eauto.
  - rewrite <- L2. apply sum_upper. assumption.
Qed.
