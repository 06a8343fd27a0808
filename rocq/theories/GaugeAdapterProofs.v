From Coq Require Import ZArith QArith Bool String List Lia ZifyBool Floats.SpecFloat.
From Verif Require Import Base SpecRun SpecCounting SpecObservation SpecGauge MonadFacts
  ModelObservation ModelLabelFilter ModelSnapshot ModelBuckets ModelGauge
  ObservationProofs FloatProofs GaugeProofs.
Import ListNotations.
Open Scope Z_scope.

Section Proofs.
  Context {L : Type} (eqb : L -> L -> bool).

  Definition picked (pick : observation L -> option (Z * Z)) (o : observation L) : list Z :=
    match pick o with Some (d, _) => [d] | None => [] end.

  Definition handles_by (a : gauge_adapter L) (pick : observation L -> option (Z * Z)) : Prop :=
    forall g o k c,
      ga_handle eqb (ga_with a g) o k c
      = match pick o with
        | None => Ok (ga_with a g, 0) c
        | Some (d, t) =>
            (let* '(g', n) := gauge_update g (ObservationWithValue (ChangedBy d) t) in
             ret (ga_with a g', n)) k c
        end.

  Lemma changed_by_app : forall d ds v,
    changed_by ds (changed_by [d] v) = changed_by (d :: ds) v.
  Proof. intros d [|d2 ds] [z|]; cbn; try reflexivity; f_equal; ring. Qed.

  Lemma changed_by_cons : forall d ds v,
    wrap_opt (changed_by ds (wrap_opt (changed_by [d] v))) = wrap_opt (changed_by (d :: ds) v).
  Proof.
    intros d ds v. rewrite <- (changed_by_app d ds v).
    generalize (changed_by [d] v). intros [z|].
    - destruct ds as [|d2 ds]; cbn; f_equal.
      + apply wrap_i64_id, wrap_i64_range.
      + apply wrap_i64_add_l.
    - destruct ds; reflexivity.
  Qed.

  Lemma ga_run_changes : forall pick os a g k c a' ns c',
    handles_by a pick ->
    Forall (fun o => Forall in_i64 (picked pick o)) os ->
    opt_in_i64 (gauge_get g) ->
    run_all (ga_handle eqb) (ga_with a g) os k c = Ok (a', ns) c' ->
    gauge_get (ga_gauge a') = wrap_opt (changed_by (flat_map (picked pick) os) (gauge_get g))
    /\ ns = map (fun o => Z.of_nat (length (picked pick o))) os.
  Proof.
    intros pick os a. induction os as [|o os IH]; intros g k c a' ns c' Hh Hd Hin H.
    - cbn in H. steps. cbn. split; [|reflexivity].
      unfold gauge_get in *. destruct (g_value g) as [z|]; cbn; [|reflexivity].
      rewrite wrap_i64_id; [reflexivity|exact Hin].
    - cbn [run_all] in H. apply bind_ok in H. destruct H as ([a1 n1] & w1 & H1 & H).
      apply bind_ok in H. destruct H as ([a2 n2] & w2 & H2 & H). steps.
      inversion Hd as [|? ? Hd1 Hd2]; subst.
      rewrite Hh in H1. cbn [flat_map map]. unfold picked in *. destruct (pick o) as [[d t]|] eqn:Ep.
      + apply bind_ok in H1. destruct H1 as ([g1 n] & w2 & H1 & E1). steps.
        inversion Hd1; subst.
        destruct (gauge_update_value _ _ (Changes d) _ _ _ _ _
                    (ltac:(cbn; assumption) : update_ok (ObservationWithValue (ChangedBy d) t))
                    (eff_with_value _ _ t _ (eff_change _ d)) Hin H1)
          as (Hv & _ & _ & _ & _ & Hn & Hi).
        destruct (IH _ _ _ _ _ _ Hh Hd2 Hi H2) as (Hv2 & Hns).
        split; [|subst; reflexivity].
        rewrite Hv2. unfold gauge_get in *. rewrite Hv. cbn [app].
        rewrite <- changed_by_cons. do 2 f_equal. destruct (g_value g); cbn; f_equal; f_equal; ring.
      + steps. destruct (IH _ _ _ _ _ _ Hh Hd2 Hin H2) as (Hv2 & Hns).
        split; [exact Hv2|subst; reflexivity].
  Qed.

  (** In a release build, and whenever the values fit, nothing panics. *)
  Lemma ga_run_total : forall pick os a g k c,
    handles_by a pick -> g_tracking g = None ->
    Forall (fun o => Forall in_i64 (picked pick o)) os ->
    opt_in_i64 (gauge_get g) ->
    overflow_checks k = false
    \/ (forall p s, os = p ++ s -> opt_in_i64 (changed_by (flat_map (picked pick) p) (gauge_get g))) ->
    exists a' ns, run_all (ga_handle eqb) (ga_with a g) os k c = Ok (a', ns) c.
  Proof.
    intros pick os a. induction os as [|o os IH]; intros g k c Hh Hn Hd Hin Hk.
    - cbn. eexists _, _. reflexivity.
    - inversion Hd as [|? ? Hd1 Hd2]; subst. cbn [run_all].
      unfold bind at 1. rewrite Hh. unfold picked in Hd1. destruct (pick o) as [[d t]|] eqn:Ep.
      + inversion Hd1; subst.
        destruct (gauge_update_untracked_panics g (ObservationWithValue (ChangedBy d) t) (Changes d) k c)
          as [Hex _]; auto.
        { apply eff_with_value, eff_change. }
        destruct Hex as (g1 & Hg1 & Hn1).
        { destruct Hk as [Hk|Hk]; [right; assumption|left].
          specialize (Hk [o] os eq_refl). unfold picked in Hk. cbn in Hk. rewrite Ep in Hk. cbn in Hk.
          unfold gauge_get in Hk. destruct (g_value g); cbn in *; unfold in_i64 in *; lia. }
        unfold bind at 1. rewrite Hg1. unfold ret at 1.
        assert (Hv : gauge_get g1 = wrap_opt (changed_by [d] (gauge_get g)) /\ opt_in_i64 (gauge_get g1)).
        { destruct (gauge_update_value _ _ (Changes d) _ _ _ _ _
                    (ltac:(cbn; assumption) : update_ok (ObservationWithValue (ChangedBy d) t))
                    (eff_with_value _ _ t _ (eff_change _ d)) Hin Hg1)
          as (Hv & _ & _ & _ & _ & _ & Hi). split; [|exact Hi]. unfold gauge_get. rewrite Hv.
          destruct (g_value g); cbn; repeat f_equal; ring. }
        destruct Hv as [Hv Hi].
        destruct (IH g1 k c Hh Hn1 Hd2 Hi) as (a' & ns & Hr).
        { destruct Hk as [Hk|Hk]; [left; assumption|right]. pose proof Hk as Hk1.
          intros p s Hp. specialize (Hk (o :: p) s). cbn [flat_map] in Hk. unfold picked at 1 in Hk.
          rewrite Ep in Hk. cbn [app] in Hk.
          assert (Hs : opt_in_i64 (changed_by [d] (gauge_get g))).
          { specialize (Hk1 [o] os eq_refl). unfold picked in Hk1. cbn in Hk1. rewrite Ep in Hk1. exact Hk1. }
          rewrite Hv. replace (wrap_opt (changed_by [d] (gauge_get g))) with (changed_by [d] (gauge_get g)).
          2:{ destruct (changed_by [d] (gauge_get g)); cbn; [|reflexivity].
              rewrite wrap_i64_id; [reflexivity|exact Hs]. }
          rewrite changed_by_app. apply Hk. subst. reflexivity. }
        unfold bind at 1. rewrite Hr. eexists _, _. reflexivity.
      + destruct (IH g k c Hh Hn Hd2 Hin) as (a' & ns & Hr).
        { destruct Hk as [Hk|Hk]; [left; assumption|right].
          intros p s Hp. specialize (Hk (o :: p) s). cbn [flat_map] in Hk. unfold picked at 1 in Hk.
          rewrite Ep in Hk. apply Hk. subst. reflexivity. }
        unfold bind. rewrite Hr. eexists _, _. reflexivity.
  Qed.

  (** ** Deltas only *)

  Definition pick_delta (f : label_filter L) (m : update_modifier L) (o : observation L) : option (Z * Z) :=
    let '(l, u) := split_observation o in
    if accepts eqb f l then
      match modify m l u with
      | ObservationWithValue (ChangedBy d) t => Some (d, t)
      | _ => None
      end
    else None.

  Lemma deltas_only_handles : forall f m g,
    handles_by (GaugeAdapter (GDeltasOnly f) g m) (pick_delta f m).
  Proof.
    intros f m g g0 o k c. unfold ga_handle, pick_delta, ga_with. cbn.
    destruct (split_observation o) as [l u]. destruct (accepts eqb f l); cbn; [|reflexivity].
    destruct (modify m l u) as [| |v t]; try reflexivity.
    destruct v; reflexivity.
  Qed.

  Lemma picked_delta : forall f m o,
    picked (pick_delta f m) o = accepted_change (accepts eqb f) (modify m) o.
  Proof.
    intros. unfold picked, pick_delta, accepted_change.
    destruct (split_observation o) as [l u]. destruct (accepts eqb f l); [|reflexivity].
    destruct (modify m l u) as [| |v t]; try reflexivity. destruct v; reflexivity.
  Qed.

  Lemma flat_map_ext' : forall A B (f g : A -> list B) l,
    (forall x, f x = g x) -> flat_map f l = flat_map g l.
  Proof. intros A B f g l H. induction l; cbn; [reflexivity|]. rewrite H, IHl. reflexivity. Qed.

  Lemma deltas_only_value : forall f m g os k c a' ns c',
    opt_in_i64 (gauge_get g) ->
    Forall (fun o => Forall in_i64 (accepted_change (accepts eqb f) (modify m) o)) os ->
    run_all (ga_handle eqb) (GaugeAdapter (GDeltasOnly f) g m) os k c = Ok (a', ns) c' ->
    let ds := accepted_changes (accepts eqb f) (modify m) os in
    gauge_get (ga_gauge a') = option_map wrap_i64 (changed_by ds (gauge_get g))
    /\ ns = map (fun o => Z.of_nat (length (accepted_change (accepts eqb f) (modify m) o))) os.
  Proof.
    intros f m g os k c a' ns c' Hin Hd H ds.
    destruct (ga_run_changes (pick_delta f m) os (GaugeAdapter (GDeltasOnly f) g m) g k c a' ns c')
      as [Hv Hn]; auto.
    - apply deltas_only_handles.
    - eapply Forall_impl; [|exact Hd]. intros o Ho. rewrite picked_delta. exact Ho.
    - rewrite Hv, Hn. split.
      + unfold ds, accepted_changes. rewrite (flat_map_ext' _ _ _ _ os (picked_delta f m)). reflexivity.
      + apply map_ext. intros o. rewrite picked_delta. reflexivity.
  Qed.

  Lemma deltas_only_exact : forall f m g os k c,
    opt_in_i64 (gauge_get g) -> g_tracking g = None ->
    Forall (fun o => Forall in_i64 (accepted_change (accepts eqb f) (modify m) o)) os ->
    (forall p s, os = p ++ s ->
       opt_in_i64 (changed_by (accepted_changes (accepts eqb f) (modify m) p) (gauge_get g))) ->
    exists a' ns, run_all (ga_handle eqb) (GaugeAdapter (GDeltasOnly f) g m) os k c = Ok (a', ns) c
      /\ gauge_get (ga_gauge a')
         = changed_by (accepted_changes (accepts eqb f) (modify m) os) (gauge_get g).
  Proof.
    intros f m g os k c Hin Ht Hd Hp.
    destruct (ga_run_total (pick_delta f m) os (GaugeAdapter (GDeltasOnly f) g m) g k c) as (a' & ns & Hr); auto.
    - apply deltas_only_handles.
    - eapply Forall_impl; [|exact Hd]. intros o Ho. rewrite picked_delta. exact Ho.
    - right. intros p s E. rewrite (flat_map_ext' _ _ _ _ p (picked_delta f m)). exact (Hp p s E).
    - exists a', ns. split; [exact Hr|].
      destruct (deltas_only_value _ _ _ _ _ _ _ _ _ Hin Hd Hr) as [Hv _]. rewrite Hv.
      specialize (Hp os [] (eq_sym (app_nil_r os))).
      destruct (changed_by _ _); cbn; [|reflexivity]. rewrite wrap_i64_id; [reflexivity|exact Hp].
  Qed.

  (** ** Increment and decrement on labels *)

  Definition pick_inc_dec (inc dec : label_filter L) (o : observation L) : option (Z * Z) :=
    let l := fst (split_observation o) in
    if accepts eqb inc l then Some (1, obs_timestamp o)
    else if accepts eqb dec l then Some (-1, obs_timestamp o)
    else None.

  Lemma inc_dec_handles : forall inc dec m g,
    handles_by (GaugeAdapter (GIncDecOnLabels inc dec) g m) (pick_inc_dec inc dec).
  Proof.
    intros inc dec m g g0 o k c. unfold ga_handle, pick_inc_dec, ga_with. cbn.
    destruct (split_observation o) as [l u]. cbn.
    destruct (accepts eqb inc l); [reflexivity|].
    destruct (accepts eqb dec l); reflexivity.
  Qed.

  Definition only_dec (inc dec : label_filter L) (l : L) : bool :=
    negb (accepts eqb inc l) && accepts eqb dec l.

  Lemma how_many_cons : forall p (o : observation L) os,
    how_many p (o :: os) = (if p (fst (split_observation o)) then 1 else 0) + how_many p os.
  Proof.
    intros. unfold how_many. cbn [filter]. destruct (p _); cbn [length]; lia.
  Qed.

  Lemma inc_dec_sum : forall inc dec os,
    sum (flat_map (picked (pick_inc_dec inc dec)) os)
    = how_many (accepts eqb inc) os - how_many (only_dec inc dec) os.
  Proof.
    intros. induction os as [|o os IH]; [reflexivity|].
    cbn [flat_map]. rewrite sum_app, IH, !how_many_cons. unfold picked, pick_inc_dec, only_dec.
    destruct (accepts eqb inc _); cbn [negb andb sum].
    - lia.
    - destruct (accepts eqb dec _); cbn [sum]; lia.
  Qed.

  Lemma inc_dec_length : forall inc dec os,
    Z.of_nat (length (flat_map (picked (pick_inc_dec inc dec)) os))
    = how_many (accepts eqb inc) os + how_many (only_dec inc dec) os.
  Proof.
    intros. induction os as [|o os IH]; [reflexivity|].
    cbn [flat_map]. rewrite app_length, Nat2Z.inj_add, IH, !how_many_cons.
    unfold picked, pick_inc_dec, only_dec.
    destruct (accepts eqb inc _); cbn [negb andb length].
    - lia.
    - destruct (accepts eqb dec _); cbn [length]; lia.
  Qed.

  Lemma how_many_bound : forall p (os : list (observation L)), 0 <= how_many p os <= Z.of_nat (length os).
  Proof.
    intros. induction os as [|o os IH]; [cbn; lia|]. rewrite how_many_cons. cbn [length].
    destruct (p _); lia.
  Qed.

  Lemma inc_dec_in_i64 : forall inc dec os,
    Forall (fun o => Forall in_i64 (picked (pick_inc_dec inc dec) o)) os.
  Proof.
    intros. apply Forall_forall. intros o _. unfold picked, pick_inc_dec.
    destruct (accepts eqb inc _); [repeat constructor; unfold in_i64; lia|].
    destruct (accepts eqb dec _); [repeat constructor; unfold in_i64; lia|constructor].
  Qed.

  (** the value of the gauge after the observations, starting at [v] *)
  Lemma inc_dec_changed : forall inc dec os v,
    changed_by (flat_map (picked (pick_inc_dec inc dec)) os) v
    = match v with
      | Some z => Some (z + (how_many (accepts eqb inc) os - how_many (only_dec inc dec) os))
      | None => if how_many (accepts eqb inc) os + how_many (only_dec inc dec) os =? 0 then None
                else Some (how_many (accepts eqb inc) os - how_many (only_dec inc dec) os)
      end.
  Proof.
    intros. rewrite <- inc_dec_sum, <- inc_dec_length.
    destruct (flat_map (picked (pick_inc_dec inc dec)) os) as [|d ds] eqn:E.
    - destruct v; cbn; [f_equal; ring|reflexivity].
    - destruct v; cbn [changed_by]; [reflexivity|].
      replace (Z.of_nat (length (d :: ds)) =? 0) with false by (cbn [length]; lia). reflexivity.
  Qed.

  (** Fewer than 2^63 observations never overflow a gauge that starts empty. *)
  Lemma inc_dec_exact : forall inc dec m g os k c,
    g_tracking g = None -> gauge_get g = None -> Z.of_nat (length os) <= i64_max ->
    exists a' ns, run_all (ga_handle eqb) (GaugeAdapter (GIncDecOnLabels inc dec) g m) os k c = Ok (a', ns) c
      /\ gauge_get (ga_gauge a')
         = (if how_many (accepts eqb inc) os + how_many (only_dec inc dec) os =? 0 then None
            else Some (how_many (accepts eqb inc) os - how_many (only_dec inc dec) os)).
  Proof.
    intros inc dec m g os k c Ht Hg Hlen.
    assert (Hin : opt_in_i64 (gauge_get g)) by (rewrite Hg; exact I).
    assert (Hfit : forall p s, os = p ++ s ->
              opt_in_i64 (changed_by (flat_map (picked (pick_inc_dec inc dec)) p) (gauge_get g))).
    { intros p s E. rewrite inc_dec_changed, Hg.
      pose proof (how_many_bound (accepts eqb inc) p). pose proof (how_many_bound (only_dec inc dec) p).
      assert (Z.of_nat (length p) <= Z.of_nat (length os)) by (subst; rewrite app_length; lia).
      destruct (_ =? 0); cbn; unfold in_i64; lia. }
    destruct (ga_run_total (pick_inc_dec inc dec) os (GaugeAdapter (GIncDecOnLabels inc dec) g m) g k c)
      as (a' & ns & Hr); auto using inc_dec_handles, inc_dec_in_i64.
    exists a', ns. split; [exact Hr|].
    destruct (ga_run_changes _ _ _ _ _ _ _ _ _ (inc_dec_handles inc dec m g)
                (inc_dec_in_i64 inc dec os) Hin Hr) as [Hv _].
    rewrite Hv. specialize (Hfit os [] (eq_sym (app_nil_r os))).
    rewrite inc_dec_changed, Hg in *. destruct (_ =? 0); cbn in *; [reflexivity|].
    rewrite wrap_i64_id; [reflexivity|exact Hfit].
  Qed.

  Lemma inc_dec_value : forall inc dec m g os k c a' ns c',
    opt_in_i64 (gauge_get g) ->
    run_all (ga_handle eqb) (GaugeAdapter (GIncDecOnLabels inc dec) g m) os k c = Ok (a', ns) c' ->
    let incs := how_many (accepts eqb inc) os in
    let decs := how_many (only_dec inc dec) os in
    gauge_get (ga_gauge a')
    = option_map wrap_i64
        (match gauge_get g with
         | Some z => Some (z + (incs - decs))
         | None => if incs + decs =? 0 then None else Some (incs - decs)
         end)
    /\ sum ns = incs + decs.
  Proof.
    intros inc dec m g os k c a' ns c' Hin Hr incs decs.
    destruct (ga_run_changes _ _ _ _ _ _ _ _ _ (inc_dec_handles inc dec m g)
                (inc_dec_in_i64 inc dec os) Hin Hr) as [Hv Hn].
    rewrite Hv, inc_dec_changed. split; [reflexivity|].
    unfold incs, decs. rewrite <- inc_dec_length, Hn. clear.
    induction os as [|o os IH]; cbn [map sum flat_map length]; [reflexivity|].
    rewrite app_length, IH. lia.
  Qed.
End Proofs.
