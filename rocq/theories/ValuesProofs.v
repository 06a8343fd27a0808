From Coq Require Import ZArith QArith Bool String List Lia Floats.SpecFloat.
From Verif Require Import Base SpecRun SpecCounting SpecObservation SpecGauge SpecValues MonadFacts
  ModelObservation ModelLabelFilter ModelSnapshot ModelCounter ModelBuckets ModelGauge ModelSwitches
  ModelInstrument ModelValues ObservationProofs FloatProofs GaugeProofs GaugeAdapterProofs.
Import ListNotations.
Open Scope Z_scope.

(** ** Floats of 32 bits *)

Lemma shift_pos_digits : forall k m, Zpos (digits2_pos (shift_pos k m)) = Zpos (digits2_pos m) + Zpos k.
Proof.
  intros k m. unfold shift_pos. induction k as [|k IH] using Pos.peano_ind.
  - cbn. lia.
  - rewrite Pos.iter_succ. cbn [digits2_pos]. lia.
Qed.

Lemma shift_pos_value : forall k m, Zpos (shift_pos k m) = Zpos m * 2 ^ Zpos k.
Proof.
  intros k m. unfold shift_pos. induction k as [|k IH] using Pos.peano_ind.
  - cbn. lia.
  - rewrite Pos.iter_succ, Pos2Z.inj_succ, Z.pow_succ_r by lia.
    rewrite Pos2Z.inj_xO, IH. ring.
Qed.

Lemma round_aligned : forall s m e,
  Zpos (digits2_pos m) = 53 -> -1074 <= e <= 971 ->
  binary_round_aux f64_prec f64_emax s (Zpos m) e loc_Exact = S754_finite s m e.
Proof.
  intros s m e Hd He. unfold binary_round_aux, shr_fexp, Zdigits2, fexp, emin. rewrite Hd.
  replace (Z.max (53 + e - f64_prec) (3 - f64_emax - f64_prec) - e) with 0 by lia.
  cbn [shr shr_record_of_loc loc_of_shr_record shr_m round_nearest_even]. rewrite Hd.
  replace (Z.max (53 + e - f64_prec) (3 - f64_emax - f64_prec) - e) with 0 by lia.
  cbn [shr shr_m]. replace (Zle_bool e (f64_emax - f64_prec)) with true; [reflexivity|].
  symmetry. apply Zle_is_le_bool. lia.
Qed.

Lemma f32_shape : forall s m e, f32_valid (S754_finite s m e) = true ->
  Zpos (digits2_pos m) <= 24 /\ -149 <= e <= 104.
Proof.
  intros s m e H. unfold f32_valid, valid_binary, bounded, canonical_mantissa, fexp, emin in H.
  apply andb_true_iff in H. destruct H as [H H2]. apply Zeq_bool_eq in H.
  apply Zle_is_le_bool in H2. lia.
Qed.

Lemma widen_finite : forall s m e, f32_valid (S754_finite s m e) = true ->
  exists k, f64_of_f32 (S754_finite s m e) = S754_finite s (shift_pos k m) (e - Zpos k)
            /\ f64_valid (S754_finite s (shift_pos k m) (e - Zpos k)) = true.
Proof.
  intros s m e H. destruct (f32_shape _ _ _ H) as [Hd He].
  assert (Hk : exists k, Zpos k = 53 - Zpos (digits2_pos m)).
  { exists (Z.to_pos (53 - Zpos (digits2_pos m))). rewrite Z2Pos.id; lia. }
  destruct Hk as [k Hk]. exists k.
  assert (Hdig : Zpos (digits2_pos (shift_pos k m)) = 53) by (rewrite shift_pos_digits; lia).
  assert (R : binary_round f64_prec f64_emax s m e = S754_finite s (shift_pos k m) (e - Zpos k)).
  { unfold binary_round, shl_align, fexp, emin.
    replace (Z.max (Zpos (digits2_pos m) + e - f64_prec) (3 - f64_emax - f64_prec) - e)
      with (Zneg k) by lia.
    replace (Z.max (Zpos (digits2_pos m) + e - f64_prec) (3 - f64_emax - f64_prec))
      with (e - Zpos k) by lia.
    apply round_aligned; [exact Hdig|lia]. }
  split.
  - unfold f64_of_f32, binary_normalize. destruct s; exact R.
  - unfold f64_valid, valid_binary, bounded, canonical_mantissa, fexp, emin. rewrite Hdig.
    apply andb_true_iff. split.
    + apply Zeq_is_eq_bool. lia.
    + apply Zle_is_le_bool. lia.
Qed.

Lemma magnitude_shift : forall m e k,
  (magnitude (shift_pos k m) (e - Zpos k) == magnitude m e)%Q.
Proof.
  intros m e k. unfold magnitude.
  destruct (0 <=? e - Zpos k) eqn:E1; destruct (0 <=? e) eqn:E2;
    try apply Z.leb_le in E1; try apply Z.leb_le in E2;
    try apply Z.leb_gt in E1; try apply Z.leb_gt in E2; try lia.
  - rewrite shift_pos_value. rewrite <- Z.mul_assoc, <- Z.pow_add_r by lia.
    replace (Zpos k + (e - Zpos k)) with e by lia. reflexivity.
  - unfold Qeq, inject_Z. cbn [Qnum Qden]. rewrite shift_pos_value, to_pos_pow by lia.
    rewrite <- !Z.mul_assoc, <- Z.pow_add_r by lia.
    replace (e + - (e - Zpos k)) with (Zpos k) by lia. ring.
  - unfold Qeq. cbn [Qnum Qden]. rewrite shift_pos_value, !to_pos_pow by lia.
    rewrite <- !Z.mul_assoc, <- Z.pow_add_r by lia.
    replace (Zpos k + - e) with (- (e - Zpos k)) by lia. reflexivity.
Qed.

Lemma widen_meaning : forall f, f32_valid f = true ->
  same_meaning (float_meaning (f64_of_f32 f)) (float_meaning f) /\ f64_valid (f64_of_f32 f) = true.
Proof.
  intros f H. destruct f as [s|s| |s m e]; try (split; [apply same_otherwise|reflexivity]).
  destruct (widen_finite _ _ _ H) as (k & E & V). rewrite E. split; [|exact V].
  cbn [float_meaning]. apply same_number.
  destruct s; [apply Qopp_comp|]; apply magnitude_shift.
Qed.

(** ** Conversions *)

Lemma source_item : forall s, source_ok s ->
  same_meaning (item_meaning (item_of_source s)) (source_meaning s)
  /\ item_fits (item_of_source s).
Proof.
  intros s H. destruct s as [p|v|f|t|l]; cbn in *.
  - destruct p; cbn in *; try (rewrite wrap_u64_id by exact H);
      (split; [apply same_otherwise|]); unfold in_i64, in_u64 in *; auto; lia.
  - rewrite wrap_i64_id by exact H. split; [apply same_otherwise|exact H].
  - apply widen_meaning. exact H.
  - split; [apply same_otherwise|exact I].
  - split; [apply same_otherwise|exact I].
Qed.

Lemma constant_shows : forall name s, source_ok s -> exists i,
  constant_value_put (constant_value_new name s) false [] = [(name, i)]
  /\ same_meaning (item_meaning i) (source_meaning s) /\ item_fits i.
Proof.
  intros name s H. exists (item_of_source s). split; [reflexivity|]. apply source_item. exact H.
Qed.

Lemma pushed_last : forall into name s, source_ok s -> exists i,
  push_source into name s = into ++ [(name, i)]
  /\ same_meaning (item_meaning i) (source_meaning s) /\ item_fits i.
Proof.
  intros into name s H. exists (item_of_source s). split; [reflexivity|]. apply source_item. exact H.
Qed.

Lemma display_shows_primitive : forall t p ts k c t' n c',
  primitive_ok p -> dd_reset_after t = None -> dd_stay_on_until t = None ->
  display_update t (ObservationWithValue (value_of_primitive p) ts) k c = Ok (t', n) c' ->
  forall k2 c2, exists i,
    display_put t' false [] k2 c2 = Ok [(dd_name t, i)] c2
    /\ same_meaning (item_meaning i) (primitive_meaning p) /\ item_fits i.
Proof.
  intros t p ts k c t' n c' Hp Hr Hs H k2 c2.
  destruct (source_item (FromPrimitive p) Hp) as [Hm Hf].
  exists (item_of_primitive p). split; [|split; assumption].
  assert (E : to_item_kind (value_of_primitive p) = Some (item_of_primitive p)) by (destruct p; reflexivity).
  unfold display_update in H. cbn [upd_observed_value] in H. rewrite E, Hr, Hs in H.
  cbn in H. inversion H; subst. reflexivity.
Qed.

Lemma gauge_shows_integer : forall (L : Type) (eqb : L -> L -> bool) f g p z l ts k c a' n c',
  primitive_ok p -> integer p = Some z -> accepts eqb f l = true ->
  ga_handle eqb (ga_accept f g) (observation_observed_one_value l (value_of_primitive p) ts) k c
  = Ok (a', n) c' ->
  n = 1
  /\ (z <= i64_max -> gauge_get (ga_gauge a') = Some z)
  /\ (i64_max < z -> gauge_get (ga_gauge a') = gauge_get g).
Proof.
  intros L eqb f g p z l ts k c a' n c' Hp Hz Ha H.
  assert (Hc : convert_to_i64 (value_of_primitive p) = (if z <=? i64_max then Some z else None)
               /\ (value_of_primitive p = SignedInteger z \/ value_of_primitive p = UnsignedInteger z)).
  { destruct p; cbn in Hz, Hp; inversion Hz; subst; unfold in_i64, in_u64 in Hp;
      cbn [value_of_primitive convert_to_i64]; try (rewrite wrap_u64_id by (unfold in_u64; lia));
      (split; [|auto]); try reflexivity;
      (destruct (z <=? i64_max) eqn:E; [reflexivity|apply Z.leb_gt in E; lia]). }
  destruct Hc as [Hc Hv].
  unfold ga_handle, observation_observed_one_value, ga_accept in H. cbn [split_observation ga_strategy] in H.
  rewrite Ha in H. cbn [negb modify ga_modify_update ga_gauge] in H.
  apply bind_ok in H. destruct H as ([g1 n1] & w1 & H1 & H). steps.
  cbn [gauge_update] in H1. apply bind_ok in H1. destruct H1 as (g2 & w2 & H1 & H). steps.
  split; [reflexivity|]. cbn [ga_gauge ga_with].
  assert (N : forall cur k (c : clock), gauge_next_value g cur (value_of_primitive p) k c
              = Ok (if z <=? i64_max then Some z else cur) c).
  { intros cur k0 c0. unfold gauge_next_value.
    destruct Hv as [Hv|Hv]; rewrite Hv in *; rewrite Hc; destruct (z <=? i64_max); reflexivity. }
  assert (G : gauge_get g1 = if z <=? i64_max then Some z else gauge_get g).
  { unfold gauge_set, gauge_get in *. destruct (g_value g) as [v|] eqn:Eg.
    - apply bind_ok in H1. destruct H1 as (nv & w3 & N1 & H1). rewrite N in N1. steps.
      destruct (z <=? i64_max); apply bind_ok in H1; destruct H1 as (tr & w4 & _ & H1); steps; reflexivity.
    - apply bind_ok in H1. destruct H1 as (nv & w3 & N1 & H1). rewrite N in N1. steps.
      destruct (z <=? i64_max).
      + apply bind_ok in H1; destruct H1 as (tr & w4 & _ & H1); steps; reflexivity.
      + steps. reflexivity. }
  rewrite G. destruct (z <=? i64_max) eqn:E; [apply Z.leb_le in E|apply Z.leb_gt in E]; split; intros; auto; lia.
Qed.

(** ** Deltas *)

Lemma delta_changes : forall d, value_of_delta d = ChangedBy (amount d).
Proof. intros []; cbn; reflexivity. Qed.

Lemma amount_fits : forall d, delta_ok d -> in_i64 (amount d).
Proof. intros [] H; cbn in *; unfold in_i64 in *; lia. Qed.

Section Deltas.
  Context {L : Type} (eqb : L -> L -> bool).

  Definition by_update (wrap : gauge -> gauge_adapter L) (f : label_filter L) (g : gauge)
    (x : L * delta * Z) : M (gauge_adapter L * Z) :=
    let '(l, d, t) := x in
    if accepts eqb f l then
      let* '(g1, n) := gauge_update g (ObservationWithValue (ChangedBy (amount d)) t) in
      ret (wrap g1, n)
    else ret (wrap g, 0).

  Lemma step_plain : forall f g x k c,
    ga_handle eqb (ga_accept f g) (told x) k c = by_update (ga_accept f) f g x k c.
  Proof.
    intros f g [[l d] t] k c. unfold ga_handle, told, observation_observed_one_value, by_update.
    cbn [split_observation ga_accept ga_strategy ga_modify_update ga_gauge modify].
    rewrite delta_changes. destruct (accepts eqb f l); reflexivity.
  Qed.

  Lemma step_deltas : forall f g x k c,
    ga_handle eqb (ga_deltas_only f g) (told x) k c = by_update (ga_deltas_only f) f g x k c.
  Proof.
    intros f g [[l d] t] k c. unfold ga_handle, told, observation_observed_one_value, by_update.
    cbn [split_observation ga_deltas_only ga_strategy ga_modify_update ga_gauge modify].
    rewrite delta_changes. destruct (accepts eqb f l); reflexivity.
  Qed.

  Lemma amounts_picked : forall f ds,
    accepted_changes (accepts eqb f) (modify None) (map told ds)
    = map (fun '(_, d, _) => amount d) (filter (fun '(l, _, _) => accepts eqb f l) ds).
  Proof.
    intros f ds. unfold accepted_changes. induction ds as [|[[l d] t] ds IH]; [reflexivity|].
    cbn [map flat_map filter]. rewrite IH. unfold accepted_change, told at 1, observation_observed_one_value.
    cbn [split_observation modify]. rewrite delta_changes.
    destruct (accepts eqb f l); reflexivity.
  Qed.

  Lemma amounts_fit : forall f ds, Forall (fun '(_, d, _) => delta_ok d) ds ->
    Forall (fun o => Forall in_i64 (accepted_change (accepts eqb f) (modify None) o)) (map told ds).
  Proof.
    intros f ds H. induction H as [|[[l d] t] ds Hd H IH]; [constructor|].
    cbn [map]. constructor; [|exact IH].
    unfold accepted_change, told, observation_observed_one_value. cbn [split_observation modify].
    rewrite delta_changes. destruct (accepts eqb f l); repeat constructor; apply amount_fits; exact Hd.
  Qed.

  Lemma deltas_only_told : forall f g ds k c a' ns c',
    opt_in_i64 (gauge_get g) -> Forall (fun '(_, d, _) => delta_ok d) ds ->
    run_all (ga_handle eqb) (ga_deltas_only f g) (map told ds) k c = Ok (a', ns) c' ->
    gauge_get (ga_gauge a')
    = option_map wrap_i64
        (changed_by (map (fun '(_, d, _) => amount d) (filter (fun '(l, _, _) => accepts eqb f l) ds))
           (gauge_get g)).
  Proof.
    intros f g ds k c a' ns c' Hg Hd H.
    destruct (deltas_only_value eqb f None g (map told ds) k c a' ns c' Hg (amounts_fit f ds Hd) H) as [Hv _].
    rewrite amounts_picked in Hv. exact Hv.
  Qed.

  (** A plain gauge handles changes like one for changes only. *)
  Lemma plain_told : forall f ds g k c,
    match run_all (ga_handle eqb) (ga_accept f g) (map told ds) k c,
          run_all (ga_handle eqb) (ga_deltas_only f g) (map told ds) k c with
    | Ok (a, ns) w, Ok (b, ms) w' => ga_gauge a = ga_gauge b /\ ns = ms /\ w = w'
    | Panic, Panic => True
    | NoFuel, NoFuel => True
    | _, _ => False
    end.
  Proof.
    intros f ds. induction ds as [|x ds IH]; intros g k c; [cbn; auto|].
    cbn [map run_all]. unfold bind. rewrite step_plain, step_deltas. destruct x as [[l d] t].
    unfold by_update. destruct (accepts eqb f l).
    - unfold bind, ret. destruct (gauge_update g (ObservationWithValue (ChangedBy (amount d)) t) k c)
        as [[g1 n1] w1| |]; [|exact I|exact I].
      specialize (IH g1 k w1).
      destruct (run_all (ga_handle eqb) (ga_accept f g1) _ k w1) as [[a ns] w| |];
        destruct (run_all (ga_handle eqb) (ga_deltas_only f g1) _ k w1) as [[b ms] w'| |];
        try contradiction; try exact I.
      destruct IH as (? & ? & ?). subst. auto.
    - unfold ret. specialize (IH g k c).
      destruct (run_all (ga_handle eqb) (ga_accept f g) _ k c) as [[a ns] w| |];
        destruct (run_all (ga_handle eqb) (ga_deltas_only f g) _ k c) as [[b ms] w'| |];
        try contradiction; try exact I.
      destruct IH as (? & ? & ?). subst. auto.
  Qed.

  Lemma told_exact : forall f g ds k c a' ns c',
    opt_in_i64 (gauge_get g) -> Forall (fun '(_, d, _) => delta_ok d) ds ->
    run_all (ga_handle eqb) (ga_accept f g) (map told ds) k c = Ok (a', ns) c' ->
    gauge_get (ga_gauge a')
    = option_map wrap_i64
        (changed_by (map (fun '(_, d, _) => amount d) (filter (fun '(l, _, _) => accepts eqb f l) ds))
           (gauge_get g)).
  Proof.
    intros f g ds k c a' ns c' Hg Hd H. pose proof (plain_told f ds g k c) as P. rewrite H in P.
    destruct (run_all (ga_handle eqb) (ga_deltas_only f g) (map told ds) k c) as [[b ms] w'| |] eqn:E;
      try contradiction.
    destruct P as (-> & _ & _). eapply deltas_only_told; eauto.
  Qed.
End Deltas.

(** What is taken back leaves no trace. *)
Lemma taken_back : forall g z n t1 t2 k c g1 n1 c1 g2 n2 c2,
  gauge_get g = Some z -> in_i64 z -> 0 <= n < 2 ^ 32 ->
  gauge_update g (ObservationWithValue (value_of_delta (IncrementBy n)) t1) k c = Ok (g1, n1) c1 ->
  gauge_update g1 (ObservationWithValue (value_of_delta (DecrementBy n)) t2) k c1 = Ok (g2, n2) c2 ->
  gauge_get g2 = Some z.
Proof.
  intros g z n t1 t2 k c g1 n1 c1 g2 n2 c2 Hz Hin Hn H1 H2.
  rewrite delta_changes in H1, H2.
  assert (R : run_all (ga_handle (fun _ _ : unit => true)) (ga_accept AcceptAll g)
                (map told [(tt, IncrementBy n, t1); (tt, DecrementBy n, t2)]) k c
              = Ok (ga_accept AcceptAll g2, [n1; n2]) c2).
  { cbn [map run_all]. unfold bind. rewrite step_plain. unfold by_update, bind. cbn [accepts].
    rewrite H1. unfold ret. rewrite step_plain. unfold by_update, bind. cbn [accepts].
    rewrite H2. reflexivity. }
  assert (Hd : Forall (fun x : unit * delta * Z => let '(_, d, _) := x in delta_ok d)
                 [(tt, IncrementBy n, t1); (tt, DecrementBy n, t2)]).
  { apply Forall_cons; [exact Hn|]. apply Forall_cons; [exact Hn|]. apply Forall_nil. }
  assert (Hg : opt_in_i64 (gauge_get g)) by (rewrite Hz; exact Hin).
  pose proof (told_exact _ _ _ _ _ _ _ _ _ Hg Hd R) as E.
  change (ga_gauge (ga_accept AcceptAll g2)) with g2 in E. rewrite E, Hz.
  unfold changed_by. cbn [filter accepts map amount sum option_map].
  replace (z + (n + (0 - n + 0))) with z by ring.
  rewrite wrap_i64_id by exact Hin. reflexivity.
Qed.

(** ** Constructors *)

Lemma constructed_now : forall (L : Type) (l : L) n v k (c : clock) o c',
  observation_observed_now l n k c = Ok o c'
  \/ observation_observed_one_now l k c = Ok o c'
  \/ observation_observed_one_value_now l v k c = Ok o c' ->
  obs_label o = l /\ obs_timestamp o = c 0%nat.
Proof.
  intros L l n v k c o c' [H|[H|H]]; unfold observation_observed_now, observation_observed_one_now,
    observation_observed_one_value_now in H; apply bind_ok in H; destruct H as (t & w & Ht & H);
    unfold now in Ht; inversion Ht; subst; steps; split; reflexivity.
Qed.

Lemma constructed_counts : forall (L : Type) (l : L) n v t x k (w : clock) x' m w',
  in_u64 (counter_get x) ->
  (counter_update x (snd (split_observation (observation_observed l n t))) k w = Ok (x', m) w' ->
   counter_get x' = wrap_u64 (counter_get x + n))
  /\ (counter_update x (snd (split_observation (observation_observed_one l t))) k w = Ok (x', m) w'
      \/ counter_update x (snd (split_observation (observation_observed_one_value l v t))) k w
         = Ok (x', m) w' ->
      counter_get x' = wrap_u64 (counter_get x + 1)).
Proof.
  intros L l n v t x k w x' m w' Hx. unfold counter_get in *. split.
  - intros H. cbn in H. unfold counter_inc_by in H. apply bind_ok in H. destruct H as (y & w1 & H & E).
    apply bind_ok in H. destruct H as (q & w2 & H & E2). steps.
    apply u64_arith_inv in H. destruct H as (_ & -> & _). reflexivity.
  - intros [H|H]; cbn in H; unfold counter_inc in H; apply bind_ok in H; destruct H as (y & w1 & H & E);
      apply bind_ok in H; destruct H as (q & w2 & H & E2); steps;
      apply u64_arith_inv in H; destruct H as (_ & -> & _); reflexivity.
Qed.

Lemma constructed_now_counts : forall (L : Type) (l : L) n v k (c : clock) o c' x (w : clock) x' m w',
  in_u64 (counter_get x) -> counter_update x (snd (split_observation o)) k w = Ok (x', m) w' ->
  (observation_observed_now l n k c = Ok o c' -> counter_get x' = wrap_u64 (counter_get x + n))
  /\ (observation_observed_one_now l k c = Ok o c' -> counter_get x' = wrap_u64 (counter_get x + 1)
      /\ upd_observed_value (snd (split_observation o)) = None)
  /\ (observation_observed_one_value_now l v k c = Ok o c' -> counter_get x' = wrap_u64 (counter_get x + 1)
      /\ upd_observed_value (snd (split_observation o)) = Some v).
Proof.
  intros L l n v k c o c' x w x' m w' Hx H. split; [|split]; intros E; cbn in E; injection E as <- <-.
  - exact (proj1 (constructed_counts L l n v _ x k w x' m w' Hx) H).
  - split; [|reflexivity]. apply (proj2 (constructed_counts L l n v (c 0%nat) x k w x' m w' Hx)). left. exact H.
  - split; [|reflexivity]. apply (proj2 (constructed_counts L l n v (c 0%nat) x k w x' m w' Hx)). right. exact H.
Qed.
