(** Trees do not panic while their numbers are far from the limits. *)
From Coq Require Import ZArith Bool String List Lia.
From Verif Require Import Base SpecRun MonadFacts ModelObservation ModelLabelFilter ModelSnapshot ModelCounter ModelBuckets
  ModelGauge ModelMeter ModelHistogram ModelSwitches ModelInstrument ModelTree SpecTree SpecSafe SpecRoom
  TreeInd TreeEqs BucketsProofs SafeProofs SafeTreeProofs RoomProofs.
Import ListNotations.
Open Scope Z_scope.

Section Room.
  Context {X : ext}.
  Variables (k : cfg) (lo hi V : Z).
  Hypothesis HV : 1 <= V <= i64_max.
  Hypothesis Htime : manageable k lo hi 0.
  Hypothesis Hspan : hi - lo <= u64_max.
  Hypothesis HX : parts_calm (X := X) k lo hi V.
  Notation safe := (safe k lo hi).
  Notation calm := (calm (X := X) k lo hi V).
  Notation leaf_calm := (leaf_calm (X := X) k lo hi V).
  Let HV1 : 1 <= V := proj1 HV.
  Let HS : parts_safe k lo hi X := pc_safe _ _ _ _ HX.

  Lemma room_wrap : forall A B C (f : A -> B) (m : M (A * C)) (P : B -> C -> Prop),
    safe m (fun r => P (f (fst r)) (snd r)) -> safe (wrap f m) (fun r => P (fst r) (snd r)).
  Proof.
    clear. intros A B C f m P H. unfold wrap. eapply safe_bind; [exact H|]. intros [a c] Hp. apply safe_ret. exact Hp.
  Qed.

  Lemma room_counter : forall n c u, 0 <= n -> (n + 1) * (n + 1) * V <= i64_max -> fits V u -> 0 <= c_count c <= n * V ->
    safe (counter_update c u) (fun r => 0 <= c_count (fst r) <= (n + 1) * V /\ 0 <= snd r <= V).
  Proof.
    intros n c u Hn HB Hu Hc. destruct (square_bound (n + 1) V ltac:(lia) HV1 HB) as [Hb _].
    assert (E : (n + 1) * V = n * V + V) by lia. rewrite E in Hb.
    assert (G : forall v, 0 <= v <= V -> safe (let* c' := counter_inc_by c v in ret (c', 1))
      (fun r => 0 <= c_count (fst r) <= (n + 1) * V /\ 0 <= snd r <= V)).
    { intros v Hv. eapply safe_bind with (P := fun c' => c_count c' = c_count c + v).
      - unfold counter_inc_by. eapply safe_bind; [apply safe_u64; lia|]. intros x ->. apply safe_ret. reflexivity.
      - intros c' Ec. apply safe_ret. cbn [fst snd]. lia. }
    destruct u as [m t|t|v t]; cbn [counter_update]; try (apply (G 1); lia). apply G. exact Hu.
  Qed.

  Lemma room_histogram : forall (h : histogram (ex_histo X)) u, fits V u ->
    safe (histogram_update h u) (fun r => 0 <= snd r <= V).
  Proof.
    intros h u Hu. unfold histogram_update.
    assert (Hr : forall h' v, safe (let* h := histogram_record (H := ex_histo X) h' v in ret (h, 1)) (fun r => 0 <= snd r <= V)).
    { intros h' v. unfold histogram_record.
      apply (safe_bind _ _ _ _ _ _ _ (fun _ => True)); [|intros y _; apply safe_ret; cbn; lia].
      eapply safe_bind; [apply (ps_histo_update _ _ _ _ HS)|]. intros i _.
      eapply safe_bind; [apply safe_now|]. intros t _. apply safe_done. }
    eapply safe_bind with (P := fun _ => True).
    { unfold histogram_maybe_reset. destruct (h_max_inactivity h); [|apply safe_done].
      destruct (h_reset_after_inactivity h); [|apply safe_done].
      eapply safe_bind; [apply safe_elapsed|]. intros e _. destruct (_ <? e); [|apply safe_done].
      eapply safe_bind; [apply (ps_histo_new _ _ _ _ HS)|]. intros i _. apply safe_done. }
    intros h' _. destruct u as [n t|t|v t]; try (apply safe_ret; cbn; lia).
    destruct v as [v|v|v|v|v un|v];
      try (match goal with |- context [convert_to_i64 ?x] => destruct (convert_to_i64 x) end);
      try (apply safe_ret; cbn; lia); try apply Hr.
    eapply safe_bind; [apply (room_duration V HV1 k lo hi); [exact Hu | lia]|]. intros d _. apply Hr.
  Qed.

  Ltac one := apply safe_ret; cbn [fst snd]; split; [|lia].

  Theorem room_update : forall n (i : instrument X) u, 0 <= n -> (n + 1) * (n + 1) * V <= i64_max -> fits V u -> calm n i ->
    safe (instrument_update i u) (fun r => calm (n + 1) (fst r) /\ 0 <= snd r <= V).
  Proof.
    intros n i u Hn HB Hu [[Hd Hg] Hc].
    destruct i as [i|i|i|i|i|i|i|i|i|i|i|i]; cbn [instrument_update]; cbn in Hd;
      apply (room_wrap _ _ _ _ _ (fun x y => calm (n + 1) x /\ 0 <= y <= V)).
    - eapply safe_weak; [apply (room_counter n); assumption|]. intros r [A B].
      split; [|exact B]. split; [split; [constructor|exact I]|exact A].
    - eapply safe_weak; [apply (room_gauge V HV1 k lo hi Htime n); [assumption..|split; assumption]|].
      intros r [[A1 A2] B]. split; [|exact B]. split; [split; [constructor|exact A1]|exact A2].
    - eapply safe_weak; [apply (room_meter V HV1 k lo hi) with (n := n); try assumption; inversion Hd; assumption|].
      intros r [A B]. split; [|exact B]. split; [split; [exact Hd|exact I]|exact A].
    - eapply safe_weak; [apply (room_value_meter V HV1 k lo hi) with (n := n); try assumption; inversion Hd; assumption|].
      intros r [A B]. split; [|exact B]. split; [split; [exact Hd|exact I]|exact A].
    - eapply safe_weak; [apply room_histogram, Hu|]. intros r B. split; [|exact B]. split; [split; [exact Hd|exact I]|exact I].
    - apply safe_ret. split; [split; [split; [constructor|exact I]|exact I]|].
      destruct u as [m t|t|[v|v|v|v|v un|v] t]; cbn; lia.
    - unfold staircase_update. inversion Hd; subst.
      eapply safe_bind; [apply safe_now|]. intros t Ht. cbv beta in Ht.
      eapply safe_bind; [apply safe_add_instant; eapply manageable_up; eassumption|]. intros y _. one.
      split; [split; [exact Hd|exact I]|exact I].
    - unfold occurrence_update. eapply safe_bind; [apply safe_now|]. intros t _. one. split; [split; [exact Hd|exact I]|exact I].
    - unfold non_occurrence_update. eapply safe_bind; [apply safe_now|]. intros t _. one. split; [split; [exact Hd|exact I]|exact I].
    - unfold last_occurrence_update. eapply safe_bind; [apply safe_now|]. intros t _. one. split; [split; [exact Hd|exact I]|exact I].
    - unfold display_update. destruct (upd_observed_value u); [|one; split; [split; [exact Hd|exact I]|exact I]].
      destruct (to_item_kind o); [|one; split; [split; [exact Hd|exact I]|exact I]].
      apply (safe_bind _ _ _ _ _ _ _ (fun _ => True)).
      + destruct (dd_reset_after i) as [d|] eqn:E; [|apply safe_done]. cbn in Hd. inversion Hd; subst.
        eapply safe_bind; [apply safe_now|]. intros t Ht. cbv beta in Ht.
        eapply safe_bind; [apply safe_add_instant; eapply manageable_up; eassumption|]. intros y _. apply safe_done.
      + intros un _. one. split; [split; [exact Hd|exact I]|exact I].
    - eapply safe_weak; [apply (pc_instr _ _ _ _ HX)|]. intros r B. split; [|exact B]. split; [split; [exact Hd|exact I]|exact I].
  Qed.

  Theorem room_put : forall n (i : instrument X) de into, 0 <= n -> n * n * V <= i64_max -> calm n i ->
    safe (instrument_put i de into) (fun r => calm n (fst r)).
  Proof.
    intros n i de into Hn HB Hs. pose proof Hs as [[Hd Hg] Hc].
    destruct i as [i|i|i|i|i|i|i|i|i|i|i|i]; cbn [instrument_put]; cbn in Hd.
    - apply safe_keep; [exact Hs|]. apply safe_done.
    - apply safe_wrap. eapply safe_weak; [apply (room_gauge_put V HV1 k lo hi Htime n); [assumption..|split; assumption]|].
      intros r [A1 A2]. split; [split; [constructor|exact A1]|exact A2].
    - apply safe_wrap. eapply safe_weak; [apply (room_meter_put V k lo hi) with (n := n); try assumption; inversion Hd; assumption|].
      intros r A. split; [split; [exact Hd|exact I]|exact A].
    - apply safe_wrap. eapply safe_weak; [apply (room_value_meter_put V k lo hi) with (n := n); try assumption; inversion Hd; assumption|].
      intros r A. split; [split; [exact Hd|exact I]|exact A].
    - apply safe_keep; [exact Hs|]. apply safe_histogram_put.
    - apply safe_keep; [exact Hs|]. apply safe_done.
    - apply safe_keep; [exact Hs|]. apply safe_timed_switch. unfold staircase_state.
      apply (safe_bind _ _ _ _ _ _ _ (fun _ => True)); [|intros; apply safe_done].
      destruct (st_stay_on_until i); [|apply safe_done]. eapply safe_bind; [apply safe_now|]. intros; apply safe_done.
    - apply safe_keep; [exact Hs|]. apply safe_timed_switch. unfold occurrence_state. inversion Hd; subst.
      eapply safe_bind; [apply safe_now|]. intros t Ht. cbv beta in Ht.
      eapply safe_bind; [apply safe_sub_instant; eapply manageable_down; eassumption|]. intros; apply safe_done.
    - apply safe_keep; [exact Hs|]. apply safe_timed_switch. unfold non_occurrence_state. inversion Hd; subst.
      eapply safe_bind; [apply safe_now|]. intros t Ht. cbv beta in Ht.
      eapply safe_bind; [apply safe_sub_instant; eapply manageable_down; eassumption|]. intros; apply safe_done.
    - apply safe_keep; [exact Hs|]. unfold last_occurrence_put. cbv zeta.
      apply (safe_bind _ _ _ _ _ _ _ (fun _ => True)).
      + unfold last_occurrence_elapsed. destruct (lt_happened_last i); [|apply safe_done].
        eapply safe_bind; [apply safe_now|]. intros; apply safe_done.
      + intros [v|] _; [apply safe_done|]. destruct (lt_make_none_zero i); apply safe_done.
    - apply safe_keep; [exact Hs|]. unfold display_put. cbv zeta.
      apply (safe_bind _ _ _ _ _ _ _ (fun _ => True)).
      + unfold display_value. destruct (dd_stay_on_until i); [|apply safe_done].
        eapply safe_bind; [apply safe_now|]. intros; apply safe_done.
      + intros [v|] _; apply safe_done.
    - apply safe_wrap. eapply safe_weak; [apply (ps_instr_put _ _ _ _ HS)|]. intros r _. split; [split; [exact Hd|exact I]|exact I].
  Qed.

  Lemma calm_mono : forall n n' (i : instrument X), 0 <= n <= n' -> calm n i -> calm n' i.
  Proof.
    intros n n' i Hn [[Hd Hg] Hc]. split; [split; assumption|].
    assert (n * V <= n' * V) by (apply Z.mul_le_mono_nonneg_r; lia).
    destruct i; try exact I; try lia.
    - exact (proj2 (gauge_room_mono V HV1 n n' _ Hn (conj Hg Hc))).
    - exact (meter_calm_mono V HV1 lo n n' _ Hn Hc).
    - exact (meter_calm_mono V HV1 lo n n' _ Hn Hc).
  Qed.

  Lemma leaves_mono : forall n n' L, 0 <= n <= n' -> Forall (leaf_calm n) L -> Forall (leaf_calm n') L.
  Proof.
    intros n n' L Hn H. eapply Forall_impl; [|exact H]. intros [i m|] Hl; [|exact I].
    destruct Hl as [A B]. split; [exact (calm_mono n n' i Hn A) | exact B].
  Qed.

  (** ** What is kept *)

  Notation leaf := (leaf X).
  Definition grow (n : Z) (L L' : list leaf) : Prop := Forall (leaf_calm n) L' /\ length L' = length L.

  Lemma grow_app : forall n A A' B B', grow n A A' -> grow n B B' -> grow n (A ++ B) (A' ++ B').
  Proof. intros n A A' B B' [F1 L1] [F2 L2]. split; [apply Forall_app; split; assumption|]. rewrite !app_length, L1, L2. reflexivity. Qed.
  Lemma grow_same : forall n n' L, 0 <= n <= n' -> Forall (leaf_calm n) L -> grow n' L L.
  Proof. intros n n' L Hn H. split; [exact (leaves_mono n n' L Hn H) | reflexivity]. Qed.

  Section Lists.
    Context {A : Type} (g : A -> list leaf).

    Lemma put_all : forall S n n' (f : A -> S -> M (A * S)) l, Forall (leaf_calm n) (flat_map g l) ->
      Forall (fun x => forall s, Forall (leaf_calm n) (g x) -> safe (f x s) (fun r => grow n' (g x) (g (fst r)))) l ->
      forall s, safe (traverse f l s) (fun r => grow n' (flat_map g l) (flat_map g (fst r))).
    Proof.
      clear. intros S n n' f l H Hf. revert H. induction Hf as [|x l Hx Hf IH]; intros H s; cbn [traverse].
      - apply safe_ret. split; [constructor | reflexivity].
      - cbn [flat_map] in H. apply Forall_app in H. destruct H as [H1 H2].
        eapply safe_bind; [apply Hx, H1|]. intros [x' s1] Hx'. eapply safe_bind; [apply IH, H2|]. intros [l' s2] Hl'.
        apply safe_ret. cbn [fst flat_map] in *. apply grow_app; assumption.
    Qed.

    Lemma put_option : forall S n n' (f : A -> S -> M (A * S)) o, Forall (leaf_calm n) (flat_map g (opt_list o)) ->
      (forall x s, Forall (leaf_calm n) (g x) -> safe (f x s) (fun r => grow n' (g x) (g (fst r)))) ->
      forall s, safe (traverse_opt f o s) (fun r => grow n' (flat_map g (opt_list o)) (flat_map g (opt_list (fst r)))).
    Proof.
      clear. intros S n n' f [x|] H Hf s; cbn [traverse_opt].
      - cbn [opt_list flat_map] in H. rewrite app_nil_r in H.
        eapply safe_bind; [apply Hf, H|]. intros [x' s'] Hx. apply safe_ret. cbn [fst opt_list flat_map] in *. rewrite !app_nil_r. exact Hx.
      - apply safe_ret. split; [constructor | reflexivity].
    Qed.

    Definition size (L : list leaf) : Z := Z.of_nat (length L).

    (** What a handler returns *)
    Definition handled (n : Z) (L : list leaf) (r : A * Z) : Prop := grow n L (g (fst r)) /\ 0 <= snd r <= size L * V.

    Lemma size_nonneg : forall L, 0 <= size L * V.
    Proof. intros L. apply Z.mul_nonneg_nonneg; unfold size; lia. Qed.
    Lemma size_app : forall L L', size (L ++ L') * V = size L * V + size L' * V.
    Proof. clear. intros. unfold size. rewrite app_length. lia. Qed.

    Lemma tally_one : forall n L (f : A -> M (A * Z)) x acc, 0 <= acc -> acc + size L * V <= u64_max ->
      safe (f x) (handled n L) -> safe (tally f x acc) (fun r => grow n L (g (fst r)) /\ acc <= snd r <= acc + size L * V).
    Proof.
      clear. intros n L f x acc H0 H1 Hf. unfold tally. eapply safe_bind; [exact Hf|]. intros [x' m] [Hg Hm]. cbn [fst snd] in *.
      eapply safe_bind; [apply safe_u64; lia|]. intros a ->. apply safe_ret. cbn [fst snd]. split; [exact Hg | lia].
    Qed.

    Lemma tally_all : forall n n' (f : A -> M (A * Z)) l, Forall (leaf_calm n) (flat_map g l) ->
      Forall (fun x => Forall (leaf_calm n) (g x) -> size (g x) * V <= u64_max -> safe (f x) (handled n' (g x))) l ->
      forall acc, 0 <= acc -> acc + size (flat_map g l) * V <= u64_max ->
      safe (traverse (tally f) l acc)
        (fun r => grow n' (flat_map g l) (flat_map g (fst r)) /\ acc <= snd r <= acc + size (flat_map g l) * V).
    Proof.
      intros n n' f l H Hf. revert H. induction Hf as [|x l Hx Hf IH]; intros H acc H0 H1; cbn [traverse flat_map].
      - apply safe_ret. split; [split; [constructor | reflexivity] | unfold size; cbn; lia].
      - cbn [flat_map] in H, H1. apply Forall_app in H. destruct H as [F1 F2]. rewrite size_app in H1.
        pose proof (size_nonneg (g x)). pose proof (size_nonneg (flat_map g l)).
        eapply safe_bind; [apply (tally_one n' (g x)); [exact H0 | lia | apply Hx; [exact F1 | lia]]|].
        intros [x' s1] [Gx Bx]. cbn [fst snd] in Gx, Bx.
        eapply safe_bind; [apply IH; [exact F2 | lia | lia]|]. intros [l' s2] [Gl Bl]. cbn [fst snd] in Gl, Bl.
        apply safe_ret. cbn [fst snd flat_map]. split; [apply grow_app; assumption|]. rewrite size_app. lia.
    Qed.

    Lemma tally_option : forall n n' (f : A -> M (A * Z)) o, Forall (leaf_calm n) (flat_map g (opt_list o)) ->
      (forall x, Forall (leaf_calm n) (g x) -> safe (f x) (handled n' (g x))) ->
      forall acc, 0 <= acc -> acc + size (flat_map g (opt_list o)) * V <= u64_max ->
      safe (traverse_opt (tally f) o acc)
        (fun r => grow n' (flat_map g (opt_list o)) (flat_map g (opt_list (fst r)))
                  /\ acc <= snd r <= acc + size (flat_map g (opt_list o)) * V).
    Proof.
      intros n n' f [x|] H Hf acc H0 H1; cbn [traverse_opt].
      - cbn [opt_list flat_map] in H, H1. rewrite app_nil_r in H, H1.
        eapply safe_bind; [apply (tally_one n' (g x)); [exact H0 | exact H1 | apply Hf, H]|]. intros [x' s] [Gx Bx].
        apply safe_ret. cbn [fst snd opt_list flat_map] in *. rewrite !app_nil_r. split; assumption.
      - apply safe_ret. split; [split; [constructor | reflexivity] | unfold size; cbn; lia].
    Qed.
  End Lists.

  (** ** Adapters *)

  Notation la := (fun f => fun a => [LInstrument (f (ad_instrument a)) (ad_modify a)]).
  Notation lg := (fun a => [LInstrument (IGauge (ga_gauge a)) (ga_modify_update a)]).

  Lemma one_leaf : forall n l, Forall (leaf_calm n) [l] <-> leaf_calm n l.
  Proof. intros. split; [intros H; inversion H; assumption|]. repeat constructor; assumption. Qed.
  Lemma one_grow : forall n l l', leaf_calm n l' -> grow n [l] [l'].
  Proof. intros n l l' H. split; [apply one_leaf, H | reflexivity]. Qed.
  Lemma size_one : forall l, size [l] * V = V.
  Proof. intros. unfold size. cbn [length]. lia. Qed.

  Lemma room_adapter : forall n I (f : I -> instrument X) (upd : I -> update -> M (I * Z)) (a : adapter X I) o,
    0 <= n -> fits V (snd (split_observation o)) ->
    (forall u, fits V u -> calm n (f (ad_instrument a)) ->
       safe (upd (ad_instrument a) u) (fun r => calm (n + 1) (f (fst r)) /\ 0 <= snd r <= V)) ->
    Forall (leaf_calm n) (la f a) -> safe (adapter_handle upd a o) (handled (la f) (n + 1) (la f a)).
  Proof.
    intros n I0 f upd a o Hn Ho Hu H. pose proof H as Hl. apply one_leaf in Hl. destruct Hl as [Hc Hm].
    unfold adapter_handle. destruct (negb _).
    - apply safe_ret. split; [apply (grow_same n); [lia | exact H]|]. rewrite size_one. cbn. lia.
    - destruct (split_observation o) as [l u]. cbv zeta. eapply safe_bind; [apply Hu; [apply Hm, Ho | exact Hc]|].
      intros [i m] [Hi Hn']. apply safe_ret. cbn [fst snd] in *. split; [|rewrite size_one; exact Hn'].
      apply one_grow. split; [exact Hi | exact Hm].
  Qed.

  Lemma room_adapter_put : forall n I (f : I -> instrument X) put (a : adapter X I) de into,
    (forall de into, calm n (f (ad_instrument a)) -> safe (put (ad_instrument a) de into) (fun r => calm n (f (fst r)))) ->
    Forall (leaf_calm n) (la f a) -> safe (adapter_put put a de into) (fun r => grow n (la f a) (la f (fst r))).
  Proof.
    intros n I0 f put a de into Hu H. apply one_leaf in H. destruct H as [Hc Hm].
    unfold adapter_put. eapply safe_bind; [apply Hu, Hc|]. intros [i s] Hi. apply safe_ret. cbn [fst] in *.
    apply one_grow. split; [exact Hi | exact Hm].
  Qed.

  Lemma room_ga : forall n (a : gauge_adapter (lab X)) o, 0 <= n -> (n + 1) * (n + 1) * V <= i64_max ->
    fits V (snd (split_observation o)) -> Forall (leaf_calm n) (lg a) ->
    safe (ga_handle (lab_eqb X) a o) (handled lg (n + 1) (lg a)).
  Proof.
    intros n a o Hn HB Ho H. pose proof H as Hl. apply one_leaf in Hl. destruct Hl as [[[_ Hg] Hc] Hm].
    assert (N : safe (ret (a, 0)) (handled lg (n + 1) (lg a))).
    { apply safe_ret. split; [apply (grow_same n); [lia | exact H]|]. rewrite size_one. cbn. lia. }
    assert (G : forall u, fits V u -> safe (let* '(g, n) := gauge_update (ga_gauge a) u in ret (ga_with a g, n)) (handled lg (n + 1) (lg a))).
    { intros u Hu. eapply safe_bind; [apply (room_gauge V HV1 k lo hi Htime n); [assumption..|split; assumption]|].
      intros [g m] [[A1 A2] B]. apply safe_ret. cbn [fst snd] in *. split; [|rewrite size_one; exact B].
      apply one_grow. split; [|exact Hm]. split; [split; [constructor|exact A1]|exact A2]. }
    unfold ga_handle. destruct (split_observation o) as [l u]. cbn [snd] in Ho. destruct (ga_strategy a) as [f|f|inc dec].
    - destruct (negb _); [exact N|]. apply G, Hm, Ho.
    - destruct (negb _); [exact N|]. cbv zeta. pose proof (Hm l u Ho) as Hf.
      destruct (modify (ga_modify_update a) l u) as [m t|t|v t]; try exact N. destruct v; first [exact N | apply G, Hf].
    - cbv zeta. destruct (accepts _ inc l); [apply G; cbn; lia|]. destruct (accepts _ dec l); [apply G; cbn; lia|]. exact N.
  Qed.

  Lemma room_ga_put : forall n (a : gauge_adapter (lab X)) de into, 0 <= n -> n * n * V <= i64_max ->
    Forall (leaf_calm n) (lg a) -> safe (ga_put a de into) (fun r => grow n (lg a) (lg (fst r))).
  Proof.
    intros n a de into Hn HB H. apply one_leaf in H. destruct H as [[[_ Hg] Hc] Hm].
    unfold ga_put. eapply safe_bind; [apply (room_gauge_put V HV1 k lo hi Htime n); [assumption..|split; assumption]|].
    intros [g s] [A1 A2]. apply safe_ret. apply one_grow. split; [|exact Hm]. split; [split; [constructor|exact A1]|exact A2].
  Qed.

  (** ** Slots *)

  Lemma slots_leaves_eq : forall sl : slots X, slots_leaves sl
    = flat_map (la ICounter) (opt_list (sl_counter sl)) ++ flat_map lg (opt_list (sl_gauge sl))
      ++ flat_map (la IMeter) (opt_list (sl_meter sl)) ++ flat_map (la IHistogram) (opt_list (sl_histogram sl)).
  Proof.
    intros sl. unfold slots_leaves. destruct (sl_counter sl), (sl_gauge sl), (sl_meter sl), (sl_histogram sl); reflexivity.
  Qed.

  Lemma room_slots : forall n (sl : slots X) o acc, 0 <= n -> (n + 1) * (n + 1) * V <= i64_max ->
    fits V (snd (split_observation o)) -> Forall (leaf_calm n) (slots_leaves sl) ->
    0 <= acc -> acc + size (slots_leaves sl) * V <= u64_max ->
    safe (slots_handle sl o acc)
      (fun r => grow (n + 1) (slots_leaves sl) (slots_leaves (fst r)) /\ acc <= snd r <= acc + size (slots_leaves sl) * V).
  Proof.
    intros n sl o acc Hn HB Ho H H0 H1. rewrite slots_leaves_eq in H, H1 |- *.
    rewrite !Forall_app in H. destruct H as (Hc & Hg & Hm & Hh). rewrite !size_app in H1.
    pose proof (size_nonneg (flat_map (la ICounter) (opt_list (sl_counter sl)))) as S1.
    pose proof (size_nonneg (flat_map lg (opt_list (sl_gauge sl)))) as S2.
    pose proof (size_nonneg (flat_map (la IMeter) (opt_list (sl_meter sl)))) as S3.
    pose proof (size_nonneg (flat_map (la IHistogram) (opt_list (sl_histogram sl)))) as S4.
    unfold slots_handle.
    eapply safe_bind.
    { apply (tally_option (la ICounter) n (n + 1)); [exact Hc| |exact H0|lia]. intros a. apply room_adapter; [exact Hn | exact Ho|].
      intros u Hu Ha. exact (safe_weak _ _ _ _ _ _ _ (room_counter n _ u Hn HB Hu (proj2 Ha))
        (fun r R => conj (conj (conj (Forall_nil _) I) (proj1 R)) (proj2 R))). }
    intros [c acc1] [Gc Bc]. cbn [fst snd] in Gc, Bc.
    eapply safe_bind.
    { apply (tally_option lg n (n + 1)); [exact Hg| |lia|lia]. intros a. apply room_ga; assumption. }
    intros [g acc2] [Gg Bg]. cbn [fst snd] in Gg, Bg.
    eapply safe_bind.
    { apply (tally_option (la IMeter) n (n + 1)); [exact Hm| |lia|lia]. intros a. apply room_adapter; [exact Hn | exact Ho|].
      intros u Hu [[Hd Hs] Ha].
      assert (H5 : manageable k lo hi (5 * nanos_per_sec)) by (inversion Hd; assumption).
      exact (safe_weak _ _ _ _ _ _ _ (room_meter V HV1 k lo hi H5 n _ u Hn HB Hu Ha)
        (fun r R => conj (conj (conj Hd I) (proj1 R)) (proj2 R))). }
    intros [m acc3] [Gm Bm]. cbn [fst snd] in Gm, Bm.
    eapply safe_bind.
    { apply (tally_option (la IHistogram) n (n + 1)); [exact Hh| |lia|lia]. intros a. apply room_adapter; [exact Hn | exact Ho|].
      intros u Hu _. exact (safe_weak _ _ _ _ _ _ _ (room_histogram _ u Hu) (fun r R => conj (conj (conj (Forall_nil _) I) I) R)). }
    intros [h acc4] [Gh Bh]. cbn [fst snd] in Gh, Bh. apply safe_ret. cbn [fst snd]. split.
    - rewrite slots_leaves_eq. cbn [sl_counter sl_gauge sl_meter sl_histogram].
      repeat apply grow_app; assumption.
    - rewrite !size_app. lia.
  Qed.

  Lemma room_slots_put : forall n (sl : slots X) de into, 0 <= n -> n * n * V <= i64_max -> Forall (leaf_calm n) (slots_leaves sl) ->
    safe (slots_put de sl into) (fun r => grow n (slots_leaves sl) (slots_leaves (fst r))).
  Proof.
    intros n sl de into Hn HB H. rewrite slots_leaves_eq in H |- *.
    rewrite !Forall_app in H. destruct H as (Hc & Hg & Hm & Hh). unfold slots_put.
    eapply safe_bind.
    { apply (put_option (la ICounter) _ n n); [exact Hc|]. intros a s. apply room_adapter_put. intros de' into' Ha.
      apply (safe_keep _ _ _ _ _ _ _ (fun i => calm n (ICounter i))); [exact Ha|apply safe_done]. }
    intros [c acc1] Gc.
    eapply safe_bind.
    { apply (put_option lg _ n n); [exact Hg|]. intros a s. apply room_ga_put; assumption. }
    intros [g acc2] Gg.
    eapply safe_bind.
    { apply (put_option (la IMeter) _ n n); [exact Hm|]. intros a s. apply room_adapter_put. intros de' into' [[Hd Hs] Ha].
      assert (H5 : manageable k lo hi (5 * nanos_per_sec)) by (inversion Hd; assumption).
      exact (safe_weak _ _ _ _ _ _ _ (room_meter_put V k lo hi Hspan H5 n _ de' into' Ha) (fun r R => conj (conj Hd I) R)). }
    intros [m acc3] Gm.
    eapply safe_bind.
    { apply (put_option (la IHistogram) _ n n); [exact Hh|]. intros a s. apply room_adapter_put. intros de' into' Ha.
      apply (safe_keep _ _ _ _ _ _ _ (fun i => calm n (IHistogram i))); [exact Ha|apply safe_histogram_put]. }
    intros [h acc4] Gh. apply safe_ret. cbn [fst]. rewrite slots_leaves_eq. cbn [sl_counter sl_gauge sl_meter sl_histogram].
    repeat apply grow_app; assumption.
  Qed.

  (** ** Trees *)

  Notation pl := (panel_leaves (X := X)).
  Notation hl := (handler_leaves (X := X)).
  Notation cl := (cockpit_leaves (X := X)).
  Notation sl := (snapshooter_leaves (X := X)).

  Lemma panel_leaves_eq : forall d s ps hs ss,
    pl (Panel d s ps hs ss) = slots_leaves s ++ flat_map pl ps ++ flat_map hl hs ++ flat_map sl ss.
  Proof. reflexivity. Qed.
  Lemma cockpit_leaves_eq : forall d ps hs ss, cl (Cockpit d ps hs ss) = flat_map pl ps ++ flat_map hl hs ++ flat_map sl ss.
  Proof. reflexivity. Qed.

  Lemma handled_wrap : forall A B (g : A -> list leaf) (h : B -> list leaf) (f : A -> B) n L (m : M (A * Z)),
    (forall a, h (f a) = g a) -> safe m (handled g n L) -> safe (wrap f m) (handled h n L).
  Proof.
    clear. intros A B g h f n L m E H. unfold wrap. eapply safe_bind; [exact H|]. intros [a c] [G C]. apply safe_ret.
    split; cbn [fst snd] in *; [rewrite E|]; assumption.
  Qed.

  Lemma tree_handle_room : forall n o, 0 <= n -> (n + 1) * (n + 1) * V <= i64_max -> fits V (snd (split_observation o)) ->
    (forall p, Forall (leaf_calm n) (pl p) -> size (pl p) * V <= u64_max -> safe (panel_handle p o) (handled pl (n + 1) (pl p)))
    /\ (forall h, Forall (leaf_calm n) (hl h) -> size (hl h) * V <= u64_max -> safe (handler_handle h o) (handled hl (n + 1) (hl h)))
    /\ (forall c, Forall (leaf_calm n) (cl c) -> size (cl c) * V <= u64_max -> safe (cockpit_handle c o) (handled cl (n + 1) (cl c)))
    /\ (forall s : snapshooter X, True).
  Proof.
    intros n o Hn HB Ho. apply tree_ind; try (intros; exact I).
    - intros d s ps hs ss Hps Hhs _ H H1. pose proof H as H'. rewrite panel_leaves_eq in H, H1 |- *. rewrite !Forall_app in H.
      destruct H as (Fs & Fp & Fh & Fn). rewrite !size_app in H1.
      pose proof (size_nonneg (slots_leaves s)) as S1. pose proof (size_nonneg (flat_map pl ps)) as S2.
      pose proof (size_nonneg (flat_map hl hs)) as S3. pose proof (size_nonneg (flat_map sl ss)) as S4.
      rewrite panel_handle_eq. destruct (negb _).
      { apply safe_ret. split; [exact (grow_same n (n + 1) _ ltac:(lia) H')|]. rewrite !size_app. cbn [snd]. lia. }
      eapply safe_bind; [apply (room_slots n); [exact Hn | exact HB | exact Ho | exact Fs | lia | lia]|].
      intros [s' m] [Gs Bs]. cbn [fst snd] in Gs, Bs.
      eapply safe_bind; [apply (tally_all pl n (n + 1)); [exact Fp | exact Hps | lia | lia]|].
      intros [ps' m1] [Gp Bp]. cbn [fst snd] in Gp, Bp.
      eapply safe_bind; [apply (tally_all hl n (n + 1)); [exact Fh | exact Hhs | lia | lia]|].
      intros [hs' m2] [Gh Bh]. cbn [fst snd] in Gh, Bh. apply safe_ret. split; cbn [fst snd].
      + rewrite panel_leaves_eq. apply grow_app; [exact Gs|]. apply grow_app; [exact Gp|]. apply grow_app; [exact Gh|].
        apply (grow_same n); [lia | exact Fn].
      + rewrite !size_app. lia.
    - intros a H _. change (handler_handle (HInstrument a) o) with (wrap (HInstrument (X := X)) (adapter_handle instrument_update a o)).
      apply (handled_wrap _ _ (fun a => [LInstrument (ad_instrument a) (ad_modify a)])); [reflexivity|].
      apply (room_adapter n _ (fun i => i)); [exact Hn | exact Ho | | exact H]. intros u Hu Hc. apply room_update; assumption.
    - intros a H _. change (handler_handle (HGauge a) o) with (wrap (HGauge (X := X)) (ga_handle (lab_eqb X) a o)).
      apply (handled_wrap _ _ (fun a => [LInstrument (IGauge (ga_gauge a)) (ga_modify_update a)])); [reflexivity|].
      apply room_ga; assumption.
    - intros p Hp H H1. change (handler_handle (HPanel p) o) with (wrap (HPanel (X := X)) (panel_handle p o)).
      apply (handled_wrap _ _ pl); [reflexivity|]. apply Hp; assumption.
    - intros p Hp H H1. change (handler_handle (HCockpit p) o) with (wrap (HCockpit (X := X)) (cockpit_handle p o)).
      apply (handled_wrap _ _ cl); [reflexivity|]. apply Hp; assumption.
    - intros u H _. change (handler_handle (HUser u) o) with (wrap (HUser (X := X)) (user_handler_handle X u o)).
      apply (handled_wrap _ _ (fun _ => [LUser])); [reflexivity|].
      eapply safe_weak; [apply (pc_handler _ _ _ _ HX)|]. intros r B. split; [apply one_grow; exact I|].
      change (hl (HUser u)) with [LUser (X := X)]. rewrite size_one. exact B.
    - intros d ps hs ss Hps Hhs _ H H1. rewrite cockpit_leaves_eq in H, H1 |- *. rewrite !Forall_app in H.
      destruct H as (Fp & Fh & Fn). rewrite !size_app in H1.
      pose proof (size_nonneg (flat_map pl ps)) as S2.
      pose proof (size_nonneg (flat_map hl hs)) as S3. pose proof (size_nonneg (flat_map sl ss)) as S4.
      rewrite cockpit_handle_eq. eapply safe_bind; [apply safe_now|]. intros t _.
      eapply safe_bind; [apply (tally_all hl n (n + 1)); [exact Fh | exact Hhs | lia | lia]|].
      intros [hs' m2] [Gh Bh]. cbn [fst snd] in Gh, Bh.
      eapply safe_bind; [apply (tally_all pl n (n + 1)); [exact Fp | exact Hps | lia | lia]|].
      intros [ps' m1] [Gp Bp]. cbn [fst snd] in Gp, Bp. apply safe_ret. split; cbn [fst snd].
      + rewrite cockpit_leaves_eq. apply grow_app; [exact Gp|]. apply grow_app; [exact Gh|].
        apply (grow_same n); [lia | exact Fn].
      + rewrite !size_app. lia.
  Qed.

  Lemma forall_args : forall A B C (P : A -> B -> C -> Prop) (l : list A),
    Forall (fun x => forall b c, P x b c) l -> forall b, Forall (fun x => forall c, P x b c) l.
  Proof. intros A B C P l H b. induction H; constructor; auto. Qed.

  Lemma tree_put_room : forall n, 0 <= n -> n * n * V <= i64_max ->
    (forall p de into, Forall (leaf_calm n) (pl p) -> safe (panel_put p de into) (fun r => grow n (pl p) (pl (fst r))))
    /\ (forall h de into, Forall (leaf_calm n) (hl h) -> safe (handler_put h de into) (fun r => grow n (hl h) (hl (fst r))))
    /\ (forall c de into, Forall (leaf_calm n) (cl c) -> safe (cockpit_put c de into) (fun r => grow n (cl c) (cl (fst r))))
    /\ (forall s de into, Forall (leaf_calm n) (sl s) -> safe (snapshooter_put s de into) (fun r => grow n (sl s) (sl (fst r)))).
  Proof.
    intros n Hn HB. apply tree_ind.
    - intros d s ps hs ss Hps Hhs Hss de into H. pose proof H as H0. rewrite panel_leaves_eq in H. rewrite !Forall_app in H.
      destruct H as (Fs & Fp & Fh & Fn). rewrite panel_put_eq.
      apply (safe_put_named _ _ _ _ _ _ _ (fun p => grow n (pl (Panel d s ps hs ss)) (pl p))). intros into1. cbv zeta.
      apply (safe_check _ _ _ _ _ _ _ _ _ _ (fun p => grow n (pl (Panel d s ps hs ss)) (pl p)));
        [exact (grow_same n n _ ltac:(lia) H0)|]. intros into2.
      eapply safe_bind; [apply (room_slots_put n); assumption|]. intros [s' m] Gs.
      eapply safe_bind; [apply (put_all pl _ n n); [exact Fp | apply (forall_args _ _ _ _ _ Hps)]|]. intros [ps' m1] Gp.
      eapply safe_bind; [apply (put_all sl _ n n); [exact Fn | apply (forall_args _ _ _ _ _ Hss)]|]. intros [ss' m2] Gn.
      eapply safe_bind; [apply (put_all hl _ n n); [exact Fh | apply (forall_args _ _ _ _ _ Hhs)]|]. intros [hs' m3] Gh.
      apply safe_ret. cbn [fst] in *. rewrite !panel_leaves_eq. apply grow_app; [exact Gs|]. apply grow_app; [exact Gp|]. apply grow_app; [exact Gh | exact Gn].
    - intros a de into H.
      change (handler_put (HInstrument a) de into) with (wrap (HInstrument (X := X)) (adapter_put instrument_put a de into)).
      apply (safe_wrap _ _ _ _ _ _ _ _ (fun h => grow n (hl (HInstrument a)) (hl h))).
      apply (room_adapter_put n _ (fun i => i)); [|exact H]. intros de' into' Hc. apply room_put; assumption.
    - intros a de into H. change (handler_put (HGauge a) de into) with (wrap (HGauge (X := X)) (ga_put a de into)).
      apply (safe_wrap _ _ _ _ _ _ _ _ (fun h => grow n (hl (HGauge a)) (hl h))). apply (room_ga_put n); assumption.
    - intros p Hp de into H. change (handler_put (HPanel p) de into) with (wrap (HPanel (X := X)) (panel_put p de into)).
      apply (safe_wrap _ _ _ _ _ _ _ _ (fun h => grow n (hl (HPanel p)) (hl h))). apply Hp, H.
    - intros p Hp de into H. change (handler_put (HCockpit p) de into) with (wrap (HCockpit (X := X)) (cockpit_put p de into)).
      apply (safe_wrap _ _ _ _ _ _ _ _ (fun h => grow n (hl (HCockpit p)) (hl h))). apply Hp, H.
    - intros u de into H. change (handler_put (HUser u) de into) with (wrap (HUser (X := X)) (user_handler_put X u de into)).
      apply (safe_wrap _ _ _ _ _ _ _ _ (fun h => grow n (hl (HUser u)) (hl h))).
      eapply safe_weak; [apply (ps_handler_put _ _ _ _ HS)|]. intros r _. apply one_grow. exact I.
    - intros d ps hs ss Hps Hhs Hss de into H. pose proof H as H0. rewrite cockpit_leaves_eq in H. rewrite !Forall_app in H.
      destruct H as (Fp & Fh & Fn). rewrite cockpit_put_eq.
      apply (safe_put_named _ _ _ _ _ _ _ (fun p => grow n (cl (Cockpit d ps hs ss)) (cl p))). intros into1. cbv zeta.
      apply (safe_check _ _ _ _ _ _ _ _ _ _ (fun p => grow n (cl (Cockpit d ps hs ss)) (cl p)));
        [exact (grow_same n n _ ltac:(lia) H0)|]. intros into2.
      eapply safe_bind; [apply (put_all pl _ n n); [exact Fp | apply (forall_args _ _ _ _ _ Hps)]|]. intros [ps' m1] Gp.
      eapply safe_bind; [apply (put_all hl _ n n); [exact Fh | apply (forall_args _ _ _ _ _ Hhs)]|]. intros [hs' m3] Gh.
      eapply safe_bind; [apply (put_all sl _ n n); [exact Fn | apply (forall_args _ _ _ _ _ Hss)]|]. intros [ss' m2] Gn.
      apply safe_ret. cbn [fst] in *. rewrite !cockpit_leaves_eq. apply grow_app; [exact Gp|]. apply grow_app; [exact Gh | exact Gn].
    - intros v de into H. apply safe_ret. split; [constructor | reflexivity].
    - intros m d g s IH de into H.
      change (snapshooter_put (SPolled m d g s) de into) with
        (wrap (SPolled (X := X) m d g) (polled_put (snapshooter_put s) m d g de into)).
      apply (safe_wrap _ _ _ _ _ _ _ _ (fun h => grow n (sl (SPolled m d g s)) (sl h))).
      change (safe (polled_put (snapshooter_put s) m d g de into) (fun r => grow n (sl s) (sl (fst r)))).
      unfold polled_put. cbv zeta. destruct g; [|apply IH, H].
      eapply safe_bind; [apply IH, H|]. intros [p l] Hp. apply safe_ret, Hp.
    - intros i de into H. change (snapshooter_put (SInstrument i) de into) with (wrap (SInstrument (X := X)) (instrument_put i de into)).
      apply (safe_wrap _ _ _ _ _ _ _ _ (fun h => grow n (sl (SInstrument i)) (sl h))).
      apply one_leaf in H. destruct H as [Hc _].
      eapply safe_weak; [apply (room_put n); assumption|]. intros r Hr. apply one_grow. split; [exact Hr|]. intros lb u Hu. exact Hu.
    - intros h Hh de into H. change (snapshooter_put (SHandler h) de into) with (wrap (SHandler (X := X)) (handler_put h de into)).
      apply (safe_wrap _ _ _ _ _ _ _ _ (fun x => grow n (sl (SHandler h)) (sl x))). apply Hh, H.
    - intros u de into H. change (snapshooter_put (SUser u) de into) with (wrap (SUser (X := X)) (user_snap_put X u de into)).
      apply (safe_wrap _ _ _ _ _ _ _ _ (fun x => grow n (sl (SUser u)) (sl x))).
      eapply safe_weak; [apply (ps_snap_put _ _ _ _ HS)|]. intros r _. split; [constructor | reflexivity].
  Qed.

  Lemma observes_nonneg : forall l : list (event X), 0 <= observes l.
  Proof.
    clear. induction l as [|[o|de into] l IH]; [cbn; lia| |].
    - change (observes (Observes o :: l)) with (observes l + 1). lia.
    - exact IH.
  Qed.

  Theorem life_room : forall l n (h : handler X), 0 <= n -> (n + observes l) * (n + observes l) * V <= i64_max ->
    size (hl h) * V <= u64_max -> Forall (event_fits V) l -> Forall (leaf_calm n) (hl h) ->
    safe (live h l) (fun h' => grow (n + observes l) (hl h) (hl h')).
  Proof.
    induction l as [|e l IH]; intros n h Hn HB Hs Hf H.
    - apply safe_ret. apply (grow_same n); [cbn; lia | exact H].
    - inversion Hf as [|? ? He Hf']; subst. pose proof (observes_nonneg l) as Ho.
      destruct e as [o|de into]; cbn [live].
      + assert (E : observes (Observes o :: l) = observes l + 1) by reflexivity. rewrite E in HB |- *.
        assert (HB1 : (n + 1) * (n + 1) * V <= i64_max).
        { etransitivity; [|exact HB]. apply Z.mul_le_mono_nonneg_r; [lia|]. apply Z.mul_le_mono_nonneg; lia. }
        eapply safe_bind; [apply (proj1 (proj2 (tree_handle_room n o Hn HB1 He))); assumption|].
        intros [h' m] [[G L] B]. cbn [fst snd] in *.
        eapply safe_weak; [apply (IH (n + 1)); [lia | | unfold size; rewrite L; exact Hs | exact Hf' | exact G]|].
        * replace (n + 1 + observes l) with (n + (observes l + 1)) by lia. exact HB.
        * intros h2 [G2 L2]. replace (n + 1 + observes l) with (n + (observes l + 1)) in G2 by lia.
          split; [exact G2 | rewrite L2; exact L].
      + assert (E : observes (Snaps de into :: l) = observes l) by reflexivity. rewrite E in HB |- *.
        assert (HB1 : n * n * V <= i64_max).
        { etransitivity; [|exact HB]. apply Z.mul_le_mono_nonneg_r; [lia|]. apply Z.mul_le_mono_nonneg; lia. }
        eapply safe_bind; [apply (proj1 (proj2 (tree_put_room n Hn HB1))); assumption|].
        intros [h' s] [G L]. cbn [fst] in *.
        eapply safe_weak; [apply (IH n); [exact Hn | exact HB | unfold size; rewrite L; exact Hs | exact Hf' | exact G]|].
        intros h2 [G2 L2]. split; [exact G2 | rewrite L2; exact L].
  Qed.
End Room.

(** ** New instruments *)

Section New.
  Context {X : ext}.
  Variables (k : cfg) (lo hi V : Z).
  Notation safe := (safe k lo hi).
  Notation calm := (calm (X := X) k lo hi V).

  Lemma new_counter_calm : forall name, calm 0 (ICounter (counter_new name)).
  Proof. intros. split; [split; [constructor | exact I]|]. cbn. lia. Qed.
  Lemma new_gauge_calm : forall name, calm 0 (IGauge (gauge_new name)).
  Proof. intros. split; [split; [constructor | exact I]|]. split; exact I. Qed.

  Lemma repeat_calm : forall n, Forall (bucket_calm V 0) (repeat bucket_default n) /\ counts (repeat bucket_default n) = 0.
  Proof.
    induction n as [|n [A B]]; [split; [constructor | reflexivity]|]. cbn [repeat]. split.
    - constructor; [unfold bucket_calm; cbn; lia | exact A].
    - rewrite counts_cons, B. reflexivity.
  Qed.

  Lemma new_tracking_calm : forall name s, safe (gauge_set_tracking (gauge_new name) s) (fun g => calm 0 (IGauge g)).
  Proof.
    intros name [|s]; cbn [gauge_set_tracking]; [apply safe_ret, new_gauge_calm|]. unfold buckets_new, buckets_initialized.
    eapply (safe_bind _ _ _ _ _ _ _ (fun b => (b_current_idx b < length (b_buckets b))%nat
      /\ b_buckets b = repeat bucket_default (S s))).
    { eapply safe_bind; [apply safe_now|]. intros t _. apply safe_ret. cbn. split; [lia | reflexivity]. }
    intros b [Hb E]. apply safe_ret. split; [split; [constructor | exact Hb]|].
    destruct (repeat_calm (S s)) as [A B]. split; [exact I|].
    cbn [g_tracking]. rewrite E. split; [exact A|]. rewrite B. lia.
  Qed.

  Lemma new_meter_calm : forall al name, manageable k lo hi (5 * nanos_per_sec) ->
    safe (meter_new al name) (fun m => calm 0 (IMeter m)).
  Proof.
    intros al name H5. unfold meter_new, std_meter_default. eapply safe_bind; [apply safe_now|]. intros t _.
    eapply safe_bind with (P := fun s => sm_count s = 0 /\ lo <= sm_start s).
    - eapply safe_bind; [apply safe_now|]. intros t' Ht. cbv beta in Ht.
      eapply safe_bind; [apply safe_add_instant; unfold manageable in H5; lia|]. intros nt _.
      apply safe_ret. cbn. split; [reflexivity | lia].
    - intros s [E1 E2]. apply safe_ret. split; [split; [repeat constructor; apply H5 | exact I]|].
      unfold meter_calm. cbn [m_inner]. rewrite E1. split; [lia | exact E2].
  Qed.

  Lemma new_value_meter_calm : forall al name, manageable k lo hi (5 * nanos_per_sec) ->
    safe (value_meter_new al name) (fun m => calm 0 (IValueMeter m)).
  Proof.
    intros al name H5. unfold value_meter_new. eapply safe_bind; [apply new_meter_calm, H5|]. intros m Hm. apply safe_ret. exact Hm.
  Qed.
End New.
