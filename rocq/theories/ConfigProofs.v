(** Proofs about configuring components. *)
From Coq Require Import ZArith Bool String List Lia Floats.SpecFloat.
From Verif Require Import Base SpecRun MonadFacts ModelObservation ModelLabelFilter ModelSnapshot
  ModelBuckets ModelCounter ModelGauge ModelMeter ModelHistogram ModelSwitches ModelInstrument ModelTree ModelProcessor
  ModelDriver ModelValues ModelConfig SpecConfig.
Import ListNotations.
Open Scope Z_scope.

Section Engine.
  Context {A U : Type} (config : A -> setting -> M A) (upd : A -> U -> M (A * Z)).

  Lemma run_field {B} (get : A -> B) (pick : setting -> option B) :
    (forall x s k c x' c', config x s k c = Ok x' c' ->
       get x' = match pick s with Some b => b | None => get x end) ->
    (forall x u k c x' n c', upd x u k c = Ok (x', n) c' -> get x' = get x) ->
    forall h x k c x' ns c',
      run_all (live config upd) x h k c = Ok (x', ns) c' -> get x' = asked pick (get x) h.
  Proof.
    intros Hc Hu. induction h as [|e h IH]; intros x k c x' ns c' R.
    - cbn in R. injection R as <- _ _. reflexivity.
    - cbn [run_all] in R. apply bind_ok in R as ([x1 n] & c1 & R1 & R).
      apply bind_ok in R as ([x2 ns2] & c2 & R2 & R). injection R as <- _ _.
      rewrite (IH _ _ _ _ _ _ R2). unfold asked, latest. cbn [fold_left]. f_equal.
      destruct e as [s|u]; cbn [live] in R1.
      + apply bind_ok in R1 as (x3 & c3 & R1 & R3). injection R3 as <- _ _. apply (Hc _ _ _ _ _ _ R1).
      + apply (Hu _ _ _ _ _ _ _ R1).
  Qed.

  Lemma run_bare (bare : A -> A) :
    (forall x s k c, presentation s = true -> exists x', config x s k c = Ok x' c /\ bare x' = bare x) ->
    (forall x s k c, presentation s = false ->
       config (bare x) s k c =
       match config x s k c with Ok x' c' => Ok (bare x') c' | Panic => Panic | NoFuel => NoFuel end) ->
    (forall x u k c,
       upd (bare x) u k c =
       match upd x u k c with Ok (x', n) c' => Ok (bare x', n) c' | Panic => Panic | NoFuel => NoFuel end) ->
    forall h x k c x' ns c',
      run_all (live config upd) x h k c = Ok (x', ns) c' ->
      exists ns', run_all (live config upd) (bare x) (unadorned h) k c = Ok (bare x', ns') c'.
  Proof.
    intros Hp Hn Hu. induction h as [|e h IH]; intros x k c x' ns c' R.
    - cbn in R. injection R as <- _ <-. exists []. reflexivity.
    - cbn [run_all] in R. apply bind_ok in R as ([x1 n] & c1 & R1 & R).
      apply bind_ok in R as ([x2 ns2] & c2 & R2 & R). injection R as <- _ <-.
      destruct (IH _ _ _ _ _ _ R2) as (ns' & R3).
      destruct e as [s|u]; cbn [live] in R1.
      + apply bind_ok in R1 as (x3 & c3 & R1 & R4). injection R4 as -> _ ->.
        unfold unadorned. cbn [filter]. fold (unadorned h). destruct (presentation s) eqn:P; cbn [negb].
        * destruct (Hp x s k c P) as (x4 & E & B). rewrite E in R1. injection R1 as -> ->.
          rewrite <- B. exists ns'. exact R3.
        * pose proof (Hn x s k c P) as E. rewrite R1 in E. exists (0 :: ns').
          cbn [run_all live]. unfold bind. rewrite E. cbn. rewrite R3. reflexivity.
      + unfold unadorned. cbn [filter]. fold (unadorned h).
        pose proof (Hu x u k c) as E. rewrite R1 in E. exists (n :: ns').
        cbn [run_all live]. unfold bind. rewrite E. rewrite R3. reflexivity.
  Qed.

  (** Both at once for several fields is left to the instances. *)
End Engine.

Lemma label_different name : String.eqb ("_description_" ++ name) ("_title_" ++ name) = false.
Proof. reflexivity. Qed.

(** The descriptive fields of an instrument in an empty snapshot. *)
Lemma put_postfixed_empty t d name b :
  put_postfixed_descriptives (Descr t d) name [] b =
  if b then text_field ("_title_" ++ name) t ++ text_field ("_description_" ++ name) d else [].
Proof.
  unfold put_postfixed_descriptives. destruct b; cbn [negb]; [|reflexivity].
  change (title_field_label ++ "_" ++ name)%string with ("_title_" ++ name)%string.
  change (description_field_label ++ "_" ++ name)%string with ("_description_" ++ name)%string.
  destruct t as [t|], d as [d|]; cbn [d_title d_description put_text_once lookup push text_field app]; try reflexivity.
Qed.

(** [config] only sets the field of the setting. *)
Ltac set_field :=
  let x := fresh "x" in let s := fresh "s" in let R := fresh "R" in
  intros x s ? ? ? ? R; destruct s; cbn in R; try (injection R as <- _; reflexivity).

(** Both computations do the same. *)
Ltac same_run :=
  repeat first
    [ reflexivity
    | match goal with
      | |- context [match ?e with _ => _ end] =>
          lazymatch e with
          | context [match _ with _ => _ end] => fail
          | _ => destruct e
          end
      end ].

(** An update keeps the field, by lemma [L]. *)
Ltac kept L :=
  let H := fresh "H" in
  intros ? ? ? ? ? ? ? H; apply L in H; intuition congruence.

(** ** Counter *)

Definition bare_counter (n : string) (x : counter) : counter := Counter n no_descr (c_count x).

Lemma counter_update_keeps x u k (c : clock) x' n c' :
  counter_update x u k c = Ok (x', n) c' -> c_name x' = c_name x /\ c_descr x' = c_descr x.
Proof.
  intros R. destruct u; unfold counter_update, counter_inc, counter_inc_by in R; steps; auto.
Qed.

Lemma counter_update_bare nm x u k (c : clock) :
  counter_update (bare_counter nm x) u k c =
  match counter_update x u k c with
  | Ok (x', n) c' => Ok (bare_counter nm x', n) c' | Panic => Panic | NoFuel => NoFuel
  end.
Proof.
  destruct u; unfold counter_update, counter_inc, counter_inc_by, bind, ret, bare_counter; cbn [c_count c_name c_descr];
    same_run.
Qed.

Lemma counter_life name h k c x ns c' :
  run_all (live counter_config counter_update) (counter_new name) h k c = Ok (x, ns) c' ->
  exists y ns',
    run_all (live counter_config counter_update) (counter_new name) (unadorned h) k c = Ok (y, ns') c' /\
    forall b, counter_put x b [] =
              descriptive_fields b (asked a_name name h) h ++
              [(asked a_name name h, UInt (counter_get y))].
Proof.
  intros R.
  destruct (run_bare counter_config counter_update (bare_counter name)
              ltac:(intros; destruct s; try discriminate; eexists; split; reflexivity)
              ltac:(intros; destruct s; try discriminate; reflexivity)
              (counter_update_bare name) h _ _ _ _ _ _ R) as (ns' & R').
  exists (bare_counter name x), ns'. split; [exact R'|]. intros b.
  pose proof (run_field counter_config counter_update c_name a_name ltac:(set_field)
                ltac:(kept counter_update_keeps) _ _ _ _ _ _ _ R) as En.
  pose proof (run_field counter_config counter_update (fun x => d_title (c_descr x)) a_title ltac:(set_field)
                ltac:(kept counter_update_keeps) _ _ _ _ _ _ _ R) as Et.
  pose proof (run_field counter_config counter_update (fun x => d_description (c_descr x)) a_description
                ltac:(set_field) ltac:(kept counter_update_keeps) _ _ _ _ _ _ _ R) as Ed.
  destruct x as [n [t d] v]. cbn in En, Et, Ed. subst n t d.
  unfold counter_put. cbn [c_descr c_name c_count]. rewrite put_postfixed_empty. reflexivity.
Qed.

(** ** Gauge *)

Definition bare_gauge (n : string) (x : gauge) : gauge :=
  Gauge n no_descr (g_value x) (g_tracking x) (g_display_time_unit x) false.

Definition gauge_options (x : gauge) := (g_name x, g_descr x, g_display_time_unit x, g_group_values x).

Lemma gauge_set_keeps x v k (c : clock) x' c' :
  gauge_set x v k c = Ok x' c' -> gauge_options x' = gauge_options x.
Proof.
  intros R. unfold gauge_set in R. destruct (g_value x); steps;
    match goal with o : option Z |- _ => destruct o end; steps; reflexivity.
Qed.

Lemma gauge_set_tracking_keeps x v k (c : clock) x' c' :
  gauge_set_tracking x v k c = Ok x' c' -> gauge_options x' = gauge_options x.
Proof. intros R. unfold gauge_set_tracking in R. destruct v; steps; reflexivity. Qed.

Lemma gauge_update_keeps x u k (c : clock) x' n c' :
  gauge_update x u k c = Ok (x', n) c' -> gauge_options x' = gauge_options x.
Proof.
  intros R. destruct u; unfold gauge_update in R; steps; try reflexivity. eapply gauge_set_keeps; eassumption.
Qed.

Lemma gauge_set_bare nm x v k (c : clock) :
  gauge_set (bare_gauge nm x) v k c =
  match gauge_set x v k c with
  | Ok x' c' => Ok (bare_gauge nm x') c' | Panic => Panic | NoFuel => NoFuel
  end.
Proof.
  unfold gauge_set, bind, ret. cbn [g_value g_tracking bare_gauge].
  destruct (g_value x) as [z|].
  - change (gauge_next_value (bare_gauge nm x)) with (@gauge_next_value clock x).
    destruct (gauge_next_value x (Some z) v k c) as [[nv|] c1| |]; [|reflexivity..].
    destruct (gauge_track (g_tracking x) nv k c1); reflexivity.
  - change (gauge_next_value (bare_gauge nm x)) with (@gauge_next_value clock x).
    destruct (gauge_next_value x None v k c) as [[nv|] c1| |]; [|reflexivity..].
    destruct (gauge_track (g_tracking x) nv k c1); reflexivity.
Qed.

Lemma gauge_update_bare nm x u k (c : clock) :
  gauge_update (bare_gauge nm x) u k c =
  match gauge_update x u k c with
  | Ok (x', n) c' => Ok (bare_gauge nm x', n) c' | Panic => Panic | NoFuel => NoFuel
  end.
Proof.
  destruct u; try reflexivity. unfold gauge_update, bind. rewrite gauge_set_bare.
  destruct (gauge_set x v k c); reflexivity.
Qed.

Lemma gauge_config_bare nm x s k (c : clock) :
  presentation s = false ->
  gauge_config (bare_gauge nm x) s k c =
  match gauge_config x s k c with
  | Ok x' c' => Ok (bare_gauge nm x') c' | Panic => Panic | NoFuel => NoFuel
  end.
Proof.
  destruct s; try discriminate; try reflexivity; intros _; cbn [gauge_config].
  - unfold gauge_set_tracking, bind, ret. destruct for_seconds; [reflexivity|].
    destruct (buckets_new bucket_default (S for_seconds) k c); reflexivity.
  - apply gauge_set_bare.
Qed.

Lemma string_app_assoc a b c : ((a ++ b) ++ c = a ++ b ++ c)%string.
Proof. induction a as [|x a IH]; cbn; [reflexivity | now rewrite IH]. Qed.

Lemma gauge_tracked h x0 k c x ns c' :
  run_all (live gauge_config gauge_update) x0 h k c = Ok (x, ns) c' ->
  (match g_tracking x with Some _ => true | None => false end) =
  asked a_tracking (match g_tracking x0 with Some _ => true | None => false end) h.
Proof.
  assert (Set_ : forall x v k (c : clock) x' c', gauge_set x v k c = Ok x' c' ->
            (match g_tracking x' with Some _ => true | None => false end) =
            (match g_tracking x with Some _ => true | None => false end)).
  { clear. intros x v k c x' c' R. unfold gauge_set, gauge_track in R. destruct (g_value x); steps;
      match goal with o : option Z |- _ => destruct o end; steps; try reflexivity;
      destruct (g_tracking x); steps; reflexivity. }
  intros R. refine (run_field gauge_config gauge_update
    (fun x => match g_tracking x with Some _ => true | None => false end) a_tracking _ _ _ _ _ _ _ _ _ R); clear - Set_.
  - set_field.
    + destruct for_seconds; cbn in R; [injection R as <- _; reflexivity|].
      unfold gauge_set_tracking in R. steps. reflexivity.
    + apply (Set_ _ _ _ _ _ _ R).
  - intros x u k c x' n c' R. destruct u; unfold gauge_update in R; steps; try reflexivity.
    eapply Set_; eassumption.
Qed.

Lemma stats_fields s into p :
  exists l, map fst l = tracked_labels /\
    stats_add_to_snapshot s into (Some p) = into ++ map (fun '(l, i) => ((p ++ "_" ++ l)%string, i)) l /\
    forall into', stats_add_to_snapshot s into' None = into' ++ l.
Proof.
  exists [("peak"%string, Int (bs_peak s)); ("peak_min"%string, Int (bs_peak_min s));
          ("peak_avg"%string, Float (bs_peak_avg s)); ("bottom"%string, Int (bs_bottom s));
          ("bottom_max"%string, Int (bs_bottom_max s)); ("bottom_avg"%string, Float (bs_bottom_avg s));
          ("avg"%string, Float (bs_avg s))].
  split; [reflexivity|]. unfold stats_add_to_snapshot, push.
  split; [|intros into'; rewrite <- !app_assoc; reflexivity].
  rewrite <- !app_assoc, !string_app_assoc. reflexivity.
Qed.

(** What a gauge writes into an empty snapshot *)
Lemma gauge_put_fields nm v tr u k (c : clock) y' s c'' :
  gauge_put (Gauge nm no_descr v tr u false) false [] k c = Ok (y', s) c'' ->
  exists tracked,
    map fst tracked = (if match tr with Some _ => true | None => false end
                       then match v with Some _ => tracked_labels | None => [] end else []) /\
    s = gauge_fields false nm v tracked /\
    forall n t d g b, exists x', gauge_put (Gauge n (Descr t d) v tr u g) b [] k c =
      Ok (x', (if b then text_field ("_title_" ++ n) t ++ text_field ("_description_" ++ n) d else []) ++
              gauge_fields g n v tracked) c''.
Proof.
  intros R. unfold gauge_put in *. cbn [g_descr g_name g_group_values] in *.
  change (put_postfixed_descriptives no_descr nm [] false) with (@nil (string * item_kind)) in R.
  unfold gauge_put_values in *. cbn [g_value g_tracking g_name g_group_values] in *.
  destruct v as [v|].
  - destruct tr as [tr|].
    + apply bind_ok in R as ([bs st] & c1 & R1 & R).
      destruct st as [st|].
      * injection R as _ <- <-.
        destruct (stats_fields st [(nm, Int v)] nm) as (l & El & E1 & E2).
        exists l. split; [exact El|]. split; [exact E1|]. intros n t d g b.
        rewrite put_postfixed_empty. set (pre := if b then _ else _). clearbody pre.
        destruct (stats_fields st (push pre n (Int v)) n) as (l' & El' & E1' & E2').
        assert (l' = l) as -> by (rewrite <- (app_nil_l l), <- (app_nil_l l'), <- E2, <- E2'; reflexivity).
        destruct g.
        -- eexists. unfold bind, ret. rewrite R1. cbv beta iota zeta. rewrite E2. reflexivity.
        -- eexists. unfold bind, ret. rewrite R1. cbv beta iota zeta. rewrite E1'. unfold push. rewrite <- app_assoc. reflexivity.
      * exfalso. unfold from_buckets in R1. steps.
        match goal with H : (if ?e then _ else _) _ _ = Ok _ _ |- _ => destruct e end; steps; discriminate.
    + injection R as _ <- <-. exists []. split; [reflexivity|]. split; [reflexivity|]. intros n t d g b.
      rewrite put_postfixed_empty. destruct g; eexists; reflexivity.
  - injection R as _ <- <-. exists []. split; [destruct tr; reflexivity|]. split; [reflexivity|].
    intros n t d g b. rewrite put_postfixed_empty.
    destruct g; eexists; [reflexivity|]. rewrite app_nil_r; reflexivity.
Qed.

Lemma gauge_life name h k c x ns c' :
  run_all (live gauge_config gauge_update) (gauge_new name) h k c = Ok (x, ns) c' ->
  g_display_time_unit x = asked a_unit Microseconds h /\
  exists y ns',
    run_all (live gauge_config gauge_update) (gauge_new name) (unadorned h) k c = Ok (y, ns') c' /\
    gauge_get x = gauge_get y /\
    forall k2 c2 y' s c3, gauge_put y false [] k2 c2 = Ok (y', s) c3 ->
      exists tracked,
        map fst tracked = (if asked a_tracking false h
                           then match gauge_get y with Some _ => tracked_labels | None => [] end else []) /\
        s = gauge_fields false name (gauge_get y) tracked /\
        forall b, exists x', gauge_put x b [] k2 c2 =
          Ok (x', descriptive_fields b (asked a_name name h) h ++
                    gauge_fields (asked a_group false h) (asked a_name name h) (gauge_get y) tracked) c3.
Proof.
  intros R.
  destruct (run_bare gauge_config gauge_update (bare_gauge name)
              ltac:(intros; destruct s; try discriminate; eexists; split; reflexivity)
              (gauge_config_bare name)
              (gauge_update_bare name) h _ _ _ _ _ _ R) as (ns' & R').
  assert (C : forall B (f : string * descr * time_unit * bool -> B) pick,
    (forall x s k (c : clock) x' c', gauge_config x s k c = Ok x' c' ->
       f (gauge_options x') = match pick s with Some b => b | None => f (gauge_options x) end) ->
    f (gauge_options x) = asked pick (f (gauge_options (gauge_new name))) h).
  { intros B f pick Hc. refine (run_field gauge_config gauge_update (fun x => f (gauge_options x)) pick Hc _ _ _ _ _ _ _ _ R).
    intros x0 u k0 c0 x' n c'0 H. now rewrite (gauge_update_keeps _ _ _ _ _ _ _ H). }
  pose proof (C _ (fun '(n, _, _, _) => n) a_name ltac:(set_field;
      [now rewrite (gauge_set_tracking_keeps _ _ _ _ _ _ R0) | now rewrite (gauge_set_keeps _ _ _ _ _ _ R0)])) as En.
  pose proof (C _ (fun '(_, d, _, _) => d_title d) a_title ltac:(set_field;
      [now rewrite (gauge_set_tracking_keeps _ _ _ _ _ _ R0) | now rewrite (gauge_set_keeps _ _ _ _ _ _ R0)])) as Et.
  pose proof (C _ (fun '(_, d, _, _) => d_description d) a_description ltac:(set_field;
      [now rewrite (gauge_set_tracking_keeps _ _ _ _ _ _ R0) | now rewrite (gauge_set_keeps _ _ _ _ _ _ R0)])) as Ed.
  pose proof (C _ (fun '(_, _, u, _) => u) a_unit ltac:(set_field;
      [now rewrite (gauge_set_tracking_keeps _ _ _ _ _ _ R0) | now rewrite (gauge_set_keeps _ _ _ _ _ _ R0)])) as Eu.
  pose proof (C _ (fun '(_, _, _, g) => g) a_group ltac:(set_field;
      [now rewrite (gauge_set_tracking_keeps _ _ _ _ _ _ R0) | now rewrite (gauge_set_keeps _ _ _ _ _ _ R0)])) as Eg.
  pose proof (gauge_tracked _ _ _ _ _ _ _ R) as Etr. cbn in Etr.
  cbn in En, Et, Ed, Eu, Eg. clear C.
  split; [exact Eu|].
  exists (bare_gauge name x), ns'. split; [exact R'|]. split; [reflexivity|].
  intros k2 c2 y' s c3 P. rewrite <- Etr.
  destruct x as [n [t d] v tr u g]. cbn in En, Et, Ed, Eg. unfold bare_gauge in P |- *. cbn [g_value g_tracking g_display_time_unit gauge_get] in *.
  destruct (gauge_put_fields name v tr u k2 c2 y' s c3 P) as (tracked & E1 & E2 & E3).
  exists tracked. split; [exact E1|]. split; [exact E2|]. intros b.
  unfold descriptive_fields. rewrite <- Et, <- Ed, <- En, <- Eg. apply E3.
Qed.

(** ** Meter *)

Lemma run_option {A U O B} (config : A -> setting -> M A) (upd : A -> U -> M (A * Z)) (opts : A -> O)
  (f : O -> B) (pick : setting -> option B) :
  (forall x s k c x' c', config x s k c = Ok x' c' ->
     f (opts x') = match pick s with Some b => b | None => f (opts x) end) ->
  (forall x u k c x' n c', upd x u k c = Ok (x', n) c' -> opts x' = opts x) ->
  forall h x k c x' ns c',
    run_all (live config upd) x h k c = Ok (x', ns) c' -> f (opts x') = asked pick (f (opts x)) h.
Proof.
  intros Hc Hu h x k c x' ns c' R.
  refine (run_field config upd (fun x => f (opts x)) pick Hc _ _ _ _ _ _ _ _ R).
  intros x0 u k0 c0 x1 n c1 H. now rewrite (Hu _ _ _ _ _ _ _ H).
Qed.

Definition bare_meter (n : string) (x : meter) : meter :=
  Meter n no_descr (m_last_tick x) (m_inner x) default_cutoff true false false.

Definition meter_options (x : meter) :=
  (m_name x, m_descr x, m_lower_cutoff x, (m_one_minute x, m_five_minute x, m_fifteen_minute x)).

Lemma meter_maybe_tick_keeps x k (c : clock) x' c' :
  meter_maybe_tick x k c = Ok x' c' -> meter_options x' = meter_options x.
Proof.
  intros R. unfold meter_maybe_tick in R. steps.
  match goal with H : (if ?e then _ else _) _ _ = Ok _ _ |- _ => destruct e end; steps; reflexivity.
Qed.
Lemma meter_mark_keeps x n k (c : clock) x' c' :
  meter_mark x n k c = Ok x' c' -> meter_options x' = meter_options x.
Proof. intros R. unfold meter_mark in R. steps. reflexivity. Qed.
Lemma meter_update_keeps x u k (c : clock) x' n c' :
  meter_update x u k c = Ok (x', n) c' -> meter_options x' = meter_options x.
Proof.
  intros R. unfold meter_update in R. apply bind_ok in R as (x1 & c1 & R1 & R).
  rewrite <- (meter_maybe_tick_keeps _ _ _ _ _ R1).
  destruct u; try match goal with H : (if ?e then _ else _) _ _ = Ok _ _ |- _ => destruct e end;
    steps; eauto using meter_mark_keeps.
Qed.

Definition map_ok {A B} (f : A -> B) {W} (r : res W A) : res W B :=
  match r with Ok a w => Ok (f a) w | Panic => Panic | NoFuel => NoFuel end.

Lemma meter_maybe_tick_bare nm x k (c : clock) :
  meter_maybe_tick (bare_meter nm x) k c = map_ok (bare_meter nm) (meter_maybe_tick x k c).
Proof.
  unfold meter_maybe_tick, bind, ret. cbn [m_last_tick m_inner bare_meter].
  destruct (elapsed (m_last_tick x) k c) as [e c1| |]; try reflexivity.
  destruct (_ <=? e); [|reflexivity].
  destruct (std_tick (m_inner x) k c1) as [s c2| |]; try reflexivity.
Qed.
Lemma meter_mark_bare nm x n k (c : clock) :
  meter_mark (bare_meter nm x) n k c = map_ok (bare_meter nm) (meter_mark x n k c).
Proof.
  unfold meter_mark, bind, ret. cbn [m_inner bare_meter].
  destruct (std_mark (m_inner x) n k c); reflexivity.
Qed.
Lemma meter_update_bare nm x u k (c : clock) :
  meter_update (bare_meter nm x) u k c =
  match meter_update x u k c with
  | Ok (x', n) c' => Ok (bare_meter nm x', n) c' | Panic => Panic | NoFuel => NoFuel
  end.
Proof.
  unfold meter_update, bind. rewrite meter_maybe_tick_bare.
  destruct (meter_maybe_tick x k c) as [m c1| |]; [|reflexivity..]. cbn [map_ok].
  destruct u; try match goal with |- context [if ?e then _ else _] => destruct e; [|reflexivity] end;
    rewrite meter_mark_bare; destruct (meter_mark m _ k c1); reflexivity.
Qed.

(** What a meter writes into an empty snapshot *)
Lemma meter_put_fields nm lt inner cut0 o0 f0 ff0 k (c : clock) y' s c'' :
  meter_put (Meter nm no_descr lt inner (S754_infinity true) true true true) false [] k c = Ok (y', s) c'' ->
  exists n r1 r5 r15,
    s = meter_fields nm n (plain_rate "one_minute" r1) (plain_rate "five_minutes" r5)
          (plain_rate "fifteen_minutes" r15) /\
    forall name t d b, exists x',
      meter_put (Meter name (Descr t d) lt inner cut0 o0 f0 ff0) b [] k c =
      Ok (x', (if b then text_field ("_title_" ++ name) t ++ text_field ("_description_" ++ name) d else []) ++
              meter_fields name n (rate_field o0 "one_minute" cut0 r1) (rate_field f0 "five_minutes" cut0 r5)
                (rate_field ff0 "fifteen_minutes" cut0 r15)) c''.
Proof.
  intros R. unfold meter_put in R. apply bind_ok in R as ([m ms] & c1 & R1 & R). injection R as _ <- <-.
  unfold meter_get_snapshot in R1. apply bind_ok in R1 as (m1 & c2 & R1 & R2).
  apply bind_ok in R2 as ([s2 snap] & c3 & R2 & R). injection R as <- <- <-.
  assert (E : forall name ds, exists m2,
    meter_maybe_tick (Meter name ds lt inner cut0 o0 f0 ff0) k c = Ok m2 c2 /\
    m_inner m2 = m_inner m1 /\ meter_options m2 = (name, ds, cut0, (o0, f0, ff0)) /\
    meter_options m1 = (nm, no_descr, S754_infinity true, (true, true, true))).
  { intros name ds. unfold meter_maybe_tick in *. cbn [m_last_tick m_inner] in *.
    apply bind_ok in R1 as (e & c4 & R1 & R). unfold bind. rewrite R1. destruct (_ <=? e).
    - apply bind_ok in R as (s3 & c5 & R3 & R). rewrite R3. steps. eexists. split; [reflexivity|].
      repeat split.
    - injection R as <- <-. eexists. repeat split. }
  pose proof (E ""%string no_descr) as (_ & _ & _ & _ & E1). injection E1 as En Ed Ec E1 E5 E15.
  exists (wrap_u64 (ss_count snap)), (ss_rate1 snap), (ss_rate5 snap), (ss_rate15 snap).
  assert (C : forall r, cut (S754_infinity true) r = r).
  { intros r. unfold cut. destruct r as [[]|[]| |[]]; reflexivity. }
  split.
  - cbn [meter_with m_name m_descr m_lower_cutoff m_one_minute m_five_minute m_fifteen_minute].
    rewrite En, Ed, Ec, E1, E5, E15, !C. reflexivity.
  - intros name t d b. destruct (E name (Descr t d)) as (m2 & E2 & Ei & Eo & _).
    injection Eo as En2 Ed2 Ec2 E12 E52 E152.
    unfold meter_put, meter_get_snapshot, bind. rewrite E2. rewrite Ei, R2. unfold ret. eexists. f_equal. f_equal.
    cbn [meter_with m_name m_descr m_lower_cutoff m_one_minute m_five_minute m_fifteen_minute].
    rewrite En2, Ed2, Ec2, E12, E52, E152. unfold meter_snapshot_put. rewrite put_postfixed_empty.
    unfold meter_fields, rate_field. destruct o0, f0, ff0; reflexivity.
Qed.

Lemma meter_life al name k0 c0 x0 h k c x ns c' :
  meter_new al name k0 c0 = Ok x0 c ->
  run_all (live meter_config meter_update) x0 h k c = Ok (x, ns) c' ->
  exists y ns',
    run_all (live meter_config meter_update) x0 (unadorned h) k c = Ok (y, ns') c' /\
    forall k2 c2 y' s c3,
      (let* all := configured meter_config y show_everything in meter_put all false []) k2 c2 = Ok (y', s) c3 ->
      exists n r1 r5 r15,
        s = meter_fields name n (plain_rate "one_minute" r1) (plain_rate "five_minutes" r5)
              (plain_rate "fifteen_minutes" r15) /\
        forall b, exists x', meter_put x b [] k2 c2 =
          Ok (x', descriptive_fields b (asked a_name name h) h ++
                  let cutoff := asked a_cutoff one_thousandth h in
                  meter_fields (asked a_name name h) n
                    (rate_field (asked a_one true h) "one_minute" cutoff r1)
                    (rate_field (asked a_five false h) "five_minutes" cutoff r5)
                    (rate_field (asked a_fifteen false h) "fifteen_minutes" cutoff r15)) c3.
Proof.
  intros N R.
  assert (meter_options x0 = (name, no_descr, one_thousandth, (true, false, false)) /\ bare_meter name x0 = x0) as [O B].
  { unfold meter_new in N. steps. split; reflexivity. }
  destruct (run_bare meter_config meter_update (bare_meter name)
              ltac:(intros; destruct s; try discriminate; eexists; split; reflexivity)
              ltac:(intros; destruct s; try discriminate; reflexivity)
              (meter_update_bare name) h _ _ _ _ _ _ R) as (ns' & R'). rewrite B in R'.
  exists (bare_meter name x), ns'. split; [exact R'|]. intros k2 c2 y' s c3 P.
  pose proof (run_option meter_config meter_update meter_options (fun '(n, _, _, _) => n) a_name ltac:(set_field)
                meter_update_keeps _ _ _ _ _ _ _ R) as En.
  pose proof (run_option meter_config meter_update meter_options (fun '(_, d, _, _) => d_title d) a_title ltac:(set_field)
                meter_update_keeps _ _ _ _ _ _ _ R) as Et.
  pose proof (run_option meter_config meter_update meter_options (fun '(_, d, _, _) => d_description d) a_description
                ltac:(set_field) meter_update_keeps _ _ _ _ _ _ _ R) as Ed.
  pose proof (run_option meter_config meter_update meter_options (fun '(_, _, c, _) => c) a_cutoff ltac:(set_field)
                meter_update_keeps _ _ _ _ _ _ _ R) as Ec.
  pose proof (run_option meter_config meter_update meter_options (fun '(_, _, _, (a, _, _)) => a) a_one ltac:(set_field)
                meter_update_keeps _ _ _ _ _ _ _ R) as E1.
  pose proof (run_option meter_config meter_update meter_options (fun '(_, _, _, (_, a, _)) => a) a_five ltac:(set_field)
                meter_update_keeps _ _ _ _ _ _ _ R) as E5.
  pose proof (run_option meter_config meter_update meter_options (fun '(_, _, _, (_, _, a)) => a) a_fifteen ltac:(set_field)
                meter_update_keeps _ _ _ _ _ _ _ R) as E15.
  rewrite O in En, Et, Ed, Ec, E1, E5, E15.
  destruct x as [n [t d] lt inner cu o f ff].
  cbn [meter_options m_name m_descr m_lower_cutoff m_one_minute m_five_minute m_fifteen_minute d_title d_description no_descr]
    in En, Et, Ed, Ec, E1, E5, E15.
  apply bind_ok in P as (all & c4 & P0 & P). cbn in P0. injection P0 as <- <-.
  destruct (meter_put_fields name lt inner cu o f ff k2 c2 y' s c3 P) as (m & r1 & r5 & r15 & Es & F).
  exists m, r1, r5, r15. split; [exact Es|]. intros b. unfold descriptive_fields.
  rewrite <- En, <- Et, <- Ed, <- Ec, <- E1, <- E5, <- E15. apply F.
Qed.

(** ** Value meter *)

Definition bare_value_meter (n : string) (x : value_meter) : value_meter :=
  ValueMeter (bare_meter n (vm_meter x)) (vm_display_time_unit x).

Definition value_meter_options (x : value_meter) := (meter_options (vm_meter x), vm_display_time_unit x).

Lemma value_meter_update_keeps x u k (c : clock) x' n c' :
  value_meter_update x u k c = Ok (x', n) c' -> value_meter_options x' = value_meter_options x.
Proof.
  intros R. destruct u; cbn in R; steps; try reflexivity.
  destruct v; cbn [convert_to_i64] in R;
    try match type of R with match ?e with _ => _ end _ _ = _ => destruct e end; steps; try reflexivity;
    unfold value_meter_options; cbn [vm_meter vm_display_time_unit]; f_equal; eauto using meter_mark_keeps.
Qed.

Lemma value_meter_update_bare nm x u k (c : clock) :
  value_meter_update (bare_value_meter nm x) u k c =
  match value_meter_update x u k c with
  | Ok (x', n) c' => Ok (bare_value_meter nm x', n) c' | Panic => Panic | NoFuel => NoFuel
  end.
Proof.
  destruct u; try reflexivity. unfold value_meter_update, bind. cbn [vm_meter vm_display_time_unit bare_value_meter].
  destruct v; try match goal with
    | |- context [match duration_to_display_value ?a ?b ?d ?e ?f with _ => _ end] =>
        destruct (duration_to_display_value a b d e f); [|reflexivity..]
    | |- context [match convert_to_i64 ?e with _ => _ end] => destruct (convert_to_i64 e); [|reflexivity]
    end; rewrite meter_mark_bare;
    match goal with |- context [meter_mark ?a ?b ?d ?e] => destruct (meter_mark a b d e) end; reflexivity.
Qed.

Lemma value_meter_life al name k0 c0 x0 h k c x ns c' :
  value_meter_new al name k0 c0 = Ok x0 c ->
  run_all (live value_meter_config value_meter_update) x0 h k c = Ok (x, ns) c' ->
  vm_display_time_unit x = asked a_unit Microseconds h /\
  exists y ns',
    run_all (live value_meter_config value_meter_update) x0 (unadorned h) k c = Ok (y, ns') c' /\
    forall k2 c2 y' s c3,
      (let* all := configured value_meter_config y show_everything in value_meter_put all false []) k2 c2 = Ok (y', s) c3 ->
      exists n r1 r5 r15,
        s = meter_fields name n (plain_rate "one_minute" r1) (plain_rate "five_minutes" r5)
              (plain_rate "fifteen_minutes" r15) /\
        forall b, exists x', value_meter_put x b [] k2 c2 =
          Ok (x', descriptive_fields b (asked a_name name h) h ++
                  let cutoff := asked a_cutoff one_thousandth h in
                  meter_fields (asked a_name name h) n
                    (rate_field (asked a_one true h) "one_minute" cutoff r1)
                    (rate_field (asked a_five false h) "five_minutes" cutoff r5)
                    (rate_field (asked a_fifteen false h) "fifteen_minutes" cutoff r15)) c3.
Proof.
  intros N R.
  assert (value_meter_options x0 = ((name, no_descr, one_thousandth, (true, false, false)), Microseconds) /\
          bare_value_meter name x0 = x0) as [O B].
  { unfold value_meter_new, meter_new in N. steps. split; reflexivity. }
  destruct (run_bare value_meter_config value_meter_update (bare_value_meter name)
              ltac:(intros; destruct s; try discriminate; eexists; split; reflexivity)
              ltac:(intros; destruct s; try discriminate; reflexivity)
              (value_meter_update_bare name) h _ _ _ _ _ _ R) as (ns' & R'). rewrite B in R'.
  pose proof (run_option value_meter_config value_meter_update value_meter_options (fun '(n, _, _, _, _) => n) a_name ltac:(set_field)
                value_meter_update_keeps _ _ _ _ _ _ _ R) as En.
  pose proof (run_option value_meter_config value_meter_update value_meter_options (fun '(_, d, _, _, _) => d_title d) a_title ltac:(set_field)
                value_meter_update_keeps _ _ _ _ _ _ _ R) as Et.
  pose proof (run_option value_meter_config value_meter_update value_meter_options (fun '(_, d, _, _, _) => d_description d) a_description
                ltac:(set_field) value_meter_update_keeps _ _ _ _ _ _ _ R) as Ed.
  pose proof (run_option value_meter_config value_meter_update value_meter_options (fun '(_, _, c, _, _) => c) a_cutoff ltac:(set_field)
                value_meter_update_keeps _ _ _ _ _ _ _ R) as Ec.
  pose proof (run_option value_meter_config value_meter_update value_meter_options (fun '(_, _, _, (a, _, _), _) => a) a_one ltac:(set_field)
                value_meter_update_keeps _ _ _ _ _ _ _ R) as E1.
  pose proof (run_option value_meter_config value_meter_update value_meter_options (fun '(_, _, _, (_, a, _), _) => a) a_five ltac:(set_field)
                value_meter_update_keeps _ _ _ _ _ _ _ R) as E5.
  pose proof (run_option value_meter_config value_meter_update value_meter_options (fun '(_, _, _, (_, _, a), _) => a) a_fifteen ltac:(set_field)
                value_meter_update_keeps _ _ _ _ _ _ _ R) as E15.
  pose proof (run_option value_meter_config value_meter_update value_meter_options snd a_unit ltac:(set_field)
                value_meter_update_keeps _ _ _ _ _ _ _ R) as Eu.
  rewrite O in En, Et, Ed, Ec, E1, E5, E15, Eu.
  split; [exact Eu|]. exists (bare_value_meter name x), ns'. split; [exact R'|]. intros k2 c2 y' s c3 P.
  destruct x as [[n [t d] lt inner cu o f ff] u].
  cbn [value_meter_options meter_options vm_meter m_name m_descr m_lower_cutoff m_one_minute m_five_minute m_fifteen_minute
       d_title d_description no_descr] in En, Et, Ed, Ec, E1, E5, E15.
  apply bind_ok in P as (all & c4 & P0 & P). cbn in P0. injection P0 as <- <-.
  unfold value_meter_put in P. apply bind_ok in P as ([m1 s1] & c5 & P1 & P2). injection P2 as _ -> ->.
  destruct (meter_put_fields name lt inner cu o f ff k2 c2 m1 s c3 P1) as (m & r1 & r5 & r15 & Es & F).
  exists m, r1, r5, r15. split; [exact Es|]. intros b. unfold descriptive_fields.
  rewrite <- En, <- Et, <- Ed, <- Ec, <- E1, <- E5, <- E15.
  destruct (F n t d b) as (m2 & F2). eexists. unfold value_meter_put, bind.
  cbn [vm_meter]. rewrite F2. reflexivity.
Qed.

(** ** Histogram *)

Definition bare_histogram {H} (n : string) (x : histogram H) : histogram H :=
  Histogram n no_descr (h_inner x) (h_last_update x) (h_max_inactivity x) (h_reset_after_inactivity x) true
    (h_display_time_unit x).

Definition histogram_options {H} (x : histogram H) :=
  (h_name x, h_descr x, h_max_inactivity x, h_reset_after_inactivity x, h_show_activity_state x,
   h_display_time_unit x).

Section Histogram.
  Context {H : histo_ops}.

  Lemma histogram_reset_keeps (x : histogram H) k (c : clock) x' c' :
    histogram_maybe_reset x k c = Ok x' c' -> histogram_options x' = histogram_options x.
  Proof.
    intros R. unfold histogram_maybe_reset in R. destruct (h_max_inactivity x); steps; try reflexivity.
    destruct (h_reset_after_inactivity x); steps; try reflexivity.
    match goal with H : (if ?e then _ else _) _ _ = Ok _ _ |- _ => destruct e end; steps; reflexivity.
  Qed.
  Lemma histogram_record_keeps (x : histogram H) v k (c : clock) x' c' :
    histogram_record x v k c = Ok x' c' -> histogram_options x' = histogram_options x.
  Proof. intros R. unfold histogram_record in R. steps. reflexivity. Qed.

  Lemma histogram_update_keeps (x : histogram H) u k (c : clock) x' n c' :
    histogram_update x u k c = Ok (x', n) c' -> histogram_options x' = histogram_options x.
  Proof.
    intros R. unfold histogram_update in R. apply bind_ok in R as (x1 & c1 & R1 & R).
    rewrite <- (histogram_reset_keeps _ _ _ _ _ R1).
    destruct u; steps; try reflexivity.
    destruct v; cbn [convert_to_i64] in R;
      try match type of R with match ?e with _ => _ end _ _ = _ => destruct e end; steps; try reflexivity;
      eauto using histogram_record_keeps.
  Qed.

  Lemma histogram_reset_bare nm (x : histogram H) k (c : clock) :
    histogram_maybe_reset (bare_histogram nm x) k c = map_ok (bare_histogram nm) (histogram_maybe_reset x k c).
  Proof.
    unfold histogram_maybe_reset, bind, ret. cbn [h_max_inactivity h_reset_after_inactivity h_last_update bare_histogram].
    destruct (h_max_inactivity x) as [d|]; [|reflexivity].
    destruct (h_reset_after_inactivity x); [|reflexivity].
    destruct (elapsed (h_last_update x) k c) as [e c1| |]; try reflexivity.
    destruct (d <? e); [|reflexivity]. destruct (histo_new H k c1); reflexivity.
  Qed.
  Lemma histogram_record_bare nm (x : histogram H) v k (c : clock) :
    histogram_record (bare_histogram nm x) v k c = map_ok (bare_histogram nm) (histogram_record x v k c).
  Proof.
    unfold histogram_record, bind, ret. cbn [h_inner bare_histogram].
    destruct (histo_update H (h_inner x) v k c); reflexivity.
  Qed.
  Lemma histogram_update_bare nm (x : histogram H) u k (c : clock) :
    histogram_update (bare_histogram nm x) u k c =
    match histogram_update x u k c with
    | Ok (x', n) c' => Ok (bare_histogram nm x', n) c' | Panic => Panic | NoFuel => NoFuel
    end.
  Proof.
    unfold histogram_update, bind. rewrite histogram_reset_bare.
    destruct (histogram_maybe_reset x k c) as [h1 c1| |]; [|reflexivity..]. cbn [map_ok].
    destruct u; try reflexivity. cbn [h_display_time_unit bare_histogram].
    destruct v; try match goal with
      | |- context [match duration_to_display_value ?a ?b ?d ?e ?f with _ => _ end] =>
          destruct (duration_to_display_value a b d e f); [|reflexivity..]
      | |- context [match convert_to_i64 ?e with _ => _ end] => destruct (convert_to_i64 e); [|reflexivity]
      end; rewrite histogram_record_bare;
      match goal with |- context [histogram_record ?a ?b ?d ?e] => destruct (histogram_record a b d e) end; reflexivity.
  Qed.

  Lemma histogram_put_fields nm inner last limit reset unit k (c : clock) s c'' :
    histogram_put (@Histogram H nm no_descr inner last limit reset true unit) false [] k c = Ok s c'' ->
    exists activity values,
      map fst activity = match limit with Some _ => ["_inactive"; "_active"]%string | None => [] end /\
      histogram_labels (map fst values) /\
      s = [(nm, ItemSnapshot (activity ++ values))] /\
      forall name t d b show,
        histogram_put (@Histogram H name (Descr t d) inner last limit reset show unit) b [] k c =
        Ok ((if b then text_field ("_title_" ++ name) t ++ text_field ("_description_" ++ name) d else []) ++
            [(name, ItemSnapshot ((if show then activity else []) ++ values))]) c''.
  Proof.
    assert (V : forall into, exists values, histogram_labels (map fst values) /\
      forall name ds show, histogram_put_histo_values (@Histogram H name ds inner last limit reset show unit) into =
                           into ++ values).
    { intros into. unfold histogram_put_histo_values. cbn [h_inner].
      destruct (0 <? hs_count (histo_snapshot H inner)).
      - eexists [_; _; _; _; _; _]. split; [|intros; unfold push; rewrite <- !app_assoc; reflexivity].
        right. right. reflexivity.
      - eexists [_]. split; [|intros; reflexivity]. right. left. reflexivity. }
    intros R. unfold histogram_put in *. cbn [h_descr h_name] in *.
    apply bind_ok in R as (lv & c1 & R1 & R). injection R as <- <-.
    unfold histogram_put_values in *. cbn [h_max_inactivity h_last_update h_show_activity_state] in *.
    apply bind_ok in R1 as (act & c2 & R1 & R).
    destruct limit as [l|].
    - apply bind_ok in R1 as (e & c3 & R1 & R2). injection R2 as <- <-.
      set (activity := [("_inactive"%string, Boolean (negb (e <? l))); ("_active"%string, Boolean (e <? l))]).
      destruct (V activity) as (values & L1 & V1). destruct (V []) as (values' & L2 & V2).
      assert (values' = values) as ->.
      { clear - V1 V2. specialize (V1 ""%string no_descr true). specialize (V2 ""%string no_descr true).
        unfold histogram_put_histo_values in *. cbn [h_inner] in *.
        destruct (0 <? _); unfold push in *; cbn in V1, V2; congruence. }
      exists activity, (if e <? l then values else []). split; [reflexivity|].
      split; [destruct (e <? l); [exact L1 | left; reflexivity]|].
      unfold push_activity, push in R. cbn [app snapshot_default] in R.
      split.
      + destruct (e <? l); injection R as <- <-; [rewrite V1|]; reflexivity.
      + intros name t d b show. unfold bind. rewrite R1. unfold ret. rewrite put_postfixed_empty.
        unfold push_activity, push. cbn [app snapshot_default]. destruct (e <? l), show; injection R as _ <-; rewrite ?V1, ?V2; reflexivity.
    - injection R1 as <- <-. injection R as <- <-.
      destruct (V []) as (values & L2 & V2). exists [], values. split; [reflexivity|]. split; [exact L2|].
      split; [unfold snapshot_default; rewrite V2; reflexivity|].
      intros name t d b show. unfold bind, ret, snapshot_default. rewrite V2, put_postfixed_empty. destruct show; reflexivity.
  Qed.

  Lemma histogram_life name k0 c0 x0 h k c x ns c' :
    histogram_new H name k0 c0 = Ok x0 c ->
    run_all (live histogram_config histogram_update) x0 h k c = Ok (x, ns) c' ->
    (h_display_time_unit x = asked a_unit Microseconds h /\
     h_max_inactivity x = asked a_limit None h /\
     h_reset_after_inactivity x = asked a_reset true h) /\
    exists y ns',
      run_all (live histogram_config histogram_update) x0 (unadorned h) k c = Ok (y, ns') c' /\
      forall k2 c2 s c3, histogram_put y false [] k2 c2 = Ok s c3 ->
        exists activity values,
          map fst activity =
            match asked a_limit None h with Some _ => ["_inactive"; "_active"]%string | None => [] end /\
          histogram_labels (map fst values) /\
          s = [(name, ItemSnapshot (activity ++ values))] /\
          forall b, histogram_put x b [] k2 c2 =
            Ok (descriptive_fields b (asked a_name name h) h ++
                [(asked a_name name h,
                  ItemSnapshot ((if asked a_show_activity true h then activity else []) ++ values))]) c3.
  Proof.
    intros N R.
    assert (histogram_options x0 = (name, no_descr, None, true, true, Microseconds) /\
            bare_histogram name x0 = x0) as [O B].
    { unfold histogram_new in N. steps. split; reflexivity. }
    destruct (run_bare histogram_config histogram_update (bare_histogram name)
                ltac:(intros; destruct s; try discriminate; eexists; split; reflexivity)
                ltac:(intros; destruct s; try discriminate; reflexivity)
                (histogram_update_bare name) h _ _ _ _ _ _ R) as (ns' & R'). rewrite B in R'.
    pose proof (run_option histogram_config histogram_update histogram_options (fun '(n, _, _, _, _, _) => n) a_name ltac:(set_field)
                  histogram_update_keeps _ _ _ _ _ _ _ R) as En.
    pose proof (run_option histogram_config histogram_update histogram_options (fun '(_, d, _, _, _, _) => d_title d) a_title ltac:(set_field)
                  histogram_update_keeps _ _ _ _ _ _ _ R) as Et.
    pose proof (run_option histogram_config histogram_update histogram_options (fun '(_, d, _, _, _, _) => d_description d) a_description
                  ltac:(set_field) histogram_update_keeps _ _ _ _ _ _ _ R) as Ed.
    pose proof (run_option histogram_config histogram_update histogram_options (fun '(_, _, l, _, _, _) => l) a_limit ltac:(set_field)
                  histogram_update_keeps _ _ _ _ _ _ _ R) as El.
    pose proof (run_option histogram_config histogram_update histogram_options (fun '(_, _, _, r, _, _) => r) a_reset ltac:(set_field)
                  histogram_update_keeps _ _ _ _ _ _ _ R) as Er.
    pose proof (run_option histogram_config histogram_update histogram_options (fun '(_, _, _, _, a, _) => a) a_show_activity ltac:(set_field)
                  histogram_update_keeps _ _ _ _ _ _ _ R) as Ea.
    pose proof (run_option histogram_config histogram_update histogram_options snd a_unit ltac:(set_field)
                  histogram_update_keeps _ _ _ _ _ _ _ R) as Eu.
    rewrite O in En, Et, Ed, El, Er, Ea, Eu.
    split; [auto|]. exists (bare_histogram name x), ns'. split; [exact R'|]. intros k2 c2 s c3 P.
    destruct x as [n [t d] inner last l r a u].
    cbn [histogram_options h_name h_descr h_max_inactivity h_reset_after_inactivity h_show_activity_state h_display_time_unit
         d_title d_description no_descr] in En, Et, Ed, El, Er, Ea.
    destruct (histogram_put_fields name inner last l r u k2 c2 s c3 P) as (act & vs & E1 & E2 & E3 & F).
    exists act, vs. rewrite <- El. repeat (split; [assumption|]). intros b. unfold descriptive_fields.
    rewrite <- En, <- Et, <- Ed, <- Ea. apply F.
  Qed.
End Histogram.

(** ** The switches *)

Lemma switch_put (state state' : M bool) pre name invert alt k (c : clock) :
  (forall k (c : clock), state' k c =
     match state k c with Ok s c' => Ok (xorb invert s) c' | Panic => Panic | NoFuel => NoFuel end) ->
  (let* b := state' in
   match alt with
   | Some a => let* b2 := state' in ret (push (push pre name (Boolean b)) (adjust_name a name) (Boolean (negb b2)))
   | None => ret (push pre name (Boolean b))
   end) k c = switch_fields state pre name invert alt k c.
Proof.
  intros E. unfold switch_fields, bind. rewrite E. destruct (state k c) as [s c1| |]; try reflexivity.
  destruct alt as [a|]; [|reflexivity]. unfold bind. rewrite E. destruct (state k c1) as [s2 c2| |]; try reflexivity.
  unfold ret, push. rewrite <- app_assoc. destruct a; reflexivity.
Qed.

(** ** Staircase timer *)

Definition bare_staircase (n : string) (x : staircase_timer) : staircase_timer :=
  StaircaseTimer n no_descr (st_switch_off_after x) false (st_stay_on_until x) None.

Definition staircase_options (x : staircase_timer) :=
  (st_name x, st_descr x, st_switch_off_after x, st_invert x, st_show_inverted x).

Lemma staircase_update_keeps x u k (c : clock) x' n c' :
  staircase_update x u k c = Ok (x', n) c' -> staircase_options x' = staircase_options x.
Proof. intros R. unfold staircase_update in R. steps. reflexivity. Qed.

Lemma staircase_update_bare nm x u k (c : clock) :
  staircase_update (bare_staircase nm x) u k c =
  match staircase_update x u k c with
  | Ok (x', n) c' => Ok (bare_staircase nm x', n) c' | Panic => Panic | NoFuel => NoFuel
  end.
Proof.
  destruct x. unfold staircase_update, bare_staircase, bind, ret. cbn. same_run.
Qed.

Lemma staircase_state_bare nm x k (c : clock) :
  staircase_state x k c =
  match staircase_state (bare_staircase nm x) k c with
  | Ok s c' => Ok (xorb (st_invert x) s) c' | Panic => Panic | NoFuel => NoFuel
  end.
Proof.
  destruct x as [? ? ? [] [|] ?]; unfold staircase_state, bare_staircase, bind, ret, now; cbn -[Z.leb Z.ltb];
    repeat match goal with |- context [match ?e with Ok _ _ => _ | Panic => _ | NoFuel => _ end] => destruct e end;
    cbn -[Z.leb Z.ltb]; try reflexivity; 
    match goal with |- context [if ?e then _ else _] => destruct e end; reflexivity.
Qed.

Lemma staircase_life name  h k c x ns c' :
  run_all (live staircase_config staircase_update) (staircase_new name) h k c = Ok (x, ns) c' ->
  st_switch_off_after x = asked a_off_after (60 * nanos_per_sec) h /\
  exists y ns',
    run_all (live staircase_config staircase_update) (staircase_new name) (unadorned h) k c = Ok (y, ns') c' /\
    forall b k2 c2,
      staircase_put x b [] k2 c2 =
      switch_fields (staircase_state y) (descriptive_fields b (asked a_name name h) h) (asked a_name name h)
        (asked a_invert false h) (asked a_show_inverted None h) k2 c2.
Proof.
  intros R.
  assert (staircase_options (staircase_new name) = (name, no_descr, 60 * nanos_per_sec, false, None) /\
          bare_staircase name (staircase_new name) = (staircase_new name)) as [O B].
  { split; reflexivity. }
  destruct (run_bare staircase_config staircase_update (bare_staircase name)
              ltac:(intros; destruct s; try discriminate; eexists; split; reflexivity)
              ltac:(intros; destruct s; try discriminate; reflexivity)
              (staircase_update_bare name) h _ _ _ _ _ _ R) as (ns' & R'). rewrite B in R'.
  pose proof (run_option staircase_config staircase_update staircase_options (fun '(n, _, _, _, _) => n) a_name ltac:(set_field)
                staircase_update_keeps _ _ _ _ _ _ _ R) as En.
  pose proof (run_option staircase_config staircase_update staircase_options (fun '(_, d, _, _, _) => d_title d) a_title ltac:(set_field)
                staircase_update_keeps _ _ _ _ _ _ _ R) as Et.
  pose proof (run_option staircase_config staircase_update staircase_options (fun '(_, d, _, _, _) => d_description d) a_description
                ltac:(set_field) staircase_update_keeps _ _ _ _ _ _ _ R) as Ed.
  pose proof (run_option staircase_config staircase_update staircase_options (fun '(_, _, l, _, _) => l) a_off_after ltac:(set_field)
                staircase_update_keeps _ _ _ _ _ _ _ R) as El.
  pose proof (run_option staircase_config staircase_update staircase_options (fun '(_, _, _, i, _) => i) a_invert ltac:(set_field)
                staircase_update_keeps _ _ _ _ _ _ _ R) as Ei.
  pose proof (run_option staircase_config staircase_update staircase_options (fun '(_, _, _, _, a) => a) a_show_inverted ltac:(set_field)
                staircase_update_keeps _ _ _ _ _ _ _ R) as Ea.
  rewrite O in En, Et, Ed, El, Ei, Ea. unfold staircase_options in *. cbn [d_title d_description no_descr] in Et, Ed.
  split; [exact El|]. exists (bare_staircase name x), ns'. split; [exact R'|]. intros b k2 c2.
  unfold descriptive_fields. rewrite <- En, <- Et, <- Ed, <- Ei, <- Ea.
  unfold staircase_put. destruct (st_descr x) as [t d]. unfold put_timed_switch. rewrite put_postfixed_empty.
  apply switch_put. intros k3 c3. apply (staircase_state_bare name).
Qed.

(** ** Occurrence indicator *)

Definition bare_occurrence (n : string) (x : occurrence_indicator) : occurrence_indicator :=
  OccurrenceIndicator n no_descr (oi_if_happened_within x) (oi_happened_last x) false None.

Definition occurrence_options (x : occurrence_indicator) :=
  (oi_name x, oi_descr x, oi_if_happened_within x, oi_invert x, oi_show_inverted x).

Lemma occurrence_update_keeps x u k (c : clock) x' n c' :
  occurrence_update x u k c = Ok (x', n) c' -> occurrence_options x' = occurrence_options x.
Proof. intros R. unfold occurrence_update in R. steps. reflexivity. Qed.

Lemma occurrence_update_bare nm x u k (c : clock) :
  occurrence_update (bare_occurrence nm x) u k c =
  match occurrence_update x u k c with
  | Ok (x', n) c' => Ok (bare_occurrence nm x', n) c' | Panic => Panic | NoFuel => NoFuel
  end.
Proof.
  destruct x. unfold occurrence_update, bare_occurrence, bind, ret. cbn. same_run.
Qed.

Lemma occurrence_state_bare nm x k (c : clock) :
  occurrence_state x k c =
  match occurrence_state (bare_occurrence nm x) k c with
  | Ok s c' => Ok (xorb (oi_invert x) s) c' | Panic => Panic | NoFuel => NoFuel
  end.
Proof.
  destruct x as [? ? ? ? [|] ?]; unfold occurrence_state, bare_occurrence, bind, ret, now; cbn -[Z.leb Z.ltb];
    repeat match goal with |- context [match ?e with Ok _ _ => _ | Panic => _ | NoFuel => _ end] => destruct e end;
    cbn -[Z.leb Z.ltb]; try reflexivity; 
    match goal with |- context [if ?e then _ else _] => destruct e end; reflexivity.
Qed.

Lemma occurrence_life name k0 c0 x0 h k c x ns c' :
  occurrence_new name k0 c0 = Ok x0 c ->
  run_all (live occurrence_config occurrence_update) x0 h k c = Ok (x, ns) c' ->
  oi_if_happened_within x = asked a_within (60 * nanos_per_sec) h /\
  exists y ns',
    run_all (live occurrence_config occurrence_update) x0 (unadorned h) k c = Ok (y, ns') c' /\
    forall b k2 c2,
      occurrence_put x b [] k2 c2 =
      switch_fields (occurrence_state y) (descriptive_fields b (asked a_name name h) h) (asked a_name name h)
        (asked a_invert false h) (asked a_show_inverted None h) k2 c2.
Proof.
  intros N R.
  assert (occurrence_options x0 = (name, no_descr, 60 * nanos_per_sec, false, None) /\
          bare_occurrence name x0 = x0) as [O B].
  { unfold occurrence_new in N. steps. split; reflexivity. }
  destruct (run_bare occurrence_config occurrence_update (bare_occurrence name)
              ltac:(intros; destruct s; try discriminate; eexists; split; reflexivity)
              ltac:(intros ? s k2 c2; intros; destruct s; try discriminate; try reflexivity; cbn; unfold occurrence_set_if_happened_within, bind, ret; same_run)
              (occurrence_update_bare name) h _ _ _ _ _ _ R) as (ns' & R'). rewrite B in R'.
  pose proof (run_option occurrence_config occurrence_update occurrence_options (fun '(n, _, _, _, _) => n) a_name ltac:(set_field; unfold occurrence_set_if_happened_within in *; steps; reflexivity)
                occurrence_update_keeps _ _ _ _ _ _ _ R) as En.
  pose proof (run_option occurrence_config occurrence_update occurrence_options (fun '(_, d, _, _, _) => d_title d) a_title ltac:(set_field; unfold occurrence_set_if_happened_within in *; steps; reflexivity)
                occurrence_update_keeps _ _ _ _ _ _ _ R) as Et.
  pose proof (run_option occurrence_config occurrence_update occurrence_options (fun '(_, d, _, _, _) => d_description d) a_description
                ltac:(set_field; unfold occurrence_set_if_happened_within in *; steps; reflexivity) occurrence_update_keeps _ _ _ _ _ _ _ R) as Ed.
  pose proof (run_option occurrence_config occurrence_update occurrence_options (fun '(_, _, l, _, _) => l) a_within ltac:(set_field; unfold occurrence_set_if_happened_within in *; steps; reflexivity)
                occurrence_update_keeps _ _ _ _ _ _ _ R) as El.
  pose proof (run_option occurrence_config occurrence_update occurrence_options (fun '(_, _, _, i, _) => i) a_invert ltac:(set_field; unfold occurrence_set_if_happened_within in *; steps; reflexivity)
                occurrence_update_keeps _ _ _ _ _ _ _ R) as Ei.
  pose proof (run_option occurrence_config occurrence_update occurrence_options (fun '(_, _, _, _, a) => a) a_show_inverted ltac:(set_field; unfold occurrence_set_if_happened_within in *; steps; reflexivity)
                occurrence_update_keeps _ _ _ _ _ _ _ R) as Ea.
  rewrite O in En, Et, Ed, El, Ei, Ea. unfold occurrence_options in *. cbn [d_title d_description no_descr] in Et, Ed.
  split; [exact El|]. exists (bare_occurrence name x), ns'. split; [exact R'|]. intros b k2 c2.
  unfold descriptive_fields. rewrite <- En, <- Et, <- Ed, <- Ei, <- Ea.
  unfold occurrence_put. destruct (oi_descr x) as [t d]. unfold put_timed_switch. rewrite put_postfixed_empty.
  apply switch_put. intros k3 c3. apply (occurrence_state_bare name).
Qed.

(** ** Non-occurrence indicator *)

Definition bare_non_occurrence (n : string) (x : non_occurrence_indicator) : non_occurrence_indicator :=
  NonOccurrenceIndicator n no_descr (ni_if_not_happened_within x) (ni_happened_last x) false None.

Definition non_occurrence_options (x : non_occurrence_indicator) :=
  (ni_name x, ni_descr x, ni_if_not_happened_within x, ni_invert x, ni_show_inverted x).

Lemma non_occurrence_update_keeps x u k (c : clock) x' n c' :
  non_occurrence_update x u k c = Ok (x', n) c' -> non_occurrence_options x' = non_occurrence_options x.
Proof. intros R. unfold non_occurrence_update in R. steps. reflexivity. Qed.

Lemma non_occurrence_update_bare nm x u k (c : clock) :
  non_occurrence_update (bare_non_occurrence nm x) u k c =
  match non_occurrence_update x u k c with
  | Ok (x', n) c' => Ok (bare_non_occurrence nm x', n) c' | Panic => Panic | NoFuel => NoFuel
  end.
Proof.
  destruct x. unfold non_occurrence_update, bare_non_occurrence, bind, ret. cbn. same_run.
Qed.

Lemma non_occurrence_state_bare nm x k (c : clock) :
  non_occurrence_state x k c =
  match non_occurrence_state (bare_non_occurrence nm x) k c with
  | Ok s c' => Ok (xorb (ni_invert x) s) c' | Panic => Panic | NoFuel => NoFuel
  end.
Proof.
  destruct x as [? ? ? ? [|] ?]; unfold non_occurrence_state, bare_non_occurrence, bind, ret, now; cbn -[Z.leb Z.ltb];
    repeat match goal with |- context [match ?e with Ok _ _ => _ | Panic => _ | NoFuel => _ end] => destruct e end;
    cbn -[Z.leb Z.ltb]; try reflexivity; 
    match goal with |- context [if ?e then _ else _] => destruct e end; reflexivity.
Qed.

Lemma non_occurrence_life name k0 c0 x0 h k c x ns c' :
  non_occurrence_new name k0 c0 = Ok x0 c ->
  run_all (live non_occurrence_config non_occurrence_update) x0 h k c = Ok (x, ns) c' ->
  ni_if_not_happened_within x = asked a_within (60 * nanos_per_sec) h /\
  exists y ns',
    run_all (live non_occurrence_config non_occurrence_update) x0 (unadorned h) k c = Ok (y, ns') c' /\
    forall b k2 c2,
      non_occurrence_put x b [] k2 c2 =
      switch_fields (non_occurrence_state y) (descriptive_fields b (asked a_name name h) h) (asked a_name name h)
        (asked a_invert false h) (asked a_show_inverted None h) k2 c2.
Proof.
  intros N R.
  assert (non_occurrence_options x0 = (name, no_descr, 60 * nanos_per_sec, false, None) /\
          bare_non_occurrence name x0 = x0) as [O B].
  { unfold non_occurrence_new in N. steps. split; reflexivity. }
  destruct (run_bare non_occurrence_config non_occurrence_update (bare_non_occurrence name)
              ltac:(intros; destruct s; try discriminate; eexists; split; reflexivity)
              ltac:(intros; destruct s; try discriminate; reflexivity)
              (non_occurrence_update_bare name) h _ _ _ _ _ _ R) as (ns' & R'). rewrite B in R'.
  pose proof (run_option non_occurrence_config non_occurrence_update non_occurrence_options (fun '(n, _, _, _, _) => n) a_name ltac:(set_field)
                non_occurrence_update_keeps _ _ _ _ _ _ _ R) as En.
  pose proof (run_option non_occurrence_config non_occurrence_update non_occurrence_options (fun '(_, d, _, _, _) => d_title d) a_title ltac:(set_field)
                non_occurrence_update_keeps _ _ _ _ _ _ _ R) as Et.
  pose proof (run_option non_occurrence_config non_occurrence_update non_occurrence_options (fun '(_, d, _, _, _) => d_description d) a_description
                ltac:(set_field) non_occurrence_update_keeps _ _ _ _ _ _ _ R) as Ed.
  pose proof (run_option non_occurrence_config non_occurrence_update non_occurrence_options (fun '(_, _, l, _, _) => l) a_within ltac:(set_field)
                non_occurrence_update_keeps _ _ _ _ _ _ _ R) as El.
  pose proof (run_option non_occurrence_config non_occurrence_update non_occurrence_options (fun '(_, _, _, i, _) => i) a_invert ltac:(set_field)
                non_occurrence_update_keeps _ _ _ _ _ _ _ R) as Ei.
  pose proof (run_option non_occurrence_config non_occurrence_update non_occurrence_options (fun '(_, _, _, _, a) => a) a_show_inverted ltac:(set_field)
                non_occurrence_update_keeps _ _ _ _ _ _ _ R) as Ea.
  rewrite O in En, Et, Ed, El, Ei, Ea. unfold non_occurrence_options in *. cbn [d_title d_description no_descr] in Et, Ed.
  split; [exact El|]. exists (bare_non_occurrence name x), ns'. split; [exact R'|]. intros b k2 c2.
  unfold descriptive_fields. rewrite <- En, <- Et, <- Ed, <- Ei, <- Ea.
  unfold non_occurrence_put. destruct (ni_descr x) as [t d]. unfold put_timed_switch. rewrite put_postfixed_empty.
  apply switch_put. intros k3 c3. apply (non_occurrence_state_bare name).
Qed.

(** ** Flag *)

Definition bare_flag (n : string) (x : flag) : flag := Flag n no_descr (f_state x) None.
Definition flag_options (x : flag) := (f_name x, f_descr x, f_show_inverted x).
Definition flag_update_m (x : flag) (u : update) : M (flag * Z) := ret (flag_update x u).

Lemma flag_update_keeps x u k (c : clock) x' n c' :
  flag_update_m x u k c = Ok (x', n) c' -> flag_options x' = flag_options x.
Proof.
  intros R. unfold flag_update_m, ret in R. injection R as R _. destruct u as [| |v ?]; cbn in R; try destruct v;
    injection R as <- _; reflexivity.
Qed.

Lemma flag_update_bare nm x u k (c : clock) :
  flag_update_m (bare_flag nm x) u k c =
  match flag_update_m x u k c with
  | Ok (x', n) c' => Ok (bare_flag nm x', n) c' | Panic => Panic | NoFuel => NoFuel
  end.
Proof. destruct u as [| |v ?]; try destruct v; reflexivity. Qed.

Lemma flag_life name h k c x ns c' :
  run_all (live flag_config (fun x u => ret (flag_update x u))) (flag_new name) h k c = Ok (x, ns) c' ->
  exists y ns',
    run_all (live flag_config (fun x u => ret (flag_update x u))) (flag_new name) (unadorned h) k c = Ok (y, ns') c' /\
    forall b, flag_put x b [] =
      descriptive_fields b (asked a_name name h) h ++
      match flag_get_state y with
      | None => []
      | Some s =>
          (asked a_name name h, Boolean s) ::
          match asked a_show_inverted None h with
          | None => []
          | Some a => [(inverted_name a (asked a_name name h), Boolean (negb s))]
          end
      end.
Proof.
  change (fun x u => ret (flag_update x u)) with flag_update_m. intros R.
  destruct (run_bare flag_config flag_update_m (bare_flag name)
              ltac:(intros; destruct s; try discriminate; eexists; split; reflexivity)
              ltac:(intros; destruct s; try discriminate; reflexivity)
              (flag_update_bare name) h _ _ _ _ _ _ R) as (ns' & R').
  pose proof (run_option flag_config flag_update_m flag_options (fun '(n, _, _) => n) a_name ltac:(set_field)
                flag_update_keeps _ _ _ _ _ _ _ R) as En.
  pose proof (run_option flag_config flag_update_m flag_options (fun '(_, d, _) => d_title d) a_title ltac:(set_field)
                flag_update_keeps _ _ _ _ _ _ _ R) as Et.
  pose proof (run_option flag_config flag_update_m flag_options (fun '(_, d, _) => d_description d) a_description
                ltac:(set_field) flag_update_keeps _ _ _ _ _ _ _ R) as Ed.
  pose proof (run_option flag_config flag_update_m flag_options (fun '(_, _, a) => a) a_show_inverted ltac:(set_field)
                flag_update_keeps _ _ _ _ _ _ _ R) as Ea.
  exists (bare_flag name x), ns'. split; [exact R'|]. intros b.
  cbn in En, Et, Ed, Ea. unfold descriptive_fields. rewrite <- En, <- Et, <- Ed, <- Ea.
  unfold flag_put. destruct x as [n [t d] st al]. cbn [f_name f_descr f_state f_show_inverted d_title d_description].
  rewrite put_postfixed_empty. unfold bare_flag, flag_get_state. cbn [f_state].
  destruct st; [|rewrite app_nil_r; reflexivity].
  destruct al as [a|]; unfold push; rewrite <- ?app_assoc; [destruct a|]; reflexivity.
Qed.

(** ** Last occurrence tracker *)

Definition bare_last_occurrence (n : string) (x : last_occurrence_tracker) : last_occurrence_tracker :=
  LastOccurrenceTracker n no_descr (lt_happened_last x) false false.
Definition last_occurrence_options (x : last_occurrence_tracker) := (lt_name x, lt_descr x, lt_make_none_zero x).

Lemma last_occurrence_update_keeps x u k (c : clock) x' n c' :
  last_occurrence_update x u k c = Ok (x', n) c' -> last_occurrence_options x' = last_occurrence_options x.
Proof. intros R. unfold last_occurrence_update in R. steps. reflexivity. Qed.

Lemma last_occurrence_update_bare nm x u k (c : clock) :
  last_occurrence_update (bare_last_occurrence nm x) u k c =
  match last_occurrence_update x u k c with
  | Ok (x', n) c' => Ok (bare_last_occurrence nm x', n) c' | Panic => Panic | NoFuel => NoFuel
  end.
Proof. reflexivity. Qed.

Lemma last_occurrence_life name h k c x ns c' :
  run_all (live last_occurrence_config last_occurrence_update) (last_occurrence_new name) h k c = Ok (x, ns) c' ->
  exists y ns',
    run_all (live last_occurrence_config last_occurrence_update) (last_occurrence_new name) (unadorned h) k c =
      Ok (y, ns') c' /\
    forall b k2 c2, exists c3,
      (last_occurrence_put y false [] k2 c2 = Ok [] c3 /\
       last_occurrence_put x b [] k2 c2 =
         Ok (descriptive_fields b (asked a_name name h) h ++
             (if asked a_none_zero false h then [(asked a_name name h, Int 0)] else [])) c3) \/
      exists v,
        last_occurrence_put y false [] k2 c2 = Ok [(name, UInt v)] c3 /\
        last_occurrence_put x b [] k2 c2 =
          Ok (descriptive_fields b (asked a_name name h) h ++ [(asked a_name name h, UInt v)]) c3.
Proof.
  intros R.
  destruct (run_bare last_occurrence_config last_occurrence_update (bare_last_occurrence name)
              ltac:(intros; destruct s; try discriminate; eexists; split; reflexivity)
              ltac:(intros; destruct s; try discriminate; reflexivity)
              (last_occurrence_update_bare name) h _ _ _ _ _ _ R) as (ns' & R').
  pose proof (run_option last_occurrence_config last_occurrence_update last_occurrence_options (fun '(n, _, _) => n) a_name
                ltac:(set_field) last_occurrence_update_keeps _ _ _ _ _ _ _ R) as En.
  pose proof (run_option last_occurrence_config last_occurrence_update last_occurrence_options (fun '(_, d, _) => d_title d) a_title
                ltac:(set_field) last_occurrence_update_keeps _ _ _ _ _ _ _ R) as Et.
  pose proof (run_option last_occurrence_config last_occurrence_update last_occurrence_options (fun '(_, d, _) => d_description d)
                a_description ltac:(set_field) last_occurrence_update_keeps _ _ _ _ _ _ _ R) as Ed.
  pose proof (run_option last_occurrence_config last_occurrence_update last_occurrence_options (fun '(_, _, a) => a) a_none_zero
                ltac:(set_field) last_occurrence_update_keeps _ _ _ _ _ _ _ R) as Ea.
  exists (bare_last_occurrence name x), ns'. split; [exact R'|]. intros b k2 c2.
  cbn in En, Et, Ed, Ea. unfold descriptive_fields. rewrite <- En, <- Et, <- Ed, <- Ea.
  unfold last_occurrence_put. destruct x as [n [t d] [last|] inv z];
    cbn [lt_name lt_descr lt_happened_last lt_make_none_zero bare_last_occurrence d_title d_description];
    rewrite put_postfixed_empty; unfold last_occurrence_elapsed; cbn [lt_happened_last].
  - eexists. right. eexists. split; reflexivity.
  - exists c2. left. split; [reflexivity|]. destruct z; unfold bind, ret; [|rewrite app_nil_r]; reflexivity.
Qed.

(** ** Data display *)

Definition bare_display (n : string) (x : data_display) : data_display :=
  DataDisplay n no_descr (dd_value x) (dd_reset_after x) (dd_stay_on_until x) (dd_reset_value x).
Definition display_options (x : data_display) := (dd_name x, dd_descr x, dd_reset_after x, dd_reset_value x).

Lemma display_update_keeps x u k (c : clock) x' n c' :
  display_update x u k c = Ok (x', n) c' -> display_options x' = display_options x.
Proof.
  intros R. unfold display_update in R. destruct (upd_observed_value u) as [v|]; [|steps; reflexivity].
  destruct (to_item_kind v); steps; reflexivity.
Qed.

Lemma display_update_bare nm x u k (c : clock) :
  display_update (bare_display nm x) u k c =
  match display_update x u k c with
  | Ok (x', n) c' => Ok (bare_display nm x', n) c' | Panic => Panic | NoFuel => NoFuel
  end.
Proof.
  unfold display_update. destruct (upd_observed_value u) as [v|]; [|reflexivity].
  destruct (to_item_kind v); [|reflexivity]. unfold bind, ret. cbn [dd_reset_after dd_stay_on_until bare_display].
  destruct (dd_reset_after x); same_run.
Qed.

Lemma display_life name h k c x ns c' :
  run_all (live display_config display_update) (display_new name) h k c = Ok (x, ns) c' ->
  (dd_reset_after x = asked a_reset_after None h /\ dd_reset_value x = asked a_reset_value None h) /\
  exists y ns',
    run_all (live display_config display_update) (display_new name) (unadorned h) k c = Ok (y, ns') c' /\
    forall b k2 c2, exists shown c3,
      display_put y false [] k2 c2 =
        Ok (match shown with Some v => [(name, v)] | None => [] end) c3 /\
      display_put x b [] k2 c2 =
        Ok (descriptive_fields b (asked a_name name h) h ++
            match shown with Some v => [(asked a_name name h, v)] | None => [] end) c3.
Proof.
  intros R.
  destruct (run_bare display_config display_update (bare_display name)
              ltac:(intros; destruct s; try discriminate; eexists; split; reflexivity)
              ltac:(intros; destruct s; try discriminate; reflexivity)
              (display_update_bare name) h _ _ _ _ _ _ R) as (ns' & R').
  pose proof (run_option display_config display_update display_options (fun '(n, _, _, _) => n) a_name
                ltac:(set_field) display_update_keeps _ _ _ _ _ _ _ R) as En.
  pose proof (run_option display_config display_update display_options (fun '(_, d, _, _) => d_title d) a_title
                ltac:(set_field) display_update_keeps _ _ _ _ _ _ _ R) as Et.
  pose proof (run_option display_config display_update display_options (fun '(_, d, _, _) => d_description d)
                a_description ltac:(set_field) display_update_keeps _ _ _ _ _ _ _ R) as Ed.
  pose proof (run_option display_config display_update display_options (fun '(_, _, a, _) => a) a_reset_after
                ltac:(set_field) display_update_keeps _ _ _ _ _ _ _ R) as Ea.
  pose proof (run_option display_config display_update display_options (fun '(_, _, _, a) => a) a_reset_value
                ltac:(set_field) display_update_keeps _ _ _ _ _ _ _ R) as Ev.
  cbn in En, Et, Ed, Ea, Ev. split; [split; assumption|].
  exists (bare_display name x), ns'. split; [exact R'|]. intros b k2 c2.
  unfold descriptive_fields. rewrite <- En, <- Et, <- Ed.
  destruct x as [n [t d] v ra su rv]. unfold display_put, display_value.
  cbn [dd_name dd_descr dd_value dd_reset_after dd_stay_on_until dd_reset_value bare_display d_title d_description].
  rewrite put_postfixed_empty. unfold bind, ret. cbn [now].
  destruct su as [u|]; cbn [now]; [|destruct v as [v|]; [exists (Some v)|exists None]; eexists; rewrite ?app_nil_r; split; reflexivity].
  unfold now. cbn. set (w := if _ <=? u then v else rv). clearbody w.
  destruct w as [w|]; [exists (Some w)|exists None]; eexists; rewrite ?app_nil_r; split; reflexivity.
Qed.

(** ** Constant values and polling instruments *)

Lemma nothing_keeps {A B} (f : A -> B) x u k (c : clock) x' n c' :
  nothing_arrives x u k c = Ok (x', n) c' -> f x' = f x.
Proof. intros R. unfold nothing_arrives in R. steps. reflexivity. Qed.

Lemma constant_value_life name v h k c x ns c' :
  run_all (live constant_value_config nothing_arrives) (constant_value_new name v) h k c = Ok (x, ns) c' ->
  forall b, constant_value_put x b [] =
    descriptive_fields b (asked a_name name h) h ++ [(asked a_name name h, item_of_source v)].
Proof.
  intros R b.
  pose proof (run_field constant_value_config nothing_arrives cv_name a_name ltac:(set_field)
                (nothing_keeps _) _ _ _ _ _ _ _ R) as En.
  pose proof (run_field constant_value_config nothing_arrives (fun x => d_title (cv_descr x)) a_title ltac:(set_field)
                (nothing_keeps _) _ _ _ _ _ _ _ R) as Et.
  pose proof (run_field constant_value_config nothing_arrives (fun x => d_description (cv_descr x)) a_description ltac:(set_field)
                (nothing_keeps _) _ _ _ _ _ _ _ R) as Ed.
  pose proof (run_field constant_value_config nothing_arrives cv_value (fun _ => None) ltac:(set_field)
                (nothing_keeps _) _ _ _ _ _ _ _ R) as Ev.
  destruct x as [n [t d] w]. cbn in En, Et, Ed, Ev.
  assert (w = item_of_source v) as ->.
  { rewrite Ev. clear. unfold asked, latest. generalize (item_of_source v). induction h as [|[]]; cbn; auto. }
  unfold descriptive_fields. rewrite <- En, <- Et, <- Ed. unfold constant_value_put. cbn [cv_descr cv_name cv_value].
  rewrite put_postfixed_empty. reflexivity.
Qed.

Lemma polling_life name h k c x ns c' :
  run_all (live polling_config nothing_arrives) (polling_new name) h k c = Ok (x, ns) c' ->
  forall P (poll : bool -> snapshot -> M (P * snapshot)) b k2 c2,
    polling_put poll x b [] k2 c2 =
    (let fields := descriptive_fields b (asked a_name name h) h in
     if asked a_group false h then
       let* '(p, level) := poll b [] in ret (p, fields ++ [(asked a_name name h, ItemSnapshot level)])
     else poll b fields) k2 c2.
Proof.
  intros R P poll b k2 c2.
  pose proof (run_field polling_config nothing_arrives pl_name a_name ltac:(set_field)
                (nothing_keeps _) _ _ _ _ _ _ _ R) as En.
  pose proof (run_field polling_config nothing_arrives (fun x => d_title (pl_descr x)) a_title ltac:(set_field)
                (nothing_keeps _) _ _ _ _ _ _ _ R) as Et.
  pose proof (run_field polling_config nothing_arrives (fun x => d_description (pl_descr x)) a_description ltac:(set_field)
                (nothing_keeps _) _ _ _ _ _ _ _ R) as Ed.
  pose proof (run_field polling_config nothing_arrives pl_group a_group ltac:(set_field)
                (nothing_keeps _) _ _ _ _ _ _ _ R) as Eg.
  destruct x as [n [t d] g]. cbn in En, Et, Ed, Eg.
  unfold descriptive_fields. rewrite <- En, <- Et, <- Ed, <- Eg. unfold polling_put, polled_put. cbn [pl_descr pl_name pl_group].
  rewrite put_postfixed_empty. reflexivity.
Qed.
