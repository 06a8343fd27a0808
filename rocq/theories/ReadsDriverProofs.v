(** Snapshots of drivers without metrics of their own. *)
From Coq Require Import ZArith Bool String List Lia.
From Verif Require Import Base SpecRun MonadFacts ModelObservation ModelLabelFilter ModelSnapshot ModelBuckets
  ModelCounter ModelGauge ModelMeter ModelHistogram ModelSwitches ModelInstrument ModelTree ModelChannel
  ModelProcessor ModelDriver SpecSafe SpecReads StaysProofs ReadsLeafProofs ReadsTreeProofs ReadsHistoryProofs
  ReadsWorldProofs.
Import ListNotations.
Open Scope Z_scope.

Definition norm_driver {X Y} (t : Z) (d : driver X Y) : driver X Y :=
  driver_with d (map (norm_processor t) (dr_processors d)) (map (norm_snapshooter t) (dr_snapshooters d)) (dr_metrics d).

Section Drivers.
  Variables (k : cfg) (t : Z).
  Context {X : ext} {Y : pext} (HX : parts_quiet X) (HY : processors_quiet Y).

  Lemma norm_driver_inv : forall a b : driver X Y, norm_driver t a = norm_driver t b ->
    dr_name a = dr_name b /\ dr_descr a = dr_descr b
    /\ map (norm_processor t) (dr_processors a) = map (norm_processor t) (dr_processors b)
    /\ map (norm_snapshooter t) (dr_snapshooters a) = map (norm_snapshooter t) (dr_snapshooters b)
    /\ dr_strategy a = dr_strategy b /\ dr_paused a = dr_paused b /\ dr_metrics a = dr_metrics b
    /\ dr_last_outcome_logged a = dr_last_outcome_logged b
    /\ dr_dropped_since_last_logged a = dr_dropped_since_last_logged b.
  Proof.
    intros a b E. repeat split;
      [exact (f_equal dr_name E)|exact (f_equal dr_descr E)|exact (f_equal dr_processors E)|
       exact (f_equal dr_snapshooters E)|exact (f_equal dr_strategy E)|exact (f_equal dr_paused E)|
       exact (f_equal dr_metrics E)|exact (f_equal dr_last_outcome_logged E)|
       exact (f_equal dr_dropped_since_last_logged E)].
  Qed.

  Lemma norm_driver_eq : forall a b : driver X Y,
    dr_name a = dr_name b -> dr_descr a = dr_descr b ->
    map (norm_processor t) (dr_processors a) = map (norm_processor t) (dr_processors b) ->
    map (norm_snapshooter t) (dr_snapshooters a) = map (norm_snapshooter t) (dr_snapshooters b) ->
    dr_strategy a = dr_strategy b -> dr_paused a = dr_paused b -> dr_metrics a = dr_metrics b ->
    dr_last_outcome_logged a = dr_last_outcome_logged b ->
    dr_dropped_since_last_logged a = dr_dropped_since_last_logged b ->
    norm_driver t a = norm_driver t b.
  Proof. intros. unfold norm_driver, driver_with. congruence. Qed.

  Definition plain (r : driver X Y * snapshot) : Prop := dr_metrics (fst r) = None.

  Lemma add_values_shows : forall (a b : driver X Y) de st s, norm_driver t a = norm_driver t b -> dr_metrics a = None ->
    sim k t (add_snapshot_values a de st s) (add_snapshot_values b de st s)
      (fun r1 r2 => kept (norm_driver t) a r1 r2 /\ plain r1 /\ plain r2).
  Proof.
    intros a b de st s E Hm. pose proof (norm_driver_inv _ _ E) as (E1 & E2 & E3 & E4 & E5 & E6 & E7 & E8 & E9).
    destruct (tree_shows k t HX) as (_ & _ & _ & Hs). destruct (processor_shows k t HX HY) as [Hp _].
    unfold add_snapshot_values. rewrite <- E7, Hm, <- E2.
    eapply sim_bind; [apply traverse_shows with (nf := norm_processor t); [apply Forall_forall; auto|exact E3]|].
    intros [ps1 n1] [ps2 m] (N2 & M2 & En). cbn [fst snd] in N2, M2, En. subst m.
    eapply sim_bind; [apply traverse_shows with (nf := norm_snapshooter t); [apply Forall_forall; auto|exact E4]|].
    intros [ss1 n2] [ss2 m] (N3 & M3 & En). cbn [fst snd] in N3, M3, En. subst m.
    apply sim_ret. split; [|split; reflexivity]. split; [|split; [|reflexivity]]; cbn [fst];
      apply norm_driver_eq; cbn; congruence.
  Qed.

  Lemma driver_shows : forall (a b : driver X Y) de s, norm_driver t a = norm_driver t b -> dr_metrics a = None ->
    sim k t (put_values_into_snapshot a de s) (put_values_into_snapshot b de s)
      (fun r1 r2 => kept (norm_driver t) a r1 r2 /\ plain r1 /\ plain r2).
  Proof.
    intros a b de s E Hm. unfold put_values_into_snapshot. apply sim_step; [apply stays_now|]. intros st.
    pose proof (norm_driver_inv _ _ E) as (E1 & _). rewrite <- E1. destruct (dr_name a) as [n|].
    - eapply sim_bind; [apply add_values_shows; assumption|].
      intros [a' s1] [b' s2] ((N1 & N2 & Es) & P1 & P2). cbn [fst snd] in N1, N2, Es. subst s2.
      apply sim_ret. repeat split; auto.
    - apply add_values_shows; assumption.
  Qed.

  (** Computations in the world of a driver. *)
  Definition dsim {A B} (m1 : St (dworld X Y) A) (m2 : St (dworld X Y) B) (P : A -> B -> Prop) : Prop :=
    forall w a b w1 w2, w_clock (dw_world w) = frozen t -> m1 k w = Ok a w1 -> m2 k w = Ok b w2 ->
      w1 = w2 /\ w_clock (dw_world w1) = frozen t /\ P a b.

  Lemma dsim_ret : forall A B (a : A) (b : B) (P : A -> B -> Prop), P a b -> dsim (ret a) (ret b) P.
  Proof. intros A B a b P H w x y w1 w2 Hw E1 E2. injection E1 as <- <-. injection E2 as <- <-. auto. Qed.

  Lemma dsim_bind : forall A B A' B' (m1 : St (dworld X Y) A) (m2 : St (dworld X Y) B)
    (f : A -> St (dworld X Y) A') (g : B -> St (dworld X Y) B') P Q,
    dsim m1 m2 P -> (forall a b, P a b -> dsim (f a) (g b) Q) -> dsim (bind m1 f) (bind m2 g) Q.
  Proof.
    intros A B A' B' m1 m2 f g P Q H1 H2 w x y w1 w2 Hw E1 E2. apply bind_ok in E1, E2.
    destruct E1 as (a & v1 & E1 & F1), E2 as (b & v2 & E2 & F2).
    destruct (H1 _ _ _ _ _ Hw E1 E2) as (-> & Hv & HP). exact (H2 _ _ HP _ _ _ _ _ Hv F1 F2).
  Qed.

  Lemma dsim_world : forall A B (m1 : St (world X Y) A) (m2 : St (world X Y) B) P,
    wsim k t m1 m2 P -> dsim (in_world m1) (in_world m2) P.
  Proof.
    intros A B m1 m2 P H w a b w1 w2 Hw E1 E2. unfold in_world in E1, E2.
    destruct (m1 k (dw_world w)) as [x v1| |] eqn:F1; try discriminate E1. injection E1 as <- <-.
    destruct (m2 k (dw_world w)) as [y v2| |] eqn:F2; try discriminate E2. injection E2 as <- <-.
    destruct (H _ _ _ _ _ Hw F1 F2) as (-> & Hv & HP). auto.
  Qed.

  Lemma dsim_timed : forall A (m : M A), stays m -> dsim (timed m) (timed m) eq.
  Proof. intros A m H. apply dsim_world. apply wsim_lift. apply sim_same. exact H. Qed.

  Lemma dsim_clock : forall A A' B' (m : M A) (f : A -> St (dworld X Y) A') (g : A -> St (dworld X Y) B') Q,
    stays m -> (forall a, dsim (f a) (g a) Q) -> dsim (bind (timed m) f) (bind (timed m) g) Q.
  Proof. intros. eapply dsim_bind; [apply dsim_timed; assumption|]. intros a b <-. auto. Qed.

  Lemma dsim_arith : forall A' B' a b (f : Z -> St (dworld X Y) A') (g : Z -> St (dworld X Y) B') Q,
    (forall a, dsim (f a) (g a) Q) -> dsim (bind (add_usize a b) f) (bind (add_usize a b) g) Q.
  Proof.
    intros A' B' a b f g Q H. eapply dsim_bind with (P := eq); [|intros x y <-; apply H].
    intros w x y w1 w2 Hw E1 E2. rewrite E1 in E2. injection E2 as <- <-. apply u64_arith_inv in E1.
    destruct E1 as (-> & _). auto.
  Qed.

  Lemma dsim_answer : forall A' B' b s (f : unit -> St (dworld X Y) A') (g : unit -> St (dworld X Y) B') Q,
    dsim (f tt) (g tt) Q -> dsim (bind (answer b s) f) (bind (answer b s) g) Q.
  Proof.
    intros A' B' b s f g Q H. eapply dsim_bind with (P := eq); [|intros [] [] _; apply H].
    intros w x y w1 w2 Hw E1 E2. injection E1 as <- <-. injection E2 as <- <-. auto.
  Qed.

  Definition same_driver (a b : driver X Y) : Prop :=
    norm_driver t a = norm_driver t b /\ dr_metrics a = None.

  Lemma command_same : forall (a b : driver X Y) c, same_driver a b ->
    dsim (driver_command a c) (driver_command b c) same_driver.
  Proof.
    intros a b c [E Hm]. pose proof (norm_driver_inv _ _ E) as (E1 & E2 & E3 & E4 & E5 & E6 & E7 & E8 & E9).
    assert (G : forall into n de, dsim
        (let* '(d, s) := timed (put_values_into_snapshot a de into) in let* _ := answer n s in ret d)
        (let* '(d, s) := timed (put_values_into_snapshot b de into) in let* _ := answer n s in ret d) same_driver).
    { intros into n de. eapply dsim_bind.
      - apply dsim_world. apply wsim_lift. apply driver_shows; assumption.
      - intros [a' s1] [b' s2] ((N1 & N2 & Es) & P1 & P2). cbn [fst snd] in N1, N2, Es. subst s2.
        apply dsim_answer. apply dsim_ret. split; [congruence|exact P1]. }
    destruct c; cbn [driver_command]; try apply G; apply dsim_ret; (split; [|exact Hm]); apply norm_driver_eq; cbn;
      rewrite ?map_app; congruence.
  Qed.

  Lemma run_same : forall (a b : driver X Y), same_driver a b ->
    dsim (driver_run a t) (driver_run b t) same_driver.
  Proof.
    intros a b [E Hm]. pose proof (norm_driver_inv _ _ E) as (E1 & E2 & E3 & E4 & E5 & E6 & E7 & E8 & E9).
    unfold driver_run. apply dsim_clock; [apply stays_now|]. intros rs. rewrite <- E5.
    eapply dsim_bind with (P := alike (map (norm_processor t))).
    { apply dsim_world. unfold do_a_run. intros w x y w1 w2 Hw F1 F2.
      refine (traverse_collects k t _ _ _ _ _ E3 w x y w1 w2 Hw F1 F2).
      intros p q Epq. apply processor_processes; assumption. }
    intros [ps1 o] [ps2 o'] [N Eo]. cbn [fst snd] in N, Eo. subst o'. cbv zeta.
    apply dsim_clock; [apply elapsed_stays|]. intros rt.
    cbn [driver_with dr_dropped_since_last_logged dr_last_outcome_logged dr_metrics]. rewrite <- E9, <- E8.
    apply dsim_arith. intros dropped.
    eapply dsim_bind with (P := same_driver).
    { assert (R : forall l n, same_driver (driver_set_log (driver_with a ps1 (dr_snapshooters a) (dr_metrics a)) l n)
                   (driver_set_log (driver_with b ps2 (dr_snapshooters b) (dr_metrics b)) l n)).
      { intros l n. split; [|exact Hm]. apply norm_driver_eq; cbn; congruence. }
      destruct (0 <? dropped); [|apply dsim_ret; apply R].
      apply dsim_clock; [apply elapsed_stays|]. intros e.
      destruct (5 * nanos_per_sec <? e); [|apply dsim_ret; apply R].
      apply dsim_clock; [apply stays_now|]. intros t1. apply dsim_ret. apply R. }
    intros a1 b1 [N1 M1]. pose proof (norm_driver_inv _ _ N1) as (F1 & F2 & F3 & F4 & F5 & F6 & F7 & F8 & F9).
    rewrite <- F7, M1.
    eapply dsim_bind with (P := fun x y => x = None /\ y = None); [apply dsim_ret; auto|]. intros m m' [-> ->].
    assert (R : same_driver (driver_with a1 (dr_processors a1) (dr_snapshooters a1) None)
                  (driver_with b1 (dr_processors b1) (dr_snapshooters b1) None)).
    { split; [|reflexivity]. apply norm_driver_eq; cbn; congruence. }
    destruct ((0 <? oc_dropped o) || (100 <? oc_processed o)); [apply dsim_ret; exact R|].
    apply dsim_clock; [apply stays_now|]. intros fin.
    eapply dsim_bind with (P := fun x y => x = None /\ y = None).
    { apply dsim_world. apply wsim_lift. cbn [report_elapsed_stats]. apply sim_ret. auto. }
    intros m m' [-> ->]. apply dsim_ret. exact R.
  Qed.
End Drivers.

Lemma norm_driver_norm : forall X Y t t' (d : driver X Y), t <= t' -> norm_driver t' (norm_driver t d) = norm_driver t' d.
Proof.
  intros X Y t t' d Ht. destruct (processor_norm X Y t t' Ht) as [Hp _]. destruct (tree_norm (X := X) t t' Ht) as (_ & _ & _ & Hs).
  unfold norm_driver, driver_with. cbn. f_equal; apply map_norm; apply Forall_forall; auto.
Qed.

Section Results.
  Context {X : ext} {Y : pext} (HX : parts_quiet X) (HY : processors_quiet Y).

  Definition same_rest_d (w v : dworld X Y) : Prop :=
    same_rest (dw_world w) (dw_world v) /\ dw_commands w = dw_commands v /\ dw_guards w = dw_guards v
    /\ dw_running w = dw_running v /\ dw_unanswered w = dw_unanswered v /\ dw_sched w = dw_sched v.

  Definition start_at (w : dworld X Y) (t : Z) : dworld X Y :=
    DWorld (at_time (dw_world w) t) (dw_commands w) (dw_guards w) (dw_running w) [] (dw_unanswered w) (dw_sched w).

  Lemma start_at_same : forall w v t, same_rest_d w v -> start_at w t = start_at v t.
  Proof.
    intros w v t (E1 & E2 & E3 & E4 & E5 & E6). unfold start_at. rewrite (same_rest_at _ _ t E1). congruence.
  Qed.

  Definition same_state (t : Z) (x y : driver X Y * dworld X Y) : Prop :=
    same_driver t (fst x) (fst y) /\ same_rest_d (snd x) (snd y).

  Lemma asked : forall k t (d : driver X Y) de into b w d' w', dr_metrics d = None ->
    (let* '(d, s) := timed (put_values_into_snapshot d de into) in let* _ := answer b s in ret d) k (start_at w t)
      = Ok d' w' ->
    norm_driver t d' = norm_driver t d /\ same_rest_d w w'.
  Proof.
    intros k t d de into b w d' w' Hd F. apply bind_ok in F. destruct F as ([d1 s] & w1 & F1 & F).
    apply bind_ok in F. destruct F as ([] & w2 & F2 & F). injection F as <- <-.
    unfold answer in F2. injection F2 as <-.
    unfold timed, in_world, lift in F1. change (w_clock (dw_world (start_at w t))) with (frozen t) in F1.
    destruct (put_values_into_snapshot d de into k (frozen t)) as [[d2 s2] c| |] eqn:G; try discriminate F1.
    injection F1 as <- <- <-.
    destruct (driver_shows k t HX HY d d de into eq_refl Hd _ _ _ _ G G) as (_ & _ & (N & _) & _).
    split; [exact N|]. repeat split.
  Qed.

  Lemma driver_reads : forall k (d : driver X Y) w, dr_metrics d = None ->
    insertions_do_not_matter (driving k) driver_operation_reads (d, w).
  Proof.
    intros k d w Hd h from rs1 rs2 Ho Hm E1 E2.
    refine (answers_insert (driving k) driver_operation_reads same_state _ _ _ h (d, w) (d, w) from rs1 rs2 _ Ho Hm E1 E2).
    - intros t t' x y Ht [[N M] Hw]. split; [|exact Hw]. split; [|exact M].
      rewrite <- (norm_driver_norm X Y t t' (fst x) Ht), <- (norm_driver_norm X Y t t' (fst y) Ht). congruence.
    - intros t [x v] [y u] o x' y' r s [HD Hw] F1 F2. cbn [fst snd] in HD, Hw. unfold driving in F1, F2.
      change (DWorld _ _ _ _ _ _ _) with (start_at v t) in F1. change (DWorld _ _ _ _ _ _ _) with (start_at u t) in F2.
      rewrite <- (start_at_same _ _ t Hw) in F2.
      assert (G : dsim k t (match o with Execute c => driver_command x c | Run => driver_run x t end)
                   (match o with Execute c => driver_command y c | Run => driver_run y t end) (same_driver t)).
      { destruct o; [apply command_same|apply run_same]; assumption. }
      destruct ((match o with Execute c => driver_command x c | Run => driver_run x t end) k (start_at v t))
        as [x1 v1| |] eqn:G1; try discriminate F1.
      destruct ((match o with Execute c => driver_command y c | Run => driver_run y t end) k (start_at v t))
        as [y1 u1| |] eqn:G2; try discriminate F2.
      destruct (G _ _ _ _ _ (eq_refl : w_clock (dw_world (start_at v t)) = _) G1 G2) as (-> & _ & Hs).
      injection F1 as <- <-. injection F2 as <- <-. split; [reflexivity|]. split; [exact Hs|]. repeat split.
    - intros t [x v] [y u] o y' s [[N M] Hw] Hr F2. cbn [fst snd] in N, M, Hw. unfold driving in F2.
      change (DWorld _ _ _ _ _ _ _) with (start_at u t) in F2.
      assert (My : dr_metrics y = None).
      { pose proof (norm_driver_inv _ _ _ N) as (_ & _ & _ & _ & _ & _ & E7 & _). congruence. }
      destruct o as [c|]; [|discriminate Hr].
      destruct (driver_command y c k (start_at u t)) as [y1 u1| |] eqn:G; try discriminate F2. injection F2 as <- <-.
      assert (A : norm_driver t y1 = norm_driver t y /\ same_rest_d u u1).
      { destruct c; try discriminate Hr; cbn [driver_command] in G; exact (asked _ _ _ _ _ _ _ _ _ My G). }
      destruct A as [A1 A2]. split; cbn [fst snd].
      + split; [congruence|exact M].
      + destruct Hw as ((W1 & W2 & W3) & W4 & W5 & W6 & W7 & W8), A2 as ((V1 & V2 & V3) & V4 & V5 & V6 & V7 & V8).
        repeat split; congruence.
    - split; [split; [reflexivity|exact Hd]|]. repeat split.
  Qed.
End Results.
