(** Proofs about [DriverBuilder]. *)
From Coq Require Import ZArith Bool String List Lia.
From Verif Require Import Base SpecRun MonadFacts ModelObservation ModelSnapshot ModelInstrument ModelTree ModelChannel
  ModelProcessor ModelDriver ModelConfig SpecConfig SpecBuilder SpecQueue SpecCollect SpecWriting SpecDriver
  WritingProofs AppendProofs DriverLoopProofs ConfigTreeProofs.
Import ListNotations.
Open Scope Z_scope.

Lemma builder_options n0 b0 calls : new_builder n0 b0 ->
  let b := fold_left builder_config calls b0 in
  db_name b = latest b_name n0 calls /\ db_title b = latest b_title None calls
  /\ db_description b = latest b_description None calls
  /\ db_strategy b = latest b_strategy strategy_default calls /\ db_metrics b = latest b_metrics true calls.
Proof.
  intros N. cbv zeta.
  assert (G : forall b, let b' := fold_left builder_config calls b in
    db_name b' = latest b_name (db_name b) calls /\ db_title b' = latest b_title (db_title b) calls
    /\ db_description b' = latest b_description (db_description b) calls
    /\ db_strategy b' = latest b_strategy (db_strategy b) calls /\ db_metrics b' = latest b_metrics (db_metrics b) calls).
  { clear. unfold latest. induction calls as [|a l IH]; intros b; [cbn; auto|].
    cbn [fold_left]. cbv zeta in *. destruct (IH (builder_config b a)) as (-> & -> & -> & -> & ->). destruct a; auto. }
  specialize (G b0). destruct N; exact G.
Qed.

Section Built.
  Context {X : ext} {Y : pext}.

  Lemma built_start b k c (d : driver X Y) c1 :
    builder_build b k c = Ok d c1 ->
    dr_name d = db_name b /\ dr_descr d = Descr (db_title b) (db_description b) /\ dr_strategy d = db_strategy b
    /\ dr_paused d = false /\ (dr_metrics d = None <-> db_metrics b = false) /\ dr_processors d = [] /\ dr_snapshooters d = [].
  Proof.
    unfold builder_build, telemetry_driver_new, driver_start. intros R.
    apply bind_ok in R as (m & c2 & R1 & R). apply bind_ok in R as (t & c3 & R2 & R). apply bind_ok in R as (l & c4 & R3 & R).
    injection R as <- <-. cbn. destruct (db_metrics b).
    - apply bind_ok in R1 as (i & c5 & R4 & R5). injection R5 as <- <-. intuition congruence.
    - injection R1 as <- <-. intuition congruence.
  Qed.

  Lemma built_configured n0 b0 calls k c (d : driver X Y) c1 v sched n d' w' :
    new_builder n0 b0 ->
    builder_build (fold_left builder_config calls b0) k c = Ok d c1 ->
    iterates k n d (new_world v sched) d' w' ->
    exists cs,
      moved (dw_commands (new_world v sched)) (dw_commands w') cs
      /\ dr_name d' = latest b_name n0 calls
      /\ dr_descr d' = Descr (latest b_title None calls) (latest b_description None calls)
      /\ dr_strategy d' = strategy_after (latest b_strategy strategy_default calls) cs
      /\ dr_paused d' = paused_after false cs
      /\ (dr_metrics d' = None <-> latest b_metrics true calls = false).
  Proof.
    intros N R I. destruct (builder_options _ _ calls N) as (E1 & E2 & E3 & E4 & E5).
    destruct (built_start _ _ _ _ _ R) as (F1 & F2 & F3 & F4 & F5 & _).
    assert (Hok : driver_ok (new_world (X := X) (Y := Y) v sched)) by (unfold driver_ok; cbn; repeat split; auto; discriminate).
    destruct (iterates_spec _ _ _ _ _ _ I Hok) as (cs & ans & [I1 I2 I3 I4 I5 I6] & L & P & _).
    exists cs. split; [exact I2|]. destruct I3 as (G1 & G2 & _ & _ & G5 & G6 & G7).
    rewrite G1, G2, G5, G6, F1, F2, F3, F4, E1, E2, E3, E4. repeat (split; [reflexivity|]).
    rewrite G7, F5, E5. reflexivity.
  Qed.

  Context (HX : parts_append X) (HY : forall u, appends (user_proc_put Y u)).

  Lemma traverse_appends {A} (put : A -> snapshot -> M (A * snapshot)) :
    (forall a into, grows into (put a into)) ->
    forall l into k c l' s c', traverse put l into k c = Ok (l', s) c' -> exists body, s = into ++ body.
  Proof.
    intros H. induction l as [|a l IH]; intros into k c l' s c' E; cbn [traverse] in E.
    - injection E as <- <- <-. exists []. rewrite app_nil_r. reflexivity.
    - apply bind_ok in E as ([a' s1] & c1 & E1 & E). apply bind_ok in E as ([l1 s2] & c2 & E2 & E).
      injection E as <- <- <-. destruct (H _ _ _ _ _ _ _ E1) as (piece & ->).
      destruct (IH _ _ _ _ _ _ E2) as (body & ->). exists (piece ++ body). rewrite app_assoc. reflexivity.
  Qed.

  Lemma values_shown (d : driver X Y) de st k c d' s c' :
    add_snapshot_values d de st [] k c = Ok (d', s) c' ->
    exists body metrix,
      s = (if de then text_field "_title" (d_title (dr_descr d)) ++ text_field "_description" (d_description (dr_descr d)) else [])
          ++ body ++ metrix
      /\ (dr_metrics d = None -> metrix = [])
      /\ (dr_metrics d <> None -> exists inner, metrix = [("_metrix"%string, ItemSnapshot inner)]).
  Proof.
    intros E. unfold add_snapshot_values in E. cbv zeta in E. destruct (dr_descr d) as [t de'] eqn:Ed.
    rewrite default_descriptives in E. cbn [d_title d_description].
    set (texts := if de then _ else _) in *. clearbody texts.
    apply bind_ok in E as ([ps s1] & c1 & E1 & E). apply bind_ok in E as ([ss s2] & c2 & E2 & E).
    apply traverse_appends in E1 as (b1 & ->); [|intros a into; exact (proj1 (processor_appends HX Y HY) a de into)].
    apply traverse_appends in E2 as (b2 & ->); [|intros a into; exact (proj2 (proj2 (proj2 (tree_appends HX))) a de into)].
    destruct (dr_metrics d) as [i|].
    - apply bind_ok in E as (i1 & c3 & E3 & E). apply bind_ok in E as ([i2 s3] & c4 & E4 & E). injection E as <- <- <-.
      unfold instruments_put in E4. repeat (apply bind_ok in E4 as (? & ? & _ & E4); repeat match goal with x : _ * _ |- _ => destruct x end).
      injection E4 as _ <- _. unfold push.
      eexists (b1 ++ b2), [_]. rewrite <- !app_assoc. split; [reflexivity|]. split; [discriminate|]. intros _. eexists. reflexivity.
    - injection E as _ <- _. exists (b1 ++ b2), []. rewrite app_nil_r, app_assoc. split; [reflexivity|]. split; [reflexivity|]. congruence.
  Qed.

  Lemma built_shown n0 b0 calls k c (d : driver X Y) c1 v sched n d' w' :
    new_builder n0 b0 ->
    builder_build (fold_left builder_config calls b0) k c = Ok d c1 ->
    iterates k n d (new_world v sched) d' w' ->
    forall de k2 c2 d2 s c3, put_values_into_snapshot d' de [] k2 c2 = Ok (d2, s) c3 ->
    exists body metrix,
      let level :=
        (if de then text_field "_title" (latest b_title None calls)
                    ++ text_field "_description" (latest b_description None calls) else [])
        ++ body ++ metrix in
      s = match latest b_name n0 calls with Some name => [(name, ItemSnapshot level)] | None => level end
      /\ if latest b_metrics true calls
         then exists inner, metrix = [("_metrix"%string, ItemSnapshot inner)] else metrix = [].
  Proof.
    intros N R I de k2 c2 d2 s c3 P. destruct (built_configured _ _ _ _ _ _ _ _ _ _ _ _ N R I) as (cs & _ & F1 & F2 & _ & _ & F5).
    unfold put_values_into_snapshot in P. apply bind_ok in P as (st & c4 & _ & P).
    assert (G : exists body metrix,
      let level :=
        (if de then text_field "_title" (latest b_title None calls)
                    ++ text_field "_description" (latest b_description None calls) else [])
        ++ body ++ metrix in
      (s = match dr_name d' with Some name => [(name, ItemSnapshot level)] | None => level end)
      /\ (dr_metrics d' = None -> metrix = [])
      /\ (dr_metrics d' <> None -> exists inner, metrix = [("_metrix"%string, ItemSnapshot inner)])).
    { destruct (dr_name d') as [name|].
      - apply bind_ok in P as ([d3 lv] & c5 & P1 & P). injection P as <- <- <-.
        destruct (values_shown _ _ _ _ _ _ _ _ P1) as (body & metrix & E & M1 & M2). rewrite F2 in E.
        exists body, metrix. cbv zeta. split; [rewrite E; reflexivity|]. split; assumption.
      - destruct (values_shown _ _ _ _ _ _ _ _ P) as (body & metrix & E & M1 & M2). rewrite F2 in E.
        exists body, metrix. cbv zeta. split; [exact E|]. split; assumption. }
    destruct G as (body & metrix & G1 & G2 & G3). exists body, metrix. cbv zeta in *. rewrite <- F1.
    split; [exact G1|]. destruct (latest b_metrics true calls); [apply G3; rewrite F5; discriminate | apply G2, F5; reflexivity].
  Qed.
End Built.
