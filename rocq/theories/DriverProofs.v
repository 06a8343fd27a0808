(** The thread of a driver. *)
From Coq Require Import ZArith Bool String List Lia.
From Verif Require Import Base SpecRun MonadFacts ModelObservation ModelSnapshot ModelSwitches ModelInstrument ModelTree
  ModelChannel ModelProcessor ModelDriver SpecQueue QueueProofs SpecCollect CollectProofs GroupProofs SpecDriver.
Import ListNotations.
Open Scope Z_scope.

Section Driver.
  Context {X : ext} {Y : pext}.
  Implicit Types (d : driver X Y) (w : dworld X Y) (cs : list (command X Y)).

  (** ** Clients *)

  Lemma client_act_others : forall a w, let w' := client_act w a in
    dw_world w' = dw_world w /\ dw_answers w' = dw_answers w /\ dw_unanswered w' = dw_unanswered w
    /\ dw_sched w' = dw_sched w.
  Proof.
    intros a w. destruct a; cbn [client_act].
    - destruct (dw_guards w); auto.
    - destruct (dw_guards w); auto.
    - destruct (dw_guards w) as [|[|n]]; auto.
    - destruct (Nat.ltb _ _); auto.
  Qed.

  Lemma client_act_ok : forall a w, driver_ok w -> driver_ok (client_act w a).
  Proof.
    intros a [w [cap q wt sn rc ac lo] g r an un sc] (C & W & R & G & S0). unfold driver_ok in *. cbn in C, W, R, G, S0. subst.
    destruct a; cbn [client_act dw_guards dw_commands ch_senders].
    - destruct g as [|g]; cbn; [auto 6|]. destruct sn; [lia|]. cbn. auto 6.
    - destruct g as [|g]; cbn; [auto 6|]. destruct sn; [lia|]. cbn. repeat split; auto; try lia; try (intros _; apply S0; discriminate).
    - destruct g as [|[|g]]; cbn; [auto 6|..].
      + repeat split; auto; try lia; intros H; first [discriminate H | destruct (H eq_refl)].
      + repeat split; auto; try lia; try (intros _; apply S0; discriminate).
    - destruct (Nat.ltb_spec g sn); cbn; [|auto 6]. destruct sn; [lia|].
      unfold chan_drop_sender. cbn. destruct sn; cbn; repeat split; auto; try lia; apply S0.
  Qed.

  Lemma client_act_commands : forall a w, driver_ok w ->
    exists h, dw_commands (client_act w a) = chan_run (dw_commands w) h
      /\ taken (dw_commands w) h = []
      /\ ch_accepted (dw_commands (client_act w a)) = ch_accepted (dw_commands w) ++ called (dw_guards w) [a].
  Proof.
    intros a [w [cap q wt sn rc ac lo] g r an un sc] (C & W & R & G & S0). cbn in C, W, R, G, S0. subst.
    destruct a; cbn [client_act dw_guards dw_commands ch_senders called].
    - destruct g as [|g]; cbn.
      + exists []. rewrite app_nil_r. auto.
      + exists [Acts (Send c)]. destruct sn; [lia|]. cbn. auto.
    - destruct g as [|g]; cbn.
      + exists []. rewrite app_nil_r. auto.
      + exists [Acts CloneSender]. destruct sn; [lia|]. cbn. rewrite app_nil_r. auto.
    - exists []. destruct g as [|[|g]]; cbn; rewrite app_nil_r; auto.
    - destruct (Nat.ltb_spec g sn); cbn.
      + exists [Acts DropSender]. destruct sn; [lia|]. cbn. unfold chan_drop_sender. cbn. destruct sn; cbn; rewrite app_nil_r; auto.
      + exists []. rewrite app_nil_r. auto.
  Qed.

  Lemma client_act_called : forall a l w,
    called (dw_guards w) (a :: l) = called (dw_guards w) [a] ++ called (dw_guards (client_act w a)) l.
  Proof.
    intros a l w. destruct a; cbn [called client_act app].
    - destruct (dw_guards w) as [|n] eqn:E; cbn [dw_with dw_guards app]; rewrite ?E; reflexivity.
    - destruct (dw_guards w) as [|n] eqn:E; cbn [dw_with dw_guards]; rewrite ?E; reflexivity.
    - destruct (dw_guards w) as [|[|n]] eqn:E; cbn [dw_with dw_guards pred]; rewrite ?E; reflexivity.
    - destruct (Nat.ltb (dw_guards w) (ch_senders (dw_commands w))); reflexivity.
  Qed.

  Lemma client_act_guards_after : forall a l w,
    guards_after (dw_guards w) (a :: l) = guards_after (dw_guards (client_act w a)) l.
  Proof.
    intros a l w. destruct a; cbn [guards_after client_act].
    - destruct (dw_guards w) as [|n] eqn:E; cbn [dw_with dw_guards]; rewrite ?E; reflexivity.
    - destruct (dw_guards w) as [|n] eqn:E; cbn [dw_with dw_guards]; rewrite ?E; reflexivity.
    - destruct (dw_guards w) as [|[|n]] eqn:E; cbn [dw_with dw_guards pred]; rewrite ?E; reflexivity.
    - destruct (Nat.ltb (dw_guards w) (ch_senders (dw_commands w))); reflexivity.
  Qed.

  Lemma clients_fold : forall l w, driver_ok w -> let w' := fold_left client_act l w in
    driver_ok w'
    /\ (exists h, dw_commands w' = chan_run (dw_commands w) h /\ taken (dw_commands w) h = [])
    /\ ch_accepted (dw_commands w') = ch_accepted (dw_commands w) ++ called (dw_guards w) l
    /\ dw_world w' = dw_world w /\ dw_answers w' = dw_answers w /\ dw_unanswered w' = dw_unanswered w
    /\ dw_sched w' = dw_sched w
    /\ dw_guards w' = guards_after (dw_guards w) l.
  Proof.
    induction l as [|a l IH]; intros w H; cbn [fold_left].
    - split; [exact H|]. split; [exists []; auto|]. cbn [called]. rewrite app_nil_r. auto 8.
    - destruct (IH _ (client_act_ok a w H)) as (H1 & (h2 & H2 & T2) & H3 & H4 & H5 & H6 & H7 & H8).
      destruct (client_act_commands a w H) as (h1 & G1 & T1 & G2). destruct (client_act_others a w) as (F1 & F2 & F3 & F4).
      split; [exact H1|]. split.
      { exists (h1 ++ h2). rewrite chan_run_app, <- G1. split; [exact H2|]. rewrite taken_app, T1, <- G1. exact T2. }
      split.
      { rewrite H3, G2, <- app_assoc. f_equal. symmetry. apply client_act_called. }
      repeat split; try congruence. rewrite H8. symmetry. apply client_act_guards_after.
  Qed.

  (** A channel operation of the driver's thread. *)
  Record waited w w1 : Prop := Waited {
    wt_ok : driver_ok w1;
    wt_moved : moved (dw_commands w) (dw_commands w1) [];
    wt_accepted : ch_accepted (dw_commands w1) = ch_accepted (dw_commands w) ++ called (dw_guards w) (dw_sched w O);
    wt_world : dw_world w1 = dw_world w;
    wt_answers : dw_answers w1 = dw_answers w;
    wt_unanswered : dw_unanswered w1 = dw_unanswered w;
    wt_guards : dw_guards w1 = guards_after (dw_guards w) (dw_sched w O);
    wt_sched : forall i, dw_sched w1 i = dw_sched w (S i)
  }.

  Lemma clients_waited : forall k w u w1, driver_ok w -> clients k w = Ok u w1 -> waited w w1.
  Proof.
    intros k w u w1 H E. unfold clients in E. injection E as _ <-.
    destruct (clients_fold (dw_sched w O) w H) as (H1 & (h & H2 & T) & H3 & H4 & H5 & H6 & H7 & H8).
    split; cbn [dw_commands dw_world dw_answers dw_unanswered dw_guards dw_sched]; auto; [|intros i; rewrite H7; reflexivity].
    assert (M := run_moved h (dw_commands w)). rewrite T, <- H2 in M. exact M.
  Qed.

  Lemma load_cases : forall k w b w1, driver_ok w -> load_running k w = Ok b w1 ->
    waited w w1 /\ b = dw_running w1.
  Proof.
    intros k w b w1 H E. unfold load_running in E. apply bind_ok in E. destruct E as (u & w2 & E1 & E).
    injection E as <- <-. split; [exact (clients_waited _ _ _ _ H E1) | reflexivity].
  Qed.

  Lemma recv_cases : forall k w r w2, driver_ok w -> command_try_recv k w = Ok r w2 ->
    exists w1, waited w w1
      /\ chan_try_recv (dw_commands w1) = (dw_commands w2, r)
      /\ w2 = dw_with w1 (dw_commands w2) (dw_guards w1) (dw_running w1).
  Proof.
    intros k w r w2 H E. unfold command_try_recv in E. apply bind_ok in E. destruct E as (u & w1 & E1 & E).
    destruct (chan_try_recv (dw_commands w1)) as [c x] eqn:Er. injection E as <- <-. exists w1.
    split; [exact (clients_waited _ _ _ _ H E1)|]. cbn [dw_with dw_commands]. auto.
  Qed.

  Lemma in_world_inv : forall A (m : St (world X Y) A) k w a w', in_world m k w = Ok a w' ->
    exists v, m k (dw_world w) = Ok a v
      /\ w' = DWorld v (dw_commands w) (dw_guards w) (dw_running w) (dw_answers w) (dw_unanswered w) (dw_sched w).
  Proof.
    intros A m k w a w' E. unfold in_world in E. destruct (m k (dw_world w)) as [x v| |]; try discriminate E.
    injection E as -> <-. eauto.
  Qed.

  Lemma timed_inv : forall A (m : M A) k w a w', timed m k w = Ok a w' ->
    exists c, m k (w_clock (dw_world w)) = Ok a c
      /\ w' = DWorld (World c (w_queues (dw_world w)) (w_mounts (dw_world w)) (w_sched (dw_world w)))
                (dw_commands w) (dw_guards w) (dw_running w) (dw_answers w) (dw_unanswered w) (dw_sched w).
  Proof.
    intros A m k w a w' E. apply in_world_inv in E. destruct E as (v & E & ->). apply lift_inv in E.
    destruct E as (c & E & ->). eauto.
  Qed.

  (** ** Growing *)

  Lemma grown_refl : forall k d, grown k d [] d.
  Proof.
    intros k d. unfold grown. cbn. rewrite !app_nil_r.
    repeat split; auto; apply forall2_refl; constructor.
  Qed.

  Lemma strategy_after_app : forall a b s, strategy_after (X := X) (Y := Y) s (a ++ b) = strategy_after (strategy_after s a) b.
  Proof. induction a as [|c a IH]; intros b s; [reflexivity|]. destruct c; cbn; apply IH. Qed.
  Lemma paused_after_app : forall a b s, paused_after (X := X) (Y := Y) s (a ++ b) = paused_after (paused_after s a) b.
  Proof. induction a as [|c a IH]; intros b s; [reflexivity|]. destruct c; cbn; apply IH. Qed.

  Lemma evolves_extended : forall A (R : A -> A -> Prop) (a b c x y : list A),
    (forall u, R u u) -> (forall u v s, R u v -> R v s -> R u s) ->
    Forall2 R (a ++ x) b -> Forall2 R (b ++ y) c -> Forall2 R (a ++ x ++ y) c.
  Proof.
    intros A R a b c x y Rr Rt H1 H2. eapply forall2_trans; [exact Rt| |exact H2]. rewrite app_assoc.
    apply Forall2_app; [exact H1 | apply forall2_refl; exact Rr].
  Qed.

  Lemma grown_trans : forall k a cs b cs' c, grown (X := X) (Y := Y) k a cs b -> grown k b cs' c -> grown k a (cs ++ cs') c.
  Proof.
    intros k a cs b cs' c (A1 & A2 & A3 & A4 & A5 & A6 & A7) (B1 & B2 & B3 & B4 & B5 & B6 & B7).
    unfold grown, added_processors, added_snapshooters in *. rewrite !flat_map_app, strategy_after_app, paused_after_app.
    repeat split; try congruence; try tauto.
    - eapply evolves_extended; [apply ev_same | apply evolves_trans | exact A3 | exact B3].
    - eapply evolves_extended; [apply sv_same | apply snap_evolves_trans | exact A4 | exact B4].
  Qed.

  Lemma put_values_grown : forall k d de into c d' s c',
    put_values_into_snapshot d de into k c = Ok (d', s) c' ->
    Forall2 (asked k) (dr_processors d) (dr_processors d')
    /\ Forall2 (snapshooter_evolves k) (dr_snapshooters d) (dr_snapshooters d')
    /\ dr_name d' = dr_name d /\ dr_descr d' = dr_descr d /\ dr_strategy d' = dr_strategy d /\ dr_paused d' = dr_paused d
    /\ (dr_metrics d' = None <-> dr_metrics d = None).
  Proof.
    intros k d de into c d' s c' E.
    assert (H : forall st into c d' s c', add_snapshot_values d de st into k c = Ok (d', s) c' ->
      Forall2 (asked k) (dr_processors d) (dr_processors d')
      /\ Forall2 (snapshooter_evolves k) (dr_snapshooters d) (dr_snapshooters d')
      /\ dr_name d' = dr_name d /\ dr_descr d' = dr_descr d /\ dr_strategy d' = dr_strategy d /\ dr_paused d' = dr_paused d
      /\ (dr_metrics d' = None <-> dr_metrics d = None)).
    { clear. intros st into c d' s c' E. unfold add_snapshot_values in E. cbv zeta in E.
      apply bind_ok in E. destruct E as ([ps i1] & c1 & E1 & E). apply bind_ok in E. destruct E as ([ss i2] & c2 & E2 & E).
      apply traverse_puts in E1. apply traverse_puts in E2.
      assert (F1 : Forall2 (asked k) (dr_processors d) ps).
      { eapply forall2_mono; [|exact E1]. intros a b (i & c0 & i' & c3 & H). eapply as_more; [exact H | apply as_same]. }
      assert (F2 : Forall2 (snapshooter_evolves k) (dr_snapshooters d) ss).
      { eapply forall2_mono; [|exact E2]. intros a b (i & c0 & i' & c3 & H). eapply sv_asked; [exact H | apply sv_same]. }
      destruct (dr_metrics d) as [i|] eqn:Em.
      - apply bind_ok in E. destruct E as (i3 & c3 & E3 & E). apply bind_ok in E. destruct E as ([i4 s4] & c4 & E4 & E).
        injection E as <- <- <-. cbn. repeat split; auto; discriminate.
      - injection E as <- <- <-. cbn. repeat split; auto. }
    unfold put_values_into_snapshot in E. apply bind_ok in E. destruct E as (st & c1 & _ & E).
    destruct (dr_name d) as [n|] eqn:En.
    - apply bind_ok in E. destruct E as ([d1 s1] & c2 & E1 & E). injection E as <- <- <-. exact (H _ _ _ _ _ _ E1).
    - exact (H _ _ _ _ _ _ E).
  Qed.

  Lemma asked_evolves : forall k (p q : processor X Y), asked k p q -> evolves k p q.
  Proof. intros k p q H. induction H; [apply ev_same|]. eapply ev_asked; eassumption. Qed.

  (** One command. *)
  Lemma command_spec : forall k d c w d1 w1, driver_command d c k w = Ok d1 w1 ->
    grown k d [c] d1
    /\ Forall2 (asked k) (dr_processors d ++ added_processors [c]) (dr_processors d1)
    /\ resting (dw_world w) (dw_world w1)
    /\ dw_commands w1 = dw_commands w /\ dw_guards w1 = dw_guards w /\ dw_running w1 = dw_running w
    /\ dw_unanswered w1 = dw_unanswered w /\ dw_sched w1 = dw_sched w
    /\ exists ans, dw_answers w1 = dw_answers w ++ ans
         /\ Forall2 (answered k d) (requests_in [] [c]) ans.
  Proof.
    intros k d c w d1 w1 E.
    assert (Rs : forall a : world X Y, resting a a) by (repeat split).
    assert (Rq : forall into b de d1 w1,
      (c = CGetSnapshotSync into b de \/ c = CGetSnapshotAsync into b de) ->
      (let* '(d, s) := timed (put_values_into_snapshot d de into) in let* _ := answer b s in ret d) k w = Ok d1 w1 ->
      grown k d [c] d1
      /\ Forall2 (asked k) (dr_processors d ++ added_processors [c]) (dr_processors d1)
      /\ resting (dw_world w) (dw_world w1)
      /\ dw_commands w1 = dw_commands w /\ dw_guards w1 = dw_guards w /\ dw_running w1 = dw_running w
      /\ dw_unanswered w1 = dw_unanswered w /\ dw_sched w1 = dw_sched w
      /\ exists ans, dw_answers w1 = dw_answers w ++ ans
           /\ Forall2 (answered k d) (requests_in [] [c]) ans).
    { clear - Rs. intros into b de d1 w1 Hc E. apply bind_ok in E. destruct E as ([d2 s] & w2 & E1 & E).
      apply timed_inv in E1. destruct E1 as (cl & E1 & ->). apply bind_ok in E. destruct E as (u & w3 & E2 & E).
      injection E2 as _ <-. injection E as <- <-. cbn [dw_world dw_commands dw_guards dw_running dw_unanswered dw_answers dw_sched w_clock].
      destruct (put_values_grown _ _ _ _ _ _ _ _ E1) as (H1 & H2 & H3 & H4 & H5 & H6 & H7).
      assert (N : added_processors [c] = [] /\ added_snapshooters [c] = [] /\ strategy_after (dr_strategy d) [c] = dr_strategy d
                  /\ paused_after (dr_paused d) [c] = dr_paused d /\ requests_in [] [c] = [([], c)])
        by (destruct Hc as [->| ->]; repeat split).
      destruct N as (N1 & N2 & N3 & N4 & N5). rewrite N1, N5, app_nil_r.
      split. { unfold grown. rewrite N1, N2, N3, N4, !app_nil_r. repeat split; auto; [|apply H7..].
               eapply forall2_mono; [apply asked_evolves | exact H1]. }
      split; [exact H1|]. split; [repeat split|]. do 5 (split; [reflexivity|]).
      exists [(b, s)]. split; [reflexivity|]. constructor; [|constructor].
      exists into, de, d, (w_clock (dw_world w)), d2, cl. split; [exact Hc|]. split; [apply grown_refl | exact E1]. }
    assert (Pl : forall d1 : driver X Y, requests_in [] [c] = [] -> grown k d [c] d1 ->
      dr_processors d1 = dr_processors d ++ added_processors [c] -> Ok d1 w = Ok (W := dworld X Y) d1 w1 ->
      grown k d [c] d1
      /\ Forall2 (asked k) (dr_processors d ++ added_processors [c]) (dr_processors d1)
      /\ resting (dw_world w) (dw_world w1)
      /\ dw_commands w1 = dw_commands w /\ dw_guards w1 = dw_guards w /\ dw_running w1 = dw_running w
      /\ dw_unanswered w1 = dw_unanswered w /\ dw_sched w1 = dw_sched w
      /\ exists ans, dw_answers w1 = dw_answers w ++ ans
           /\ Forall2 (answered k d) (requests_in [] [c]) ans).
    { clear - Rs. intros d1 Hr Hg Hp E. injection E as <-. rewrite Hr, <- Hp. split; [exact Hg|].
      split; [apply forall2_refl; apply as_same|]. split; [apply Rs|]. do 5 (split; [reflexivity|]).
      exists []. rewrite app_nil_r. auto. }
    assert (Fe : forall l : list (processor X Y), Forall2 (evolves k) l l) by (intros; apply forall2_refl; apply ev_same).
    assert (Fs : forall l : list (snapshooter X), Forall2 (snapshooter_evolves k) l l) by (intros; apply forall2_refl; apply sv_same).
    destruct c; cbn [driver_command] in E; try (eapply Rq; [eauto|exact E]);
      injection E as <- <-; (apply Pl; [reflexivity| |cbn; rewrite ?app_nil_r; reflexivity|reflexivity]);
      unfold grown; cbn; rewrite ?app_nil_r; repeat split; auto.
  Qed.

  Lemma resting_refl : forall a : world X Y, resting a a.
  Proof. repeat split. Qed.
  Lemma resting_trans : forall a b c : world X Y, resting a b -> resting b c -> resting a c.
  Proof. unfold resting. intuition congruence. Qed.

  Lemma do_a_run_sums : forall (ps : list (processor X Y)) max s k (v : world X Y) ps' o v', do_a_run ps max s k v = Ok (ps', o) v' ->
    exists os, collect_each k max s ps v ps' os v' /\ o = wrapped os.
  Proof.
    intros ps max s k v ps' o v' E. unfold do_a_run in E. apply traverse_collects in E. destruct E as (os & CE & O1 & O2).
    exists os. split; [exact CE|]. destruct os as [|x os]; [rewrite (O1 eq_refl); reflexivity|]. rewrite O2 by discriminate.
    unfold plus, wrapped. cbn [outcome_default oc_processed oc_dropped oc_instruments_updated oc_enqueued]. rewrite !Z.add_0_l. reflexivity.
  Qed.

  (** One collection of everything. *)
  Lemma run_spec : forall k d t0 w d1 w1, driver_run d t0 k w = Ok d1 w1 ->
    exists v1 ps os v2,
      resting (dw_world w) v1
      /\ collect_each k 1000 (dr_strategy d) (dr_processors d) v1 ps os v2
      /\ dr_processors d1 = ps
      /\ resting v2 (dw_world w1)
      /\ dr_snapshooters d1 = dr_snapshooters d /\ dr_name d1 = dr_name d /\ dr_descr d1 = dr_descr d
      /\ dr_strategy d1 = dr_strategy d /\ dr_paused d1 = dr_paused d
      /\ (dr_metrics d1 = None <-> dr_metrics d = None)
      /\ dw_commands w1 = dw_commands w /\ dw_guards w1 = dw_guards w /\ dw_running w1 = dw_running w
      /\ dw_answers w1 = dw_answers w /\ dw_unanswered w1 = dw_unanswered w /\ dw_sched w1 = dw_sched w.
  Proof.
    intros k d t0 w d1 w1 E. unfold driver_run in E.
    apply bind_ok in E. destruct E as (rs & w2 & E1 & E). apply timed_inv in E1. destruct E1 as (c1 & E1 & ->).
    apply bind_ok in E. destruct E as ([ps o] & w3 & E2 & E). apply in_world_inv in E2. destruct E2 as (v2 & E2 & ->).
    cbn [dw_world dw_commands dw_guards dw_running dw_answers dw_unanswered dw_sched] in E2, E. cbv zeta in E.
    unfold do_a_run in E2. apply traverse_collects in E2. destruct E2 as (os & CE & O1 & O2).
    apply bind_ok in E. destruct E as (rt & w4 & E3 & E). apply timed_inv in E3. destruct E3 as (c3 & E3 & ->).
    cbn [dw_world dw_commands dw_guards dw_running dw_answers dw_unanswered dw_sched w_clock w_queues w_mounts w_sched] in E.
    apply bind_ok in E. destruct E as (dr & w5 & E4 & E). unfold add_usize, u64_arith, arith in E4.
    assert (Hw5 : w5 = DWorld (World c3 (w_queues v2) (w_mounts v2) (w_sched v2)) (dw_commands w) (dw_guards w) (dw_running w)
                         (dw_answers w) (dw_unanswered w) (dw_sched w))
      by (destruct (_ && _); [|destruct (overflow_checks k)]; try discriminate E4; injection E4 as _ <-; reflexivity).
    clear E4. subst w5.
    apply bind_ok in E. destruct E as (d2 & w6 & E5 & E).
    assert (H5 : (exists c, w6 = DWorld (World c (w_queues v2) (w_mounts v2) (w_sched v2)) (dw_commands w) (dw_guards w) (dw_running w)
                         (dw_answers w) (dw_unanswered w) (dw_sched w))
                 /\ exists a b, d2 = driver_set_log (driver_with d ps (dr_snapshooters d) (dr_metrics d)) a b).
    { destruct (0 <? dr).
      - apply bind_ok in E5. destruct E5 as (e & w7 & E6 & E5). apply timed_inv in E6. destruct E6 as (c4 & E6 & ->).
        destruct (_ <? e).
        + apply bind_ok in E5. destruct E5 as (t & w8 & E7 & E5). apply timed_inv in E7. destruct E7 as (c5 & E7 & ->).
          injection E5 as <- <-. split; eexists; [reflexivity | eexists; reflexivity].
        + injection E5 as <- <-. split; eexists; [reflexivity | eexists; reflexivity].
      - injection E5 as <- <-. split; eexists; [reflexivity | eexists; reflexivity]. }
    clear E5. destruct H5 as ((c5 & ->) & a & b & ->).
    apply bind_ok in E. destruct E as (m & w7 & E6 & E).
    assert (H6 : (exists c, w7 = DWorld (World c (w_queues v2) (w_mounts v2) (w_sched v2)) (dw_commands w) (dw_guards w) (dw_running w)
                         (dw_answers w) (dw_unanswered w) (dw_sched w)) /\ (m = None <-> dr_metrics d = None)).
    { change (dr_metrics (driver_set_log (driver_with d ps (dr_snapshooters d) (dr_metrics d)) a b)) with (dr_metrics d) in E6.
      destruct (dr_metrics d) as [i|].
      - apply bind_ok in E6. destruct E6 as (i2 & w8 & E7 & E6). apply timed_inv in E7. destruct E7 as (c6 & E7 & ->).
        injection E6 as <- <-. split; [eauto|]. split; discriminate.
      - injection E6 as <- <-. split; [eauto|]. tauto. }
    clear E6. destruct H6 as ((c6 & ->) & Hm).
    assert (Fin : exists c m', (m' = None <-> m = None)
      /\ d1 = driver_with (driver_set_log (driver_with d ps (dr_snapshooters d) (dr_metrics d)) a b) ps (dr_snapshooters d) m'
      /\ w1 = DWorld (World c (w_queues v2) (w_mounts v2) (w_sched v2)) (dw_commands w) (dw_guards w) (dw_running w)
                         (dw_answers w) (dw_unanswered w) (dw_sched w)).
    { destruct (_ || _).
      - injection E as <- <-. exists c6, m. split; [tauto|]. auto.
      - apply bind_ok in E. destruct E as (f & w8 & E7 & E). apply timed_inv in E7. destruct E7 as (c7 & E7 & ->).
        apply bind_ok in E. destruct E as (m2 & w9 & E8 & E). apply timed_inv in E8. destruct E8 as (c8 & E8 & ->).
        injection E as <- <-. exists c8, m2. split; [|auto].
        unfold report_elapsed_stats in E8. destruct m as [i|]; [|injection E8 as <- _; tauto].
        apply bind_ok in E8. destruct E8 as (e & c9 & E9 & E8). cbv zeta in E8. destruct (f64_ltb _ _).
        + apply bind_ok in E8. destruct E8 as (i2 & c10 & E10 & E8). injection E8 as <- _. split; discriminate.
        + injection E8 as <- _. split; discriminate. }
    destruct Fin as (c & m' & Hm' & -> & ->).
    exists (World c1 (w_queues (dw_world w)) (w_mounts (dw_world w)) (w_sched (dw_world w))), ps, os, v2.
    split; [repeat split|]. split; [exact CE|]. split; [reflexivity|]. split; [repeat split|].
    cbn. rewrite Hm', Hm. repeat split; auto.
  Qed.
End Driver.
