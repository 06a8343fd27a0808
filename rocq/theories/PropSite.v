(** C70-C73: from the observations to the values shown in the snapshots of a driver. *)
From Coq Require Import ZArith Bool String List Lia.
From Verif Require Import Base SpecRun MonadFacts SpecClock ModelObservation ModelLabelFilter ModelSnapshot ModelCounter ModelGauge ModelMeter
  ModelInstrument ModelTree ModelChannel ModelProcessor ModelDriver SpecWriting SpecTree SpecQueue SpecCollect SpecDriver SpecChronicle
  SpecCounting SpecGauge SpecMeter SpecSite SpecLife GaugeProofs DriverLoopProofs ChronicleDriver SiteProofs LifeProofs SiteDriver
  Toy PropGroup PropFollow PropWriting PropChronicle.
Import ListNotations.
Open Scope string_scope.
Open Scope list_scope.
Open Scope Z_scope.

(** ** C70 *)

(** An instrument or handler of a processor lives through exactly the observations
    that the processor handles, that its strategy keeps and that have a label that
    reaches the instrument; unless it is removed. It keeps its names and what may
    hide it; it stays where it is unless something is removed. *)
Theorem c70_life : forall X, parts_tick X -> parts_append X ->
  forall k c (t : tele X) es t' c', chronicle k c t es t' c' ->
  forall at_ names gs on x, tele_site t at_ names gs on x ->
  Forall (spares (owners at_ (layout t))) (flat_map en_messages es) ->
  exists at' gs' os x',
    seen on es os /\ leaf_life k c x os x' c'
    /\ (tele_site t' at' names gs' on x' /\ alike gs gs')
    /\ owners at' (layout t') = owners at_ (layout t)
    /\ (Forall lasting (flat_map en_messages es) -> at' = at_).
Proof.
  intros X HX HA k c t es t' c' H at_ names gs on x. revert at_ gs x. exact (chronicle_life HX HA k on names c t es t' c' H).
Qed.
Print Assumptions c70_life.

(** The counter in the first panel of the first cockpit, and the one in the panel
    inside of that panel *)
Definition site_counter : leaf toy := LInstrument (ICounter (counter_new "count")) None.
Definition site_inner : leaf toy := LInstrument (ICounter (counter_new "inner_count")) None.
Definition site_gauge : gauge_adapter (lab toy) := ga_inc_dec_on (One la) (One lb) (gauge_new "gauge").
Definition site_guards : list guard := [Guard None true 0; Guard None true 0; Guard None true 0].

Example c70_sites :
  tele_site chron_tele [0; 0; 0; 0; 0]%nat ["cockpit"; "panel"] site_guards (fun l => accepts String.eqb (Two la lb) l && true) site_counter
  /\ tele_site chron_tele [0; 0; 0; 0; 1]%nat ["cockpit"; "panel"] site_guards
       (fun l => accepts String.eqb (Two la lb) l && gauge_listens l site_gauge) (LGauge site_gauge)
  /\ tele_site chron_tele [0; 0; 0; 0; 4; 0; 0]%nat ["cockpit"; "panel"] (site_guards ++ [Guard None true 0])
       (fun l => accepts String.eqb (Two la lb) l && (accepts String.eqb (One lb) l && true)) site_inner.
Proof.
  split; [|split]; apply (si_cockpit chron_tele 0 toy_cockpit _ ["cockpit"; "panel"]); try reflexivity; unfold toy_cockpit;
    match goal with |- cockpit_site (Cockpit ?d ?ps ?hs ?ss) _ _ (_ :: ?gs) _ _ =>
      refine (si_cockpit_panel d ps hs ss 0 toy_panel _ ["panel"] gs _ _ eq_refl _) end;
    unfold toy_panel;
    match goal with |- panel_site (Panel ?d _ ?ps ?hs ?ss) _ _ _ _ _ =>
      first [refine (si_counter d (adapter_new (counter_new "count")) _ _ _ ps hs ss _ (fun _ => eq_refl))
            |refine (si_gauge d _ site_gauge _ _ ps hs ss _ (fun _ => eq_refl))
            |refine (si_panel d _ ps hs ss 0 toy_inner [0]%nat [] [Guard None true 0] (fun l => accepts String.eqb (One lb) l && true) _ _ eq_refl _
               (fun _ => eq_refl))] end.
  unfold toy_inner.
  match goal with |- panel_site (Panel ?d _ ?ps ?hs ?ss) _ _ _ _ _ =>
    exact (si_counter d (adapter_new (counter_new "inner_count")) _ _ _ ps hs ss _ (fun _ => eq_refl)) end.
Qed.

Lemma toyp_ticks : processors_tick toyp.
Proof.
  split; intros; intros k c a c' E; cbn in E; unfold ret in E; injection E as _ <-; exists O; reflexivity.
Qed.
Lemma toyp_appends : forall u, appends (user_proc_put toyp u).
Proof. intros u d into k c x s c' E. cbn in E. unfold ret, push in E. injection E as <- <- <-. eauto. Qed.

(** A collection of two observations of which one is too old; in between
    components that do not exist are removed. *)
Definition site_messages : list (message toy) :=
  [MObservation (ObservedOne la 1); MRemoveCockpit "other"; MRemovePanelFromCockpit "cockpit" "other"; MObservation (ObservedOne lb 95)].

Fixpoint handle_all (d : decider) (t : tele toy) (n : counts) (ms : list (message toy)) : M (tele toy * counts) :=
  match ms with
  | [] => ret (t, n)
  | m :: ms => let* '(t, n) := tele_message d t n m in handle_all d t n ms
  end.
Lemma all_handled : forall k d ms t n c, match handle_all d t n ms k c with Ok _ _ => true | _ => false end = true ->
  exists t' n' c', handles k d t n c ms t' n' c'.
Proof.
  intros k d ms. induction ms as [|m ms IH]; intros t n c E; [exists t, n, c; apply handles_nil|]. cbn [handle_all] in E. unfold bind in E.
  destruct (tele_message d t n m k c) as [[t1 n1] c1| |] eqn:E1; try discriminate E.
  destruct (IH _ _ _ E) as (t' & n' & c' & H). exists t', n', c'. eapply handles_cons; eassumption.
Qed.

Example c70_case :
  (exists t' c', chronicle debug (frozen 100) chron_tele [Entry 100 (DropOlderThan 10 true) site_messages] t' c')
  /\ Forall (spares (owners [0; 0; 0; 0; 0]%nat (layout chron_tele))) site_messages
  /\ owners [0; 0; 0; 0; 0]%nat (layout chron_tele) = (Some "cockpit", Some "panel").
Proof.
  split; [|split; [repeat constructor; cbn; try discriminate; intros [_ H]; discriminate | reflexivity]].
  assert (H : exists t' n' c', handles debug (DropBeforeDeadline 90 true) chron_tele (Counts 0 0 0) (frozen 100) site_messages t' n' c')
    by (apply all_handled; vm_compute; reflexivity).
  destruct H as (t' & n' & c' & H). exists t', c'.
  eapply (cr_collects debug (frozen 100) (frozen 100)); [exists O; reflexivity | reflexivity | reflexivity | exact H | left; reflexivity | left; reflexivity |].
  apply cr_end. exists O. reflexivity.
Qed.

(** ** C71 *)

(** A counter counts all the observations it lives through, with overflow as
    configured; snapshots do not disturb it. With overflow checks it only lives
    on without an overflow. *)
Theorem c71_counter : forall X k c ct m os (x' : leaf X) c',
  leaf_life k c (LInstrument (ICounter ct) m) os x' c' -> in_u64 (c_count ct) ->
  x' = LInstrument (ICounter (Counter (c_name ct) (c_descr ct) ((c_count ct + total (map (taken_as m) os)) mod two64))) m
  /\ (overflow_checks k = true -> Forall update_ok (map (taken_as m) os) -> c_count ct + total (map (taken_as m) os) <= u64_max).
Proof. exact @counter_life. Qed.
Print Assumptions c71_counter.

(** It shows its count. *)
Theorem c71_counter_shown : forall X ct m de into k c (x' : leaf X) fields c',
  leaf_put (LInstrument (ICounter ct) m) de into k c = Ok (x', into ++ fields) c' ->
  x' = LInstrument (ICounter ct) m /\ In (c_name ct, UInt (c_count ct)) fields.
Proof. exact @counter_fields. Qed.
Print Assumptions c71_counter_shown.

(** A gauge has the value that results from what its strategy makes of the
    observations it lives through. *)
Theorem c71_gauge : forall X k c (a : gauge_adapter (lab X)) os x' c' es v,
  leaf_life k c (LGauge a) os x' c' -> opt_in_i64 (gauge_get (ga_gauge a)) ->
  Forall2 (reacts (lab_eqb X) (ga_modify_update a) (g_display_time_unit (ga_gauge a)) (ga_strategy a)) os es ->
  exact_value (begins (gauge_get (ga_gauge a)) ++ es) v ->
  exists g', x' = LGauge (ga_with a g') /\ same_gauge (ga_gauge a) g' /\ gauge_get g' = option_map wrap_i64 v.
Proof. exact @gauge_life. Qed.
Print Assumptions c71_gauge.

Theorem c71_gauge_shown : forall X (a : gauge_adapter (lab X)) de into k c (x' : leaf X) fields c',
  leaf_put (LGauge a) de into k c = Ok (x', into ++ fields) c' -> shows_gauge (ga_gauge a) (gauge_get (ga_gauge a)) fields.
Proof. exact @gauge_leaf_fields. Qed.
Print Assumptions c71_gauge_shown.

(** A meter shows the rates of the amounts of all the observations it lives
    through, marked at times during its life. *)
Theorem c71_meter : forall X al name k c0 m0 c1 (m : meter) c f os (x' x'' : leaf X) c' c2 de into fields c3,
  monotone c0 -> meter_new al name k c0 = Ok m0 c1 -> m_inner m = m_inner m0 -> later c1 c ->
  leaf_life k c (LInstrument (IMeter m) f) os x' c' -> Forall update_ok (map (taken_as f) os) ->
  later c' c2 -> leaf_put x' de into k c2 = Ok (x'', into ++ fields) c3 ->
  exists start l t texts,
    read_during c0 c1 start /\ map snd l = marked_amounts (map (taken_as f) os) /\ between (c O) (c' O) l
    /\ read_during c2 c3 t /\ fields = texts ++ meter_shows m al start l t
    /\ Forall (fun e => exists x, snd e = Text x) texts.
Proof. exact @meter_life. Qed.
Print Assumptions c71_meter.

(** Lives with three observations and a snapshot. The gauge goes up, down and down
    again. *)
Definition site_observations : list (observation (lab toy)) := [ObservedOne la 1; Observed lb 5 2; ObservedOne lb 3].

Ltac live :=
  eapply ll_handles; [exists O; reflexivity | vm_compute; reflexivity |];
  eapply (ll_shown _ _ _ _ true []); [exists O; reflexivity | vm_compute; reflexivity |];
  eapply ll_handles; [exists O; reflexivity | vm_compute; reflexivity |];
  eapply ll_handles; [exists O; reflexivity | vm_compute; reflexivity |];
  apply ll_end; exists O; reflexivity.

Example c71_case :
  (exists x' c', leaf_life debug (frozen 100) site_counter site_observations x' c')
  /\ total (map (taken_as None) site_observations) = 7
  /\ (exists x' c', leaf_life debug (frozen 100) (LGauge site_gauge : leaf toy) site_observations x' c')
  /\ opt_in_i64 (gauge_get (ga_gauge site_gauge))
  /\ Forall2 (reacts (lab_eqb toy) (ga_modify_update site_gauge) (g_display_time_unit (ga_gauge site_gauge)) (ga_strategy site_gauge))
       site_observations [Changes 1; Changes (-1); Changes (-1)]
  /\ exact_value (begins (gauge_get (ga_gauge site_gauge)) ++ [Changes 1; Changes (-1); Changes (-1)]) (Some (-1)).
Proof.
  split; [eexists; eexists; live|]. split; [reflexivity|]. split; [eexists; eexists; live|]. split; [exact I|]. split.
  - constructor; [apply re_inc; reflexivity|]. constructor; [apply re_dec; reflexivity|]. constructor; [apply re_dec; reflexivity|]. constructor.
  - apply (exact_changes_only [Changes 1; Changes (-1); Changes (-1)]); [|discriminate]; repeat (apply Forall_cons; [intros (z & H); discriminate|]); apply Forall_nil.
Qed.

Example c71_meter_case :
  match meter_new (Alphas f64_zero f64_zero f64_zero) "meter" debug (frozen 100) with
  | Ok m c1 => exists x' c', leaf_life debug c1 (LInstrument (IMeter m) None : leaf toy) site_observations x' c'
  | _ => False
  end
  /\ marked_amounts (map (taken_as None) site_observations) = [1; 5; 1].
Proof. split; [|reflexivity]. vm_compute. eexists. eexists. live. Qed.

(** ** C72 *)

(** When the driver writes a snapshot, an instrument somewhere in its processors is
    shown below the names of the driver, of the mounts and of the components on the
    way, unless one of these is inactive and hides it. It stays where it is. *)
Theorem c72_shown : forall X Y, parts_tick X -> processors_tick Y -> parts_append X -> (forall u, appends (user_proc_put Y u)) ->
  forall j p path names gs t at_ names2 gs2 on x (d : driver X Y) de into k c d' s c',
  nth_error (dr_processors d) j = Some p -> processor_site p path names gs t -> tele_site t at_ names2 gs2 on x ->
  put_values_into_snapshot d de into k c = Ok (d', s) c' ->
  exists p' t' x' added,
    nth_error (dr_processors d') j = Some p' /\ processor_site p' path names gs t' /\ tele_site t' at_ names2 gs2 on x'
    /\ s = into ++ added
    /\ presented k c (opt_list (dr_name d) ++ names ++ names2) (gs ++ gs2) x x' de added c'.
Proof.
  intros X Y HX HY HA HB j p path names gs t at_ names2 gs2 on x d de into k c d' s c'. exact (@driver_presents X Y HX HY HA HB _ _ _ _ _ _ _ _ _ _ _ _ _ _ _ _ _ _ _).
Qed.
Print Assumptions c72_shown.

(** What is below these names; there may be several components with the same name. *)
Fixpoint site_below (names : list string) (s : snapshot) : list snapshot :=
  match names with
  | [] => [s]
  | n :: names =>
      flat_map (fun e => match e with
                         | (m, ItemSnapshot inner) => if String.eqb n m then site_below names inner else []
                         | _ => []
                         end) s
  end.

Example c72_case :
  (exists p, nth_error (dr_processors chron_driver) 1 = Some p
    /\ processor_site p [Level (Some "outer") None; Position 1] ["outer"] [Guard None true 0] chron_tele)
  /\ match put_values_into_snapshot chron_driver false [("before", Int 1)] debug (frozen 100) with
     | Ok (_, s) _ =>
         map (firstn 2) (site_below ["drv"; "outer"; "cockpit"; "panel"] s)
         = [[("count", UInt 0); ("inner_count", UInt 0)]; [("count", UInt 0); ("inner_count", UInt 0)];
            [("count", UInt 0); ("inner_count", UInt 0)]] /\ firstn 1 s = [("before", Int 1)]
     | _ => False
     end.
Proof.
  split; [eexists; split; [reflexivity|]; refine (si_mount (MountData (Some "outer") no_descr 0 None) [group_tele 2; PTele chron_tele; group_tele 3] [] 1 _ [] [] [] _ eq_refl (si_here _))|].
  vm_compute. split; reflexivity.
Qed.

(** ** C73 *)

(** From the queue to the snapshot: in a running driver the observations that are
    taken from the queue of a processor, that the strategies keep and whose labels
    reach a counter are what that counter shows in the next snapshot. *)
Theorem c73_counter : forall X Y, parts_tick X -> processors_tick Y -> parts_append X -> (forall u, appends (user_proc_put Y u)) ->
  forall k n (d : driver X Y) w d' w' path t i at_ names gs on ct m b de d'' w'',
  iterates k n d w d' w' -> driver_ok w -> i = tp_receiver t -> nobody_else (QueueReceiver i) w -> among (QueueReceiver i) (dr_processors d) path t ->
  tele_site t at_ names gs on (LInstrument (ICounter ct) m) -> in_u64 (c_count ct) ->
  driver_command d' (call_snapshot b de) k w' = Ok d'' w'' ->
  exists css es added,
    List.length css = n /\ Forall (fun cs => (List.length cs <= 1)%nat) css /\ moved (dw_commands w) (dw_commands w') (concat css)
    /\ map (@en_strategy X) es = strategies (dr_strategy d) (dr_paused d) css
    /\ moved (queue_of i w) (queue_of i w') (flat_map (@en_messages X) es)
    /\ dw_answers w'' = dw_answers w' ++ [(b, added)]
    /\ (Forall (spares (owners at_ (layout t))) (flat_map en_messages es) ->
        exists os gs', seen on es os /\ guards_on path gs gs'
          /\ shown_unless_hidden (w_clock (dw_world w')) (opt_list (dr_name d) ++ names_on path ++ names) gs' added (w_clock (dw_world w''))
               (In (c_name ct, UInt ((c_count ct + total (map (taken_as m) os)) mod two64)))).
Proof. intros X Y HX HY HA HB. exact (counter_in_the_end HX HY HA HB). Qed.
Print Assumptions c73_counter.

Theorem c73_gauge : forall X Y, parts_tick X -> processors_tick Y -> parts_append X -> (forall u, appends (user_proc_put Y u)) ->
  forall k n (d : driver X Y) w d' w' path t i at_ names gs on (a : gauge_adapter (lab X)) b de d'' w'',
  iterates k n d w d' w' -> driver_ok w -> i = tp_receiver t -> nobody_else (QueueReceiver i) w -> among (QueueReceiver i) (dr_processors d) path t ->
  tele_site t at_ names gs on (LGauge a) -> opt_in_i64 (gauge_get (ga_gauge a)) ->
  driver_command d' (call_snapshot b de) k w' = Ok d'' w'' ->
  exists css es added,
    List.length css = n /\ Forall (fun cs => (List.length cs <= 1)%nat) css /\ moved (dw_commands w) (dw_commands w') (concat css)
    /\ map (@en_strategy X) es = strategies (dr_strategy d) (dr_paused d) css
    /\ moved (queue_of i w) (queue_of i w') (flat_map (@en_messages X) es)
    /\ dw_answers w'' = dw_answers w' ++ [(b, added)]
    /\ (Forall (spares (owners at_ (layout t))) (flat_map en_messages es) ->
        exists os gs', seen on es os /\ guards_on path gs gs'
          /\ forall effects v,
               Forall2 (reacts (lab_eqb X) (ga_modify_update a) (g_display_time_unit (ga_gauge a)) (ga_strategy a)) os effects ->
               exact_value (begins (gauge_get (ga_gauge a)) ++ effects) v ->
               shown_unless_hidden (w_clock (dw_world w')) (opt_list (dr_name d) ++ names_on path ++ names) gs' added (w_clock (dw_world w''))
                 (shows_gauge (ga_gauge a) (option_map wrap_i64 v))).
Proof. intros X Y HX HY HA HB. exact (gauge_in_the_end HX HY HA HB). Qed.
Print Assumptions c73_gauge.

(** The driver of C69: an old observation is dropped, the driver is paused and
    resumed meanwhile. Counter and gauge are seen from the outside, between those of
    the two neighbours with the same names. *)
Definition site_world := new_world chron_world chron_sched.
Lemma ran : forall k n (d : driver toy toyp) w,
  match run_iterations n d k w with Ok (Some _) _ => true | _ => false end = true -> exists d' w', iterates k n d w d' w'.
Proof.
  intros k n d w E. destruct (run_iterations n d k w) as [[d1|] w1| |] eqn:R; try discriminate E.
  exists d1, w1. apply run_iterates. exact R.
Qed.
Lemma site_runs : exists d' w', iterates debug 5 chron_driver site_world d' w'.
Proof. apply ran. vm_compute. reflexivity. Qed.

Example c73_case_hypotheses : processors_tick toyp /\ parts_tick toy /\ parts_append toy /\ (forall u, appends (user_proc_put toyp u))
  /\ exists d' w', iterates debug 5 chron_driver site_world d' w'.
Proof. exact (conj toyp_ticks (conj drift_ticks (conj toy_appends (conj toyp_appends site_runs)))). Qed.

Example c73_case :
  match run_iterations 5 chron_driver debug site_world with
  | Ok (Some d1) w1 =>
      match driver_command d1 (call_snapshot 7 false) debug w1 with
      | Ok _ w2 =>
          match skipn (List.length (dw_answers w1)) (dw_answers w2) with
          | [(7%nat, s)] => map (firstn 2) (site_below ["drv"; "outer"; "cockpit"; "panel"] s)
                            = [[("count", UInt 1); ("gauge", Int (-1))]; [("count", UInt 3); ("gauge", Int (-1))];
                               [("count", UInt 1); ("gauge", Int (-1))]]
          | _ => False
          end
      | _ => False
      end
  | _ => False
  end.
Proof. vm_compute. reflexivity. Qed.
