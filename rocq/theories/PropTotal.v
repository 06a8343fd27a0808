(** C81: all that is sent to a processor of an undisturbed driver is seen. *)
From Coq Require Import ZArith Bool String List Lia.
From Verif Require Import Base SpecRun MonadFacts SpecClock ModelObservation ModelLabelFilter ModelSnapshot ModelCounter
  ModelInstrument ModelTree ModelChannel ModelProcessor ModelTransmitter ModelDriver SpecWriting SpecTree SpecQueue SpecCollect SpecDriver
  SpecChronicle SpecSite SpecLife SpecLives SpecHandle DriverLoopProofs SpecTotal TotalProofs
  Toy PropGroup PropFollow PropWriting PropChronicle PropSite PropLives SpecCounting.
Import ListNotations.
Open Scope string_scope.
Open Scope list_scope.
Open Scope Z_scope.

(** Any instrument lives through all the observations of the queue with one of its
    labels, and through all of those that arrive and are taken in the meantime. *)
Theorem c81_all : forall (X : ext) (Y : pext),
  parts_tick X -> processors_tick Y -> parts_append X -> (forall u, appends (user_proc_put Y u)) ->
  forall k n (d : driver X Y) (w : dworld X Y) d' w' path t at_ names gs on x b de d'' w'',
    let i := tp_receiver t in
    let queue := ch_queue (queue_of i w) in
    followed k n d w d' w' path t at_ names gs on x b de d'' w'' -> attentive i t (dw_world w) ->
    dr_strategy d = ProcessAll -> dr_paused d = false -> steady w -> (length queue <= 1000 * n)%nat ->
    exists more added,
      moved (queue_of i w) (queue_of i w') (queue ++ more) /\ dw_answers w'' = dw_answers w' ++ [(b, added)]
      /\ (Forall (spares (owners at_ (layout t))) (queue ++ more) ->
          exists x' x'' gs', leaf_life k (clock_of w) x (reaching on (observations_in (queue ++ more))) x' (clock_of w')
            /\ guards_on path gs gs'
            /\ presented k (clock_of w') (opt_list (dr_name d) ++ names_on path ++ names) gs' x' x'' de added (clock_of w'')).
Proof. intros X Y HX HY HA HB. exact (all_seen HX HY HA HB). Qed.
Print Assumptions c81_all.

(** A counter shows the exact sum, modulo the range of its number. *)
Theorem c81_counter : forall (X : ext) (Y : pext),
  parts_tick X -> processors_tick Y -> parts_append X -> (forall u, appends (user_proc_put Y u)) ->
  forall k n (d : driver X Y) (w : dworld X Y) d' w' path t at_ names gs on ct m b de d'' w'',
    let i := tp_receiver t in
    let queue := ch_queue (queue_of i w) in
    followed k n d w d' w' path t at_ names gs on (LInstrument (ICounter ct) m) b de d'' w'' -> in_u64 (c_count ct) -> attentive i t (dw_world w) ->
    dr_strategy d = ProcessAll -> dr_paused d = false -> steady w -> (length queue <= 1000 * n)%nat ->
    exists more added,
      moved (queue_of i w) (queue_of i w') (queue ++ more) /\ dw_answers w'' = dw_answers w' ++ [(b, added)]
      /\ (Forall (spares (owners at_ (layout t))) (queue ++ more) ->
          exists gs', guards_on path gs gs'
            /\ shown_unless_hidden (clock_of w') (opt_list (dr_name d) ++ names_on path ++ names) gs' added (clock_of w'')
                 (In (c_name ct, UInt ((c_count ct + total (map (taken_as m) (reaching on (observations_in (queue ++ more))))) mod two64)))).
Proof. intros X Y HX HY HA HB. exact (all_counted HX HY HA HB). Qed.
Print Assumptions c81_counter.

(** What is sent with a transmitter is counted: all of it, once. *)
Theorem c81_transmitted : forall (X : ext) (Y : pext),
  parts_tick X -> processors_tick Y -> parts_append X -> (forall u, appends (user_proc_put Y u)) ->
  forall k n (d : driver X Y) (w : dworld X Y) d' w' path t at_ names gs on ct m b de d'' w'' tx os,
    let i := tp_receiver t in
    let w1 := sends_all tx os w in
    tx_sender tx = i -> usable (queue_of i w) -> ch_queue (queue_of i w) = [] -> attentive i t (dw_world w) ->
    followed k n d w1 d' w' path t at_ names gs on (LInstrument (ICounter ct) m) b de d'' w'' -> in_u64 (c_count ct) ->
    dr_strategy d = ProcessAll -> dr_paused d = false -> steady w -> (length os <= 1000 * n)%nat ->
    exists more added,
      moved (queue_of i w1) (queue_of i w') (map (fun o => MObservation o) os ++ more) /\ dw_answers w'' = dw_answers w' ++ [(b, added)]
      /\ (Forall (spares (owners at_ (layout t))) more ->
          exists gs', guards_on path gs gs'
            /\ shown_unless_hidden (clock_of w') (opt_list (dr_name d) ++ names_on path ++ names) gs' added (clock_of w'')
                 (In (c_name ct, UInt ((c_count ct + total (map (taken_as m) (reaching on os ++ reaching on (observations_in more)))) mod two64)))).
Proof. intros X Y HX HY HA HB. exact (transmitted_counted HX HY HA HB). Qed.
Print Assumptions c81_transmitted.

(** A counter of the labels [la] and [lb] in a processor inside of a mount; three
    observations are sent with a transmitter, one of them with another label, and
    one more while the driver runs *)
Definition total_tele : tele toy :=
  Tele (Some "tele") no_descr [] [HInstrument (adapter_accept (Two la lb) (ICounter (counter_new "count")))] 1 [] 0 None true false.
Definition total_driver : driver toy toyp :=
  Driver (Some "drv") no_descr
    [group_user; PMount (Mount (MountData (Some "outer") no_descr 0 None) [group_tele 2; PTele total_tele; group_tele 3] [])]
    [] ProcessAll false None 0 0.
Definition total_world : dworld toy toyp :=
  new_world
    (World lives_start
       (fun i => if Nat.eqb i 1 then chan_new None else chan_run (chan_new None) [Acts DropSender])
       (fun _ => chan_new None)
       (fun n => if Nat.eqb n 9 then [OnQueue 1 (lives_says (ObservedOneValue lb (SignedInteger 5) 3))] else []))
    (fun n => if Nat.eqb n 2 then [Call (call_add_processor (group_tele 4))] else []).
Definition total_transmitter : transmitter := Transmitter 1 true.
Definition total_sent : list (observation (lab toy)) :=
  [ObservedOneValue la (SignedInteger 3) 1; Observed lb 40 2; ObservedOneValue lc (SignedInteger 9) 2].

Example c81_case_hypotheses :
  let w1 := sends_all total_transmitter total_sent total_world in
  parts_tick toy /\ processors_tick toyp /\ parts_append toy /\ (forall u, appends (user_proc_put toyp u))
  /\ tx_sender total_transmitter = tp_receiver total_tele /\ usable (queue_of 1 total_world) /\ ch_queue (queue_of 1 total_world) = []
  /\ attentive 1 total_tele (dw_world total_world) /\ attentive 1 total_tele (dw_world w1)
  /\ dr_strategy total_driver = ProcessAll /\ dr_paused total_driver = false /\ steady total_world /\ steady w1
  /\ exists d' w' d'' w'',
       followed debug 2 total_driver w1 d' w' [Position 1; Level (Some "outer") None; Position 1] total_tele [1; 0]%nat ["tele"]
         [Guard None true 0] (fun l => accepts String.eqb (Two la lb) l) (LInstrument (ICounter (counter_new "count")) None) 7 false d'' w''.
Proof.
  intros w1. refine (conj drift_ticks (conj toyp_ticks (conj toy_appends (conj toyp_appends _)))).
  assert (St : steady total_world).
  { split; [constructor|]. intros n. unfold total_world, new_world, dw_sched. destruct (Nat.eqb n 2); repeat constructor. }
  assert (At : forall w : dworld toy toyp, ch_senders (queue_of 1 w) = 1%nat -> attentive 1 total_tele (dw_world w)).
  { intros w E. unfold attentive. unfold queue_of in E. split; [intros H; rewrite H in E; discriminate E | discriminate]. }
  refine (conj eq_refl (conj (conj eq_refl (conj eq_refl _)) (conj eq_refl (conj (At total_world eq_refl) (conj (At w1 eq_refl) (conj eq_refl (conj eq_refl (conj St (conj St _)))))))));
    [discriminate|].
  assert (R : exists d' w' d'' w'', iterates debug 2 total_driver w1 d' w' /\ driver_command d' (call_snapshot 7 false) debug w' = Ok d'' w'')
    by (apply lives_ran; vm_compute; reflexivity).
  destruct R as (d' & w' & d'' & w'' & R & C). exists d', w', d'', w''. constructor.
  - exact R.
  - unfold driver_ok; cbn; repeat split; auto; discriminate.
  - split; [|split; [constructor|]].
    + split; [intros j x []|]. intros n j x H. change (w_sched (dw_world w1)) with (w_sched (dw_world total_world)) in H. cbn [total_world new_world dw_world w_sched] in H.
      destruct (Nat.eqb n 9); [destruct H as [[H | []] | [H | []]]; discriminate H | destruct H as [[] | []]].
    + intros n. change (dw_sched w1 n) with (dw_sched total_world n). unfold total_world, new_world, dw_sched. destruct (Nat.eqb n 2); repeat constructor; discriminate.
  - apply (am_at _ [group_user] _ [] [Level (Some "outer") None; Position 1]); [repeat constructor; intros []| |constructor].
    apply lo_mount. apply (am_at _ [group_tele 2] _ [group_tele 3] []); [repeat constructor; discriminate| |repeat constructor; discriminate].
    constructor. reflexivity.
  - refine (si_teles_handler total_tele 0 (HInstrument (adapter_accept (Two la lb) (ICounter (counter_new "count")))) [] [] [] _ _ eq_refl _).
    refine (si_instrument (adapter_accept (Two la lb) (ICounter (counter_new "count"))) _ _). reflexivity.
  - exact C.
Qed.

(** 1 + 40 + 1 *)
Example c81_case :
  match run_iterations 2 total_driver debug (sends_all total_transmitter total_sent total_world) with
  | Ok (Some d1) w1 =>
      match driver_command d1 (call_snapshot 7 false) debug w1 with
      | Ok _ w2 =>
          match skipn (List.length (dw_answers w1)) (dw_answers w2) with
          | [(7%nat, s)] => site_below ["drv"; "outer"; "tele"] s = [[("count", UInt 42)]]
          | _ => False
          end
      | _ => False
      end
  | _ => False
  end.
Proof. vm_compute. reflexivity. Qed.
