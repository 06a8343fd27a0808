(** C69: what happens to a processor for telemetry data somewhere in a running driver. *)
From Coq Require Import ZArith Bool String List.
From Verif Require Import Base SpecRun MonadFacts SpecClock ModelObservation ModelSnapshot ModelCounter ModelInstrument ModelTree
  ModelChannel ModelProcessor ModelDriver SpecTree SpecQueue SpecCollect SpecDriver SpecChronicle DriverProofs DriverLoopProofs ChronicleDriver
  Toy PropGroup PropFollow.
Import ListNotations.
Open Scope string_scope.
Open Scope list_scope.
Open Scope Z_scope.

(** ** C69 *)

(** Nothing happens to it but collections and snapshots. There is one collection
    in each iteration in which the driver is not paused, with the strategy of the
    driver; the messages handled in these collections are, in order, those taken
    from the front of its queue. It stays where it is. *)
Theorem c69_life : forall X Y, parts_tick X -> processors_tick Y ->
  forall k n (d : driver X Y) w d' w' path t i, iterates k n d w d' w' -> driver_ok w ->
  i = tp_receiver t -> nobody_else (QueueReceiver i) w -> among (QueueReceiver i) (dr_processors d) path t ->
  exists css es t',
    length css = n /\ Forall (fun cs => (length cs <= 1)%nat) css /\ moved (dw_commands w) (dw_commands w') (concat css)
    /\ map (@en_strategy X) es = strategies (dr_strategy d) (dr_paused d) css
    /\ chronicle k (w_clock (dw_world w)) t es t' (w_clock (dw_world w'))
    /\ moved (queue_of i w) (queue_of i w') (flat_map (@en_messages X) es)
    /\ Forall (fun e => (length (en_messages e) <= 1000)%nat) es
    /\ among (QueueReceiver i) (dr_processors d') path t'
    /\ driver_ok w' /\ nobody_else (QueueReceiver i) w'.
Proof.
  intros X Y HX HY k n d w d' w' path t i H Hok -> Hn A.
  destruct (iterates_located HX HY _ _ _ _ _ _ _ _ H Hok Hn A) as (css & es & t' & H1 & H2 & H3 & H4 & H5 & H6 & _ & H7 & H8 & H9 & H10 & _).
  exists css, es, t'. auto 12.
Qed.
Print Assumptions c69_life.

(** Nothing is left behind: in each collection up to 1000 of the messages that were
    queued at the beginning are handled, and it only stops collecting when
    there will be no more messages. *)
Theorem c69_progress : forall X Y, parts_tick X -> processors_tick Y ->
  forall k n (d : driver X Y) w d' w' path t i, iterates k n d w d' w' -> driver_ok w ->
  i = tp_receiver t -> nobody_else (QueueReceiver i) w -> among (QueueReceiver i) (dr_processors d) path t ->
  attentive i t (dw_world w) ->
  exists css es t',
    length css = n /\ moved (dw_commands w) (dw_commands w') (concat css)
    /\ map (@en_strategy X) es = strategies (dr_strategy d) (dr_paused d) css
    /\ chronicle k (w_clock (dw_world w)) t es t' (w_clock (dw_world w'))
    /\ (exists rest, flat_map (@en_messages X) es = firstn (1000 * length es) (ch_queue (queue_of i w)) ++ rest)
    /\ among (QueueReceiver i) (dr_processors d') path t'
    /\ attentive i t' (dw_world w').
Proof.
  intros X Y HX HY k n d w d' w' path t i H Hok -> Hn A R.
  destruct (iterates_located HX HY _ _ _ _ _ _ _ _ H Hok Hn A) as (css & es & t' & H1 & _ & H3 & H4 & H5 & H6 & _ & _ & _ & _ & _ & H7).
  destruct (H7 R) as (H8 & H9). exists css, es, t'. auto 10.
Qed.
Print Assumptions c69_progress.

(** A processor in a mount beside others. The driver is paused in the second
    iteration and resumed in the fourth, where its strategy has changed. *)
Definition chron_tele : tele toy := Tele None no_descr [toy_cockpit] [] 1 [] 0 None true false.
Definition chron_driver : driver toy toyp :=
  Driver (Some "drv") no_descr
    [group_user; PMount (Mount (MountData (Some "outer") no_descr 0 None) [group_tele 2; PTele chron_tele; group_tele 3] [])]
    [] (DropOlderThan 10 true) false None 0 0.
Definition chron_sched (i : nat) : list (client_action toy toyp) :=
  match i with
  | 2%nat => [Call call_pause]
  | 4%nat => [Call (call_change_processing_strategy ProcessAll); Call call_resume]
  | 8%nat => [Call (call_add_processor (group_tele 4)); Call (call_snapshot 0 false)]
  | _ => []
  end.
Definition chron_world : world toy toyp :=
  World (frozen 100) (fun i => chan_run (chan_new None) ([Acts (tell la 1); Acts (tell lb 95)] ++ if Nat.eqb i 1 then [] else [Acts DropSender]))
    (fun _ => chan_new None)
    (fun n => if Nat.eqb n (4 + 1000) then [OnQueue 1 (tell la 2); OnQueue 1 (tell lb 3)] else []).

Lemma chron_among : among (QueueReceiver 1) (dr_processors chron_driver) [Position 1; Level (Some "outer") None; Position 1] chron_tele.
Proof.
  apply (am_at _ [group_user] _ [] [Level (Some "outer") None; Position 1]); [repeat constructor; intros []| |constructor].
  apply lo_mount. apply (am_at _ [group_tele 2] _ [group_tele 3] []); [repeat constructor; discriminate| |repeat constructor; discriminate].
  constructor. reflexivity.
Qed.

Lemma chron_nobody : nobody_else (QueueReceiver 1) (new_world chron_world chron_sched).
Proof.
  split; [|split; [constructor|]].
  - split; [intros j x []|]. intros n j x H. cbn [new_world dw_world chron_world w_sched] in H.
    assert (N : forall l, In (OnMount j (Send x)) (w_sched chron_world n) \/ In (OnMount j (TrySend x)) (w_sched chron_world n) ->
      l = w_sched chron_world n -> Forall (fun a => match a with OnMount _ _ => False | _ => True end) l -> False).
    { intros l Hi -> F. rewrite Forall_forall in F. destruct Hi as [Hi|Hi]; exact (F _ Hi). }
    exfalso. apply (N _ H eq_refl). unfold chron_world, w_sched.
    destruct (Nat.eqb n (4 + 1000)); repeat constructor.
  - intros n. unfold new_world, dw_sched, chron_sched. repeat (destruct n as [|n]; [repeat constructor; try discriminate|]). constructor.
Qed.

(** What the counter at the beginning of the processor has counted, and how many
    messages wait *)
Definition chron_count (t : tele toy) : option Z :=
  match tele_leaves la t with
  | _ :: _ :: _ :: (_, LInstrument (ICounter c) _) :: _ => Some (c_count c)
  | _ => None
  end.
Definition chron_after (n : nat) :=
  match run_iterations n chron_driver debug (new_world chron_world chron_sched) with
  | Ok (Some d1) w1 =>
      match dr_processors d1 with
      | _ :: PMount (Mount _ [_; PTele t; _] _) :: _ => Some (dr_paused d1, tp_receiver t, length (ch_queue (queue_of 1 w1)), chron_count t)
      | _ => None
      end
  | _ => None
  end.

Example c69_case_hypotheses : driver_ok (new_world chron_world chron_sched) /\ attentive 1 chron_tele (dw_world (new_world chron_world chron_sched)).
Proof. split; [unfold driver_ok; cbn; repeat split; auto; discriminate|]. split; [vm_compute; auto | discriminate]. Qed.

(** The observation of the first collection that is too old is not counted. The
    messages that arrive meanwhile wait until the driver is resumed; then all are
    counted. *)
Example c69_case :
  map chron_after [1; 2; 4; 5]%nat
  = [Some (false, 1%nat, 2%nat, Some 1); Some (true, 1%nat, 2%nat, Some 1); Some (false, 1%nat, 0%nat, Some 3);
     Some (false, 1%nat, 0%nat, Some 3)].
Proof. vm_compute. reflexivity. Qed.
