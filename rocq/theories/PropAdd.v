(** C80: what happens to a processor that is added to a running driver. *)
From Coq Require Import ZArith Bool String List Lia.
From Verif Require Import Base SpecRun MonadFacts SpecClock ModelObservation ModelLabelFilter ModelSnapshot ModelCounter ModelInstrument ModelTree
  ModelChannel ModelProcessor ModelDriver ModelHandle SpecTree SpecQueue SpecCollect SpecDriver SpecChronicle SpecHandle
  DriverLoopProofs HandleAdds Toy PropGroup PropFollow PropChronicle PropSite PropHandle.
Import ListNotations.
Open Scope string_scope.
Open Scope list_scope.
Open Scope Z_scope.

(** A processor for telemetry data, alone or in mounts, that is added through a handle of
    the driver: the commands that were sent before come first, one in each iteration; then
    it is added behind the processors that were there and those that were added before.
    There is one collection in each following iteration that is not paused, beginning
    with the iteration in which it is added, and it stays where it is. Its messages wait
    meanwhile. *)
Theorem c80_tele : forall X Y, parts_tick X -> processors_tick Y ->
  forall k n (d : driver X Y) w d' w' p path0 t,
  let i := tp_receiver t in
  let cq := ch_queue (dw_commands w) in
  driver_ok w -> dw_guards w <> O -> nobody_else (QueueReceiver i) w -> Forall (fun p => ~ holds (QueueReceiver i) p) (dr_processors d) ->
  located (QueueReceiver i) p path0 t ->
  iterates k n d (client_act w (Call (call_add_processor p))) d' w' ->
  exists css es t',
    List.length css = (n - List.length cq)%nat
    /\ moved (dw_commands (client_act w (Call (call_add_processor p)))) (dw_commands w') (firstn n cq ++ List.concat css)
    /\ map (@en_strategy X) es = strategies (strategy_after (dr_strategy d) cq) (paused_after (dr_paused d) cq) css
    /\ chronicle k (w_clock (dw_world w)) t es t' (w_clock (dw_world w'))
    /\ Forall (fun e => (List.length (en_messages e) <= 1000)%nat) es
    /\ moved (queue_of i w) (queue_of i w') (flat_map (@en_messages X) es)
    /\ ((List.length cq < n)%nat -> hd_error css = Some [CAddProcessor p]
         /\ among (QueueReceiver i) (dr_processors d') (Position (List.length (dr_processors d) + List.length (added_processors cq)) :: path0) t'
         /\ nobody_else (QueueReceiver i) w')
    /\ (attentive i t (dw_world w) -> attentive i t' (dw_world w')
         /\ exists rest, flat_map (@en_messages X) es = firstn (1000 * List.length es) (ch_queue (queue_of i w)) ++ rest).
Proof. intros X Y HX HY. exact (add_tele HX HY). Qed.
Print Assumptions c80_tele.

(** Any processor; [R]: some receivers in it that nobody else has *)
Theorem c80_processor : forall X Y, parts_tick X -> processors_tick Y ->
  forall (R : receiver -> Prop) k n (d : driver X Y) w d' w' p,
  let cq := ch_queue (dw_commands w) in
  driver_ok w -> dw_guards w <> O -> (forall r, R r -> nobody_else r w) -> Forall (fun p => ~ held R p) (dr_processors d) ->
  iterates k n d (client_act w (Call (call_add_processor p))) d' w' -> (List.length cq < n)%nat ->
  exists p', evolves k p p' /\ inside_one R (dr_processors d') [Position (List.length (dr_processors d) + List.length (added_processors cq))] p'
    /\ driver_ok w' /\ forall r, R r -> nobody_else r w'.
Proof. intros X Y HX HY. exact (add_any HX HY). Qed.
Print Assumptions c80_processor.

(** A mount that is attached to the driver, and its handle, for which C79 holds then *)
Theorem c80_attached : forall X Y, parts_tick X -> processors_tick Y ->
  forall k n (d : driver X Y) w d' w' j m,
  let cq := ch_queue (dw_commands w) in
  driver_ok w -> dw_guards w <> O -> nobody_else (MountReceiver j) w -> Forall (fun p => ~ holds (MountReceiver j) p) (dr_processors d) ->
  let '(put, h) := driver_attached_mount j m in
  iterates k n d (client_act w (Call put)) d' w' -> (List.length cq < n)%nat ->
  exists p', evolves k (PAttached (Some h) m) p'
    /\ inside_one (fun r => r = MountReceiver h) (dr_processors d') [Position (List.length (dr_processors d) + List.length (added_processors cq))] p'
    /\ driver_ok w' /\ nobody_else (MountReceiver h) w'.
Proof.
  intros X Y HX HY k n d w d' w' j m cq Ok0 G N A H Hn.
  destruct (add_any HX HY (fun r => r = MountReceiver j) k n d w d' w' _ Ok0 G ltac:(intros r ->; exact N)
              ltac:(eapply Forall_impl; [|exact A]; intros p Hp (r & -> & Hr); exact (Hp Hr)) H Hn) as (p' & H1 & H2 & H3 & H4).
  exists p'. auto.
Qed.
Print Assumptions c80_attached.

(** Another processor is added before. The new one is a mount with a processor which has
    two messages by then. *)
Definition add_world : dworld toy toyp :=
  client_act
    (new_world
       (World (frozen 100)
          (fun i => chan_run (chan_new None) ([Acts (tell la 1); Acts (tell lb 95)] ++ if Nat.eqb i 1 then [] else [Acts DropSender]))
          (fun _ => chan_new None) (fun _ => []))
       (fun _ => []))
    (Call (call_add_processor (group_tele 4))).
Definition add_driver : driver toy toyp := Driver (Some "drv") no_descr [group_user] [] ProcessAll false None 0 0.

Example c80_case_hypotheses :
  driver_ok add_world /\ dw_guards add_world <> O /\ nobody_else (QueueReceiver 1) add_world
  /\ Forall (fun p => ~ holds (QueueReceiver 1) p) (dr_processors add_driver)
  /\ located (QueueReceiver 1) handle_new [Level (Some "new") None; Position 1] handle_tele /\ attentive 1 handle_tele (dw_world add_world)
  /\ exists d' w', iterates debug 2 add_driver (client_act add_world (Call (call_add_processor handle_new))) d' w'.
Proof.
  split; [unfold driver_ok; cbn; repeat split; auto; discriminate|]. split; [discriminate|]. split.
  { split; [|split; [constructor; [discriminate | constructor] | intros n; constructor]].
    split; [intros j x []|]. intros n j x [[]|[]]. }
  split; [repeat constructor; intros []|]. split.
  { apply (lo_mount (QueueReceiver 1) (MountData (Some "new") no_descr 0 None)).
    apply (am_at _ [group_user] _ [] []); [repeat constructor; intros []| |constructor]. constructor. reflexivity. }
  split; [split; [vm_compute; auto | discriminate]|]. apply ran. vm_compute. reflexivity.
Qed.

Definition add_after (n : nat) :=
  match run_iterations n add_driver debug (client_act add_world (Call (call_add_processor handle_new))) with
  | Ok (Some d1) w1 =>
      Some (List.length (dr_processors d1), List.length (ch_queue (queue_of 1 w1)),
        match nth_error (dr_processors d1) 2 with Some (PMount (Mount _ [_; PTele t] _)) => chron_count t | _ => None end)
  | _ => None
  end.
Example c80_case : map add_after [1; 2]%nat = [Some (2, 2, None); Some (3, 0, Some 2%Z)]%nat.
Proof. vm_compute. reflexivity. Qed.
