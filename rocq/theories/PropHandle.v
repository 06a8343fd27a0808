(** C79: what happens to what is put into a mount through the handle of it. *)
From Coq Require Import ZArith Bool String List Lia.
From Verif Require Import Base SpecRun MonadFacts SpecClock ModelObservation ModelLabelFilter ModelSnapshot ModelCounter ModelInstrument ModelTree
  ModelChannel ModelProcessor ModelDriver ModelHandle SpecWriting SpecTree SpecQueue SpecCollect SpecDriver SpecChronicle SpecSite SpecShown SpecHandle
  DriverLoopProofs HandleAway HandleProofs HandleGrows HandlePut Toy PropGroup PropFollow PropWriting PropChronicle PropSite PropLives PropShown.
Import ListNotations.
Open Scope string_scope.
Open Scope list_scope.
Open Scope Z_scope.

(** A processor for telemetry data, alone or in mounts, that is put into a mount through
    its handle. Nothing happens to it while the driver is paused, and it waits in the
    channel of the handle. From the first iteration that is not paused on there is one
    collection of it in each such iteration, the first one being in the same iteration
    in which it arrives; its place is behind all that was in the mount and all that was
    put before it, and it stays there. *)
Theorem c79_tele : forall X Y, parts_tick X -> processors_tick Y ->
  forall k n (d : driver X Y) w d' w' path j md ps ss p path0 t,
  let i := tp_receiver t in
  let R := fun r => r = MountReceiver j \/ r = QueueReceiver i in
  driver_ok w -> (forall r, R r -> nobody_else r w) ->
  inside_one R (dr_processors d) path (PAttached (Some j) (Mount md ps ss)) -> Forall (fun p => ~ held R p) ps ->
  usable (channel_of j w) -> located (QueueReceiver i) p path0 t ->
  iterates k n d (does (handle_put_processor j p) w) d' w' ->
  exists css es t',
    List.length css = n /\ Forall (fun cs => (List.length cs <= 1)%nat) css /\ moved (dw_commands w) (dw_commands w') (List.concat css)
    /\ map (@en_strategy X) es = strategies (dr_strategy d) (dr_paused d) css
    /\ chronicle k (w_clock (dw_world w)) t es t' (w_clock (dw_world w'))
    /\ Forall (fun e => (List.length (en_messages e) <= 1000)%nat) es
    /\ moved (queue_of i w) (queue_of i w') (flat_map (@en_messages X) es)
    /\ (es = [] -> t' = t /\ ch_queue (channel_of j w') = ch_queue (channel_of j w) ++ [MProcessor p])
    /\ (es <> [] -> among (QueueReceiver i) (dr_processors d')
           (path ++ Level (md_name md) (md_limit md) :: Position (List.length ps + List.length (put_processors (ch_queue (channel_of j w)))) :: path0) t'
         /\ nobody_else (QueueReceiver i) w')
    /\ (attentive i t (dw_world w) -> attentive i t' (dw_world w')
         /\ exists rest, flat_map (@en_messages X) es = firstn (1000 * List.length es) (ch_queue (queue_of i w)) ++ rest).
Proof. intros X Y HX HY. exact (put_tele HX HY). Qed.
Print Assumptions c79_tele.

(** Any processor; [S]: some receivers in it that nobody else has. It is collected as a
    part of the mount and stays where it arrived. *)
Theorem c79_processor : forall X Y, parts_tick X -> processors_tick Y ->
  forall (S : receiver -> Prop) k n (d : driver X Y) w d' w' path j md ps ss p,
  let R := fun r => r = MountReceiver j \/ S r in
  driver_ok w -> (forall r, R r -> nobody_else r w) ->
  inside_one R (dr_processors d) path (PAttached (Some j) (Mount md ps ss)) -> Forall (fun p => ~ held R p) ps ->
  usable (channel_of j w) -> ~ S (MountReceiver j) ->
  iterates k n d (does (handle_put_processor j p) w) d' w' ->
  exists css,
    List.length css = n /\ Forall (fun cs => (List.length cs <= 1)%nat) css /\ moved (dw_commands w) (dw_commands w') (List.concat css)
    /\ (strategies (dr_strategy d) (dr_paused d) css = [] -> ch_queue (channel_of j w') = ch_queue (channel_of j w) ++ [MProcessor p])
    /\ (strategies (dr_strategy d) (dr_paused d) css <> [] -> exists p', evolves k p p'
         /\ inside_one S (dr_processors d')
              (path ++ [Level (md_name md) (md_limit md); Position (List.length ps + List.length (put_processors (ch_queue (channel_of j w))))]) p'
         /\ driver_ok w' /\ forall r, S r -> nobody_else r w').
Proof. intros X Y HX HY. exact (put_any HX HY). Qed.
Print Assumptions c79_processor.

(** Another mount with a handle of its own, through which the same can be done again *)
Theorem c79_attach : forall X Y, parts_tick X -> processors_tick Y ->
  forall k n (d : driver X Y) w d' w' path j md ps ss j2 m,
  let R := fun r => r = MountReceiver j \/ r = MountReceiver j2 in
  driver_ok w -> (forall r, R r -> nobody_else r w) ->
  inside_one R (dr_processors d) path (PAttached (Some j) (Mount md ps ss)) -> Forall (fun p => ~ held R p) ps ->
  usable (channel_of j w) -> j2 <> j ->
  let '(put, h) := handle_attach_mount j j2 m in
  iterates k n d (does put w) d' w' ->
  h = j2 /\ exists css,
    List.length css = n /\ Forall (fun cs => (List.length cs <= 1)%nat) css /\ moved (dw_commands w) (dw_commands w') (List.concat css)
    /\ (strategies (dr_strategy d) (dr_paused d) css <> [] -> exists p', evolves k (PAttached (Some h) m) p'
         /\ inside_one (fun r => r = MountReceiver h) (dr_processors d')
              (path ++ [Level (md_name md) (md_limit md); Position (List.length ps + List.length (put_processors (ch_queue (channel_of j w))))]) p'
         /\ driver_ok w' /\ nobody_else (MountReceiver h) w').
Proof.
  intros X Y HX HY k n d w d' w' path j md ps ss j2 m R Ok0 N I F U Nj H. split; [reflexivity|].
  destruct (put_any HX HY (fun r => r = MountReceiver j2) k n d w d' w' path j md ps ss _ Ok0 N I F U ltac:(congruence) H) as (css & H1 & H2 & H3 & _ & H4).
  exists css. split; [exact H1|]. split; [exact H2|]. split; [exact H3|]. intros Hs. destruct (H4 Hs) as (p' & E & Ip & O & Nb).
  exists p'. auto.
Qed.
Print Assumptions c79_attach.

(** A snapshooter is, from the first iteration on that is not paused, shown at its place
    in the mount below the names on the way to it. Nothing happens to it but snapshots. *)
Theorem c79_snapshooter : forall X Y, parts_tick X -> processors_tick Y -> parts_append X -> (forall u, appends (user_proc_put Y u)) ->
  forall k n (d : driver X Y) w d' w' path j md ps ss s,
  let R := fun r => r = MountReceiver j in
  driver_ok w -> nobody_else (MountReceiver j) w ->
  inside_one R (dr_processors d) path (PAttached (Some j) (Mount md ps ss)) -> Forall (fun p => ~ holds (MountReceiver j) p) ps ->
  usable (channel_of j w) ->
  iterates k n d (does (handle_put_snapshooter j s) w) d' w' ->
  exists css,
    List.length css = n /\ Forall (fun cs => (List.length cs <= 1)%nat) css /\ moved (dw_commands w) (dw_commands w') (List.concat css)
    /\ (strategies (dr_strategy d) (dr_paused d) css = [] -> ch_queue (channel_of j w') = ch_queue (channel_of j w) ++ [MSnapshooter s])
    /\ (strategies (dr_strategy d) (dr_paused d) css <> [] -> exists s' gs,
         leaf_life k (w_clock (dw_world w)) (LShown s) [] (LShown s') (w_clock (dw_world w'))
         /\ map gu_limit gs = limits_on path ++ [md_limit md]
         /\ driver_shows d' (path ++ [Level (md_name md) (md_limit md); Position (List.length ss + List.length (put_snapshooters (ch_queue (channel_of j w))))])
              (opt_list (dr_name d) ++ names_on path ++ opt_list (md_name md)) gs s').
Proof. intros X Y HX HY HA HB. exact (put_shooter HX HY HA HB). Qed.
Print Assumptions c79_snapshooter.

(** All that is put into a mount: it arrives in the order in which it was put, behind
    what was there, nothing of it gets lost or doubled, and each iteration that is not
    paused takes all that waited before. The mount stays where it is. It does not
    look at its channel any more only if there will be nothing in it. *)
Theorem c79_mount : forall X Y, parts_tick X -> processors_tick Y ->
  forall j, let R := fun r => r = MountReceiver j in
  forall k n (d : driver X Y) w d' w' path r md ps ss, iterates k n d w d' w' -> driver_ok w -> nobody_else (MountReceiver j) w ->
  inside_one R (dr_processors d) path (PAttached r (Mount md ps ss)) -> listens j r ps (dw_world w) ->
  exists css xs r' md' ps' ss',
    List.length css = n /\ Forall (fun cs => (List.length cs <= 1)%nat) css /\ moved (dw_commands w) (dw_commands w') (List.concat css)
    /\ inside_one R (dr_processors d') path (PAttached r' (Mount md' ps' ss')) /\ listens j r' ps' (dw_world w')
    /\ md_name md' = md_name md /\ md_limit md' = md_limit md
    /\ moved (channel_of j w) (channel_of j w') xs
    /\ Forall2 (evolves k) (ps ++ put_processors xs) ps' /\ Forall2 (snapshooter_evolves k) (ss ++ put_snapshooters xs) ss'
    /\ (strategies (dr_strategy d) (dr_paused d) css <> [] -> exists new, xs = ch_queue (channel_of j w) ++ new)
    /\ driver_ok w' /\ nobody_else (MountReceiver j) w'.
Proof. intros X Y HX HY j. exact (mount_iterates HX HY j). Qed.
Print Assumptions c79_mount.

(** Whatever is somewhere in a driver stays there. *)
Theorem c79_stays : forall X Y, parts_tick X -> processors_tick Y ->
  forall (R : receiver -> Prop) k n (d : driver X Y) w d' w' path q, iterates k n d w d' w' -> driver_ok w -> (forall r, R r -> nobody_else r w) ->
  inside_one R (dr_processors d) path q ->
  exists css q', List.length css = n /\ Forall (fun cs => (List.length cs <= 1)%nat) css /\ moved (dw_commands w) (dw_commands w') (List.concat css)
    /\ evolves k q q' /\ inside_one R (dr_processors d') path q' /\ driver_ok w' /\ (forall r, R r -> nobody_else r w')
    /\ dr_name d' = dr_name d.
Proof. intros X Y HX HY. exact (stays HX HY). Qed.
Print Assumptions c79_stays.

(** A paused driver with a mount whose handle is kept, and in which another handle put a
    processor and a snapshooter before. A mount with a processor is put through the handle;
    the driver is resumed in the second iteration. *)
Definition handle_tele : tele toy := Tele (Some "tele") no_descr [toy_cockpit] [] 1 [] 0 None true false.
Definition handle_new : processor toy toyp := PMount (Mount (MountData (Some "new") no_descr 0 None) [group_user; PTele handle_tele] []).
Definition handle_data : mount_data := MountData (Some "att") no_descr 0 (Some (60 * nanos_per_sec)).
Definition handle_inner : list (processor toy toyp) := [group_tele 2; PAttached (Some 5%nat) (Mount handle_data [group_tele 3] [])].
Definition handle_driver : driver toy toyp :=
  Driver (Some "drv") no_descr [group_user; PMount (Mount (MountData (Some "outer") no_descr 0 None) handle_inner [])] [] ProcessAll true None 0 0.
Definition handle_world : dworld toy toyp :=
  new_world
    (World (frozen 100)
       (fun i => chan_run (chan_new None) ([Acts (tell la 1); Acts (tell lb 95)] ++ if Nat.eqb i 1 then [] else [Acts DropSender]))
       (fun _ => chan_run (chan_new None) [Acts (Send (MProcessor (group_tele 4))); Acts (Send (MSnapshooter (shown_constant "a" 1)))])
       (fun _ => []))
    (fun n => if Nat.eqb n 3 then [Call call_resume] else []).
Definition handle_path : list place := [Position 1; Level (Some "outer") None; Position 1].

Lemma handle_inside : forall R : receiver -> Prop, (forall r, R r -> r = MountReceiver 5 \/ r = QueueReceiver 1) ->
  inside_one R (dr_processors handle_driver) handle_path (PAttached (Some 5%nat) (Mount handle_data [group_tele 3] [])).
Proof.
  intros R HR. apply (io_at R [group_user] _ [] [Level (Some "outer") None; Position 1]); [|apply (in_mount R (MountData (Some "outer") no_descr 0 None))|constructor].
  - constructor; [|constructor]. intros (r & _ & H). exact H.
  - apply (io_at R [group_tele 2] _ [] []); [|constructor|constructor].
    constructor; [|constructor]. intros (r & Hr & H). destruct (HR r Hr) as [->| ->]; discriminate H.
Qed.

Lemma handle_nobody : forall r, r = MountReceiver 5 \/ r = QueueReceiver 1 -> nobody_else r handle_world.
Proof.
  assert (F : forall r j x, r = MountReceiver 5 \/ r = QueueReceiver 1 ->
            In x (ch_queue (w_mounts (dw_world handle_world) j)) \/ In x (ch_waiting (w_mounts (dw_world handle_world) j)) -> ~ put_holds r x).
  { intros r j x Hr Hx. change (In x [MProcessor (group_tele 4); MSnapshooter (shown_constant "a" 1)] \/ In x []) in Hx.
    destruct Hx as [[<-|[<-|[]]]|[]]; destruct Hr as [->| ->]; intros H; try discriminate H; exact H. }
  intros r Hr. split; [|split; [constructor|]].
  - split; [|intros n j x [[]|[]]]. intros j x Hx. apply (F r j x Hr). revert Hx. clear. firstorder.
  - intros n. unfold handle_world, new_world, dw_sched. destruct (Nat.eqb n 3); repeat constructor.
Qed.

Example c79_case_hypotheses :
  let R := fun r => r = MountReceiver 5 \/ r = QueueReceiver 1 in
  driver_ok handle_world /\ (forall r, R r -> nobody_else r handle_world)
  /\ inside_one R (dr_processors handle_driver) handle_path (PAttached (Some 5%nat) (Mount handle_data [group_tele 3] []))
  /\ Forall (fun p => ~ held R p) [group_tele 3] /\ usable (channel_of 5 handle_world)
  /\ located (QueueReceiver 1) handle_new [Level (Some "new") None; Position 1] handle_tele
  /\ attentive 1 handle_tele (dw_world handle_world) /\ listens 5 (Some 5%nat) [group_tele 3] (dw_world handle_world)
  /\ exists d' w', iterates debug 3 handle_driver (does (handle_put_processor 5 handle_new) handle_world) d' w'.
Proof.
  intros R. assert (F : forall S : receiver -> Prop, (forall r, S r -> R r) -> Forall (fun p => ~ held S p) [group_tele 3]).
  { intros S HS. constructor; [|constructor]. intros (r & Hr & H). destruct (HS r Hr) as [->| ->]; discriminate H. }
  split; [unfold driver_ok; cbn; repeat split; auto; discriminate|]. split; [exact handle_nobody|].
  split; [apply handle_inside; auto|]. split; [apply F; auto|]. split; [repeat split; discriminate|].
  split.
  { apply (lo_mount (QueueReceiver 1) (MountData (Some "new") no_descr 0 None)).
    apply (am_at _ [group_user] _ [] []); [repeat constructor; intros []| |constructor]. constructor. reflexivity. }
  split; [split; [vm_compute; auto | discriminate]|]. split.
  { split; [apply F; left; auto|]. split; [discriminate | left; reflexivity]. }
  apply ran. vm_compute. reflexivity.
Qed.

(** After one iteration all waits; after the second one the new mount is behind the
    processors put before and its messages are counted. *)
Definition handle_after (n : nat) :=
  match run_iterations n handle_driver debug (does (handle_put_processor 5 handle_new) handle_world) with
  | Ok (Some d1) w1 =>
      Some (length (ch_queue (channel_of 5 w1)), length (ch_queue (queue_of 1 w1)),
        match dr_processors d1 with
        | [_; PMount (Mount _ [_; PAttached _ (Mount _ ps ss)] _)] =>
            (length ps, length ss, match nth_error ps 2 with Some (PMount (Mount _ [_; PTele t] _)) => chron_count t | _ => None end)
        | _ => (O, O, None)
        end)
  | _ => None
  end%nat.
Example c79_case : map handle_after [1; 2]%nat = [Some (3, 2, (1, 0, None)); Some (0, 0, (3, 1, Some 2%Z))]%nat.
Proof. vm_compute. reflexivity. Qed.
