(** C88. *)
From Coq Require Import ZArith Bool Ascii String List Lia.
From Verif Require Import Base SpecRun MonadFacts ModelObservation ModelLabelFilter ModelSnapshot ModelSwitches ModelInstrument ModelTree ModelChannel
  ModelProcessor ModelTransmitter ModelDriver ModelHandle ModelConfig SpecClock SpecQueue SpecCollect SpecDriver SpecConfig SpecChronicle SpecHandle SpecMount SpecShorthand
  SpecSnapshot DriverProofs ShorthandProofs MountProofs ConfigProofs BuilderProofs SnapshotProofs SpecBuilder HandleArrives HandleDriver HandleProofs
  Toy PropCollect PropGroup PropSite PropHandle PropAdd.
Import ListNotations.
Open Scope string_scope.
Open Scope list_scope.
Open Scope Z_scope.

(** The processor of a new pair has the name that was asked for. What is sent with
    the transmitter is queued; if there is a capacity, what exceeds it waits or is
    lost as was asked for. A collection takes it from there in order. *)
Theorem c88_pairs : forall (X : ext) id n cap block m, makes_pair (X := X) id n cap block m ->
  forall k c, exists q tx t c', m k c = Ok (q, tx, t) c' /\ tp_name t = n
  /\ forall ms, let q' := chan_run q (map (fun m => Acts (tx_send tx m)) ms) in
     match cap with
     | None => ch_queue q' = ms /\ ch_waiting q' = [] /\ ch_lost q' = []
     | Some s => ch_queue q' = firstn s ms
         /\ if block then ch_waiting q' = skipn s ms /\ ch_lost q' = [] else ch_waiting q' = [] /\ ch_lost q' = skipn s ms
     end
     /\ forall (Y : pext) (w : world X Y) max s k2 t' o w', Z.of_nat max <= u64_max ->
          w_queues w (tx_sender tx) = q' -> tele_process t max s k2 w = Ok (t', o) w' ->
          exists more, collection k2 t s (w_clock w) (firstn max (ch_queue q') ++ more) t' o.
Proof. exact @pair_works. Qed.
Print Assumptions c88_pairs.

Example c88_pairs_case : exists (q : chan (message toy)) tx t,
  new_pair_bounded_without_name 4 2 false debug (frozen 0) = Ok (q, tx, t) (frozen 0)
  /\ let q' := chan_run q (map (fun n => Acts (observed tx la n 5)) [1; 2; 3]) in
     ch_queue q' = [MObservation (Observed la 1 5); MObservation (Observed la 2 5)] /\ ch_lost q' = [MObservation (Observed la 3 5)].
Proof. eexists _, _, _. split; [reflexivity|]. vm_compute. auto. Qed.

(** A call to pause, to resume or to change the strategy takes effect after the
    commands that were sent before it and until one of the later ones says something else. *)
Theorem c88_calls : forall X Y k n (d : driver X Y) w d' w',
  driver_ok w -> dw_guards w <> O -> let cq := ch_queue (dw_commands w) in (List.length cq < n)%nat ->
  (iterates k n d (client_act w (Call call_pause)) d' w' ->
     exists later, (List.length later < n - List.length cq)%nat
       /\ dr_paused d' = paused_after true later /\ dr_strategy d' = strategy_after (dr_strategy d) (cq ++ later))
  /\ (iterates k n d (client_act w (Call call_resume)) d' w' ->
     exists later, (List.length later < n - List.length cq)%nat
       /\ dr_paused d' = paused_after false later /\ dr_strategy d' = strategy_after (dr_strategy d) (cq ++ later))
  /\ (forall s, iterates k n d (client_act w (Call (call_change_processing_strategy s))) d' w' ->
     exists later, (List.length later < n - List.length cq)%nat
       /\ dr_paused d' = paused_after (dr_paused d) (cq ++ later) /\ dr_strategy d' = strategy_after s later).
Proof.
  intros X Y k n d w d' w' Ok0 G cq Hn. repeat split.
  - intros H. destruct (call_taken _ _ _ _ _ _ _ Ok0 G Hn H) as (l & L & P & S). exists l. split; [exact L|].
    rewrite P, S, paused_after_app, !strategy_after_app. auto.
  - intros H. destruct (call_taken _ _ _ _ _ _ _ Ok0 G Hn H) as (l & L & P & S). exists l. split; [exact L|].
    rewrite P, S, paused_after_app, !strategy_after_app. auto.
  - intros s H. destruct (call_taken _ _ _ _ _ _ _ Ok0 G Hn H) as (l & L & P & S). exists l. split; [exact L|].
    rewrite P, S, !paused_after_app, strategy_after_app. auto.
Qed.
Print Assumptions c88_calls.

(** A mount attached to a mount is behind what was there and listens to its handle. *)
Theorem c88_attached : forall X Y d (ps : list (processor X Y)) ss ch m, exists ps' h,
  mount_attached_mount (Mount d ps ss) ch m = (Mount d ps' ss, h) /\ appended ps ps' (PAttached (Some h) m).
Proof. intros. eexists _, _. split; [reflexivity | apply appended_snoc]. Qed.
Print Assumptions c88_attached.

(** A mount attached through a handle, by either function *)
Theorem c88_attached_by_handle : forall X Y, parts_tick X -> processors_tick Y ->
  forall k n (d : driver X Y) w d' w' path j md ps ss j2 m attach,
  let R := fun r => r = MountReceiver j \/ r = MountReceiver j2 in
  attach = handle_attach_mount \/ attach = handle_attached_mount ->
  driver_ok w -> (forall r, R r -> nobody_else r w) ->
  inside_one R (dr_processors d) path (PAttached (Some j) (Mount md ps ss)) -> Forall (fun p => ~ held R p) ps ->
  usable (channel_of j w) -> j2 <> j ->
  let '(put, h) := attach j j2 m in
  iterates k n d (does put w) d' w' ->
  h = j2 /\ exists css,
    List.length css = n /\ Forall (fun cs => (List.length cs <= 1)%nat) css /\ moved (dw_commands w) (dw_commands w') (List.concat css)
    /\ (strategies (dr_strategy d) (dr_paused d) css <> [] -> exists p', evolves k (PAttached (Some h) m) p'
         /\ inside_one (fun r => r = MountReceiver h) (dr_processors d')
              (path ++ [Level (md_name md) (md_limit md); Position (List.length ps + List.length (put_processors (ch_queue (channel_of j w))))]) p'
         /\ driver_ok w' /\ nobody_else (MountReceiver h) w').
Proof.
  intros X Y HX HY k n d w d' w' path j md ps ss j2 m attach R [-> | ->] Ok0 N I F U Nj;
    exact (c79_attach X Y HX HY k n d w d' w' path j md ps ss j2 m Ok0 N I F U Nj).
Qed.
Print Assumptions c88_attached_by_handle.

(** The handles of an attached mount are counted: clones and ends leave everything
    else as it is. *)
Theorem c88_handles : forall (X : ext) (Y : pext) l j (w : world X Y),
  ch_waiting (w_mounts w j) = [] ->
  let w' := fold_left act (map (fun b : bool => if b then handle_clone j else handle_drop j) l) w in
  ch_senders (w_mounts w' j) = handles_after (ch_senders (w_mounts w j)) l
  /\ ch_queue (w_mounts w' j) = ch_queue (w_mounts w j) /\ ch_receiver (w_mounts w' j) = ch_receiver (w_mounts w j)
  /\ ch_cap (w_mounts w' j) = ch_cap (w_mounts w j)
  /\ (forall i, i <> j -> w_mounts w' i = w_mounts w i) /\ w_queues w' = w_queues w.
Proof. exact @handles_counted. Qed.
Print Assumptions c88_handles.

(** Panels and cockpits that were just created: nothing in them, reached by the
    labels of the filter. *)
Theorem c88_named : forall (X : ext) k c,
  (forall f n, exists p c', panel_named (X := X) f n k c = Ok p c'
     /\ (forall l, panel_accepts_label p l = accepts (lab_eqb X) f l)
     /\ forall de into k2 c2, panel_put p de into k2 c2 = Ok (p, into ++ [(n, ItemSnapshot [])]) c2)
  /\ (forall n, exists x c', cockpit_new (X := X) n k c = Ok x c'
     /\ forall de into k2 c2, cockpit_put x de into k2 c2 = Ok (x, into ++ [(n, ItemSnapshot [])]) c2).
Proof.
  intros X k c. split; intros; eexists _, _; (split; [reflexivity|]).
  - split; [reflexivity|]. intros [] into k2 c2; reflexivity.
  - intros [] into k2 c2; reflexivity.
Qed.
Print Assumptions c88_named.

(** A flag with an initial state shows it at once and goes on as if the state had
    been set. *)
Theorem c88_flag : forall name b h k c,
  (forall de, flag_put (flag_new_with_state name b) de [] = [(name, Boolean b)])
  /\ forall x ns c', run_all (live flag_config (fun x u => ret (flag_update x u))) (flag_new_with_state name b) h k c = Ok (x, ns) c' <->
       run_all (live flag_config (fun x u => ret (flag_update x u))) (flag_new name) (Sets (SetState b) :: h) k c = Ok (x, 0 :: ns) c'.
Proof.
  intros name b h k c. split; [intros []; reflexivity|]. intros x ns c'. cbn [run_all live flag_config].
  change (flag_set_state (flag_new name) b) with (flag_new_with_state name b).
  unfold bind, ret. destruct (run_all _ (flag_new_with_state name b) h k c) as [[y l] c1| |].
  - split; intros E; injection E as <- <- <-; reflexivity.
  - split; discriminate.
  - split; discriminate.
Qed.
Print Assumptions c88_flag.

(** The inverted state of a flag is shown under the name that was asked for. *)
Theorem c88_inverted : forall name h s inv k c x ns c',
  (exists p, s = show_inverted_prefixed p /\ forall n, inv n = (p ++ n)%string)
  \/ (exists p, s = show_inverted_postfixed p /\ forall n, inv n = (n ++ p)%string)
  \/ (exists p, s = show_inverted_renamed p /\ forall n, inv n = p) ->
  run_all (live flag_config (fun x u => ret (flag_update x u))) (flag_new name) (h ++ [Sets s]) k c = Ok (x, ns) c' ->
  forall de b, flag_get_state x = Some b ->
  exists texts, flag_put x de [] = texts ++ [(asked a_name name h, Boolean b); (inv (asked a_name name h), Boolean (negb b))].
Proof. exact flag_inverted. Qed.
Print Assumptions c88_inverted.

(** A timer that is asked to be inverted shows the opposite of the state it would
    have without this. *)
Theorem c88_inverted_timer : forall name h k c x ns c',
  run_all (live staircase_config staircase_update) (staircase_new name) (h ++ [Sets inverted]) k c = Ok (x, ns) c' ->
  exists y ns',
    run_all (live staircase_config staircase_update) (staircase_new name) (unadorned h) k c = Ok (y, ns') c' /\
    forall de k2 c2,
      staircase_put x de [] k2 c2 =
      switch_fields (staircase_state y) (descriptive_fields de (asked a_name name h) h) (asked a_name name h)
        true (asked a_show_inverted None h) k2 c2.
Proof. exact staircase_inverted. Qed.
Print Assumptions c88_inverted_timer.

(** A driver by [default] *)
Theorem c88_default_driver : forall (X : ext) (Y : pext) k c (d : driver X Y) c1,
  telemetry_driver_default k c = Ok d c1 ->
  dr_name d = None /\ dr_descr d = Descr None None /\ dr_processors d = [] /\ dr_snapshooters d = []
  /\ dr_strategy d = DropOlderThan 30000000000 false /\ dr_paused d = false /\ dr_metrics d <> None.
Proof. exact @default_driver. Qed.
Print Assumptions c88_default_driver.

(** Searching in what was found, with the usual separator *)
Theorem c88_find : forall s p q s' words,
  find s p = Found (ItemSnapshot s') -> has_words "/"%char q words -> words <> [] ->
  found_find (find s p) q = find s (p ++ "/" ++ q)%string.
Proof. intros s p q s' words. exact (find_stepwise s "/"%char p q s' words). Qed.
Print Assumptions c88_find.

(** ** Cases *)

(** A processor is added before the call. *)
Definition call_after (c : command toy toyp) (n : nat) :=
  match run_iterations n add_driver debug (client_act add_world (Call c)) with
  | Ok (Some d) _ => Some (dr_paused d, dr_strategy d)
  | _ => None
  end.
Example c88_calls_case :
  driver_ok add_world /\ dw_guards add_world <> O /\ (List.length (ch_queue (dw_commands add_world)) < 2)%nat
  /\ map (call_after call_pause) [1; 2]%nat = [Some (false, ProcessAll); Some (true, ProcessAll)]
  /\ map (call_after (call_change_processing_strategy (DropOlderThan 5 true))) [1; 2]%nat
     = [Some (false, ProcessAll); Some (false, DropOlderThan 5 true)].
Proof.
  split; [exact (proj1 c80_case_hypotheses)|]. split; [discriminate|]. split; [vm_compute; lia|]. vm_compute. auto.
Qed.

Example c88_handles_case :
  ch_waiting (w_mounts (dw_world add_world) 3) = [] /\ ch_senders (w_mounts (dw_world add_world) 3) = 1%nat
  /\ map (handles_after 1) [[true; false]; [true; true; false]; [false; true]] = [1; 2; 0]%nat.
Proof. repeat split. Qed.

Example c88_inverted_case :
  match run_all (live flag_config (fun x u => ret (flag_update x u))) (flag_new "f")
          ([Sets (SetState true); Sets (show_inverted_renamed "g"); Sets (SetName "on")] ++ [Sets (show_inverted_prefixed "not_")])
          release (frozen 0) with
  | Ok (x, _) _ => flag_put x false [] = [("on", Boolean true); ("not_on", Boolean false)]
  | _ => False
  end.
Proof. reflexivity. Qed.

Example c88_inverted_timer_case :
  match (let* '(x, _) := run_all (live staircase_config staircase_update) (staircase_new "s") ([Arrives (OneObservation 0)] ++ [Sets inverted]) in
         staircase_put x false []) release (frozen 5) with
  | Ok s _ => s = [("s", Boolean false)]
  | _ => False
  end.
Proof. reflexivity. Qed.

Example c88_default_driver_case :
  match telemetry_driver_default (X := toy) (Y := toyp) debug (frozen (100 * nanos_per_sec)) with Ok _ _ => True | _ => False end.
Proof. vm_compute. exact I. Qed.

Example c88_find_case :
  let s := [("a", ItemSnapshot [("b", Int 7)])] in
  find s "a" = Found (ItemSnapshot [("b", Int 7)]) /\ found_find (find s "a") "b" = Found (Int 7) /\ has_words "/"%char "b" ["b"].
Proof.
  split; [reflexivity|]. split; [reflexivity|]. exists ["b"]. split; [discriminate|].
  split; [|split; reflexivity]. constructor; [cbn; repeat split; discriminate | constructor].
Qed.
