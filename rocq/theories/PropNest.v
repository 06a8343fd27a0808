(** C57, C85: drivers mounted into each other. *)
From Coq Require Import ZArith Bool String List Arith Lia.
From Verif Require Import Base SpecRun ModelObservation ModelSnapshot ModelInstrument ModelTree ModelChannel ModelProcessor ModelNest
  SpecQueue SpecCollect SpecNest NestProofs Toy.
Import ListNotations.
Open Scope string_scope.
Open Scope list_scope.
Open Scope nat_scope.

(** ** Collecting *)

(** Collecting a mounted driver does nothing: neither to the driver nor to any queue. *)
Theorem c57_not_collected : forall X Y k (h : driver_handle Y) max s (w : world X Y) p' o w',
  collects k (PDriver h) max s w p' o w' <-> p' = PDriver h /\ o = outcome_default /\ w' = w.
Proof. exact @driver_not_collected. Qed.
Print Assumptions c57_not_collected.

(** The same for the drivers anywhere in the mounts of a processor (an attached
    mount may receive further ones). *)
Theorem c57_stay : forall X Y k (p : processor X Y) max s (w : world X Y) p' o w',
  collects k p max s w p' o w' -> subsequence (mounted_drivers p) (mounted_drivers p').
Proof. exact @drivers_stay_collected. Qed.
Print Assumptions c57_stay.

Definition nest_mount : processor toy toyp :=
  PMount (Mount (MountData (Some "m") no_descr 0 None)
    [PDriver (Some [("inner", Int 1)] : driver_handle toyp); PUser (0%Z : user_proc toyp);
     PMount (Mount (MountData None no_descr 0 None) [PDriver (None : driver_handle toyp)] [])] []).
Definition nest_world : world toy toyp := World (frozen 5) (fun _ => chan_new None) (fun _ => chan_new None) (fun _ => []).

Example c57_stay_case :
  mounted_drivers nest_mount = [Some [("inner", Int 1)]; None]
  /\ match processor_process 3 nest_mount 10 ProcessAll debug nest_world with
     | Ok (p', o) _ => mounted_drivers p' = [Some [("inner", Int 1)]; None] /\ oc_processed o = 1%Z
     | _ => False
     end.
Proof. split; [reflexivity|]. vm_compute. auto. Qed.

(** ** Snapshots *)

(** A mounted driver writes exactly the items of its answer. *)
Theorem c57_writes_answer : forall X Y (h : driver_handle Y) de into k c,
  processor_put (X := X) (PDriver h) de into k c
  = match driver_snapshot Y h de k c with
    | Ok (h', Some s) c' => Ok (PDriver h', into ++ s) c'
    | Ok (h', None) c' => Ok (PDriver h', into) c'
    | Panic => Panic
    | NoFuel => NoFuel
    end.
Proof. exact @driver_writes_answer. Qed.
Print Assumptions c57_writes_answer.

Example c57_writes_answer_case :
  processor_put (PDriver (Some [("inner", Int 1)] : driver_handle toyp) : processor toy toyp) true [("before", Int 0)] debug (frozen 5)
  = Ok (PDriver (Some [("inner", Int 1)] : driver_handle toyp), [("before", Int 0); ("inner", Int 1)]) (frozen 5).
Proof. reflexivity. Qed.

(** However the drivers are mounted into each other, whenever this is done and
    whatever their threads and the requests do: an answer is a snapshot of the
    driver that was asked, with what had been mounted when it was asked, and
    snapshots of the mounted drivers in their places. *)
Theorem c57_answers : forall net st i b s,
  nreach net st -> In (i, Ask b) (ns_log st) -> ns_replies st b = Answered s -> shows net (ns_log st) i b s.
Proof. exact answers_right. Qed.
Print Assumptions c57_answers.

(** If drivers are mounted without a cycle, their threads need a bounded number of
    steps for everything that was asked so far, and a bounded number for each step of
    someone else, in whatever order all of them are taken. When they have nothing
    more to do every request is answered. They always get there. *)
Theorem c57_completes_partial : forall net st ws rank, nreach net st -> NoDup ws -> acyclic st ws rank ->
  exists N C, forall n m st', runs net ws st n m st' ->
    n <= N + m * C
    /\ (idle net ws st' -> all_answered ws st')
    /\ exists n' st'', runs net ws st' n' 0 st'' /\ idle net ws st''.
Proof. exact completes. Qed.
Print Assumptions c57_completes_partial.

(** Missing in [c57_completes_partial] are the cycles: as soon as each of some drivers
    has one of them mounted, no request to any of them is answered any more. *)
Theorem c57_cycles : forall net S st0 st i b s, nreach net st0 -> endless st0 S -> nlater net st0 st ->
  S i -> In (i, Ask b) (ns_log st) -> not_taken_up st0 i b -> ns_replies st b <> Answered s.
Proof. exact cycles_never_answer. Qed.
Print Assumptions c57_cycles.

Definition nest_net (i : nat) : identity :=
  match i with
  | 0 => Identity (Some "outer") (fun b => [("a", UInt (Z.of_nat b))]) (fun _ => [("z", Int 0)])
  | 1 => Identity (Some "middle") (fun _ => []) (fun _ => [("m", Int 1)])
  | 2 => Identity None (fun b => [("i", UInt (Z.of_nat b))]) (fun _ => [])
  | _ => Identity None (fun _ => []) (fun _ => [])
  end.

Definition nest_calls (st : nstate) (cs : list (nat * ncommand)) : nstate := fold_left (fun st c => call st (fst c) (snd c)) cs st.

(** Always the first thread that can do something. *)
Fixpoint nest_run (n : nat) (ws : list nat) (st : nstate) : nstate :=
  match n with
  | O => st
  | S n =>
      match flat_map (fun i => match thread_step nest_net st i with Some st' => [st'] | None => [] end) ws with
      | st' :: _ => nest_run n ws st'
      | [] => st
      end
  end.

Lemma nest_run_later : forall n ws st0 st, nlater nest_net st0 st -> nlater nest_net st0 (nest_run n ws st).
Proof.
  induction n as [|n IH]; intros ws st0 st H; cbn [nest_run]; [exact H|].
  destruct (flat_map _ _) as [|st' l] eqn:E; [exact H|]. apply IH.
  assert (Hin : In st' (flat_map (fun i => match thread_step nest_net st i with Some st' => [st'] | None => [] end) ws)) by (rewrite E; left; reflexivity).
  apply in_flat_map in Hin. destruct Hin as (i & _ & Hi). destruct (thread_step nest_net st i) as [st1|] eqn:Es; [|destruct Hi].
  destruct Hi as [<- | []]. eapply nl_step; [exact H | eapply ns_thread; exact Es].
Qed.

Lemma nest_calls_later : forall cs st0 st, nlater nest_net st0 st -> (forall i, ns_threads st i <> Ended) ->
  Forall (fun c => forall b, snd c <> Ask b) cs -> nlater nest_net st0 (nest_calls st cs) /\ forall i, ns_threads (nest_calls st cs) i <> Ended.
Proof.
  intros cs. induction cs as [|[i c] cs IH]; intros st0 st H He Hc; [split; assumption|]. inversion Hc as [|x l Hx Hl]; subst. cbn [nest_calls fold_left].
  apply IH; [eapply nl_step; [exact H | apply ns_add; [exact Hx | auto]] | | exact Hl].
  intros j. rewrite call_threads. apply He.
Qed.

(** Three drivers, the second one mounted into the first, with a mount in between, and
    the third one into both; two more that are mounted into each other. *)
Definition nest_adds : list (nat * ncommand) :=
  [(0, AddSnapshooter (Mounted 2));
   (0, AddProcessor (Own (fun _ => [("first", Int 7)])));
   (0, AddProcessor (Group (Some "mount") (fun _ => [("inactive", Boolean false)]) (fun _ => true) [Mounted 1]));
   (0, AddProcessor (Group (Some "other") (fun _ => [("inactive", Boolean true)]) (fun _ => false) [Mounted 1]));
   (1, AddProcessor (Mounted 2));
   (3, AddProcessor (Mounted 2)); (3, AddProcessor (Mounted 4)); (4, AddSnapshooter (Mounted 3))].

Definition nest_st : nstate := nest_calls start nest_adds.

Lemma nest_reach : nreach nest_net nest_st /\ forall i, ns_threads nest_st i <> Ended.
Proof.
  apply nest_calls_later; [constructor | discriminate|]. unfold nest_adds. repeat constructor; intros b; discriminate.
Qed.

Ltac nest_cases := repeat match goal with
  | H : _ \/ _ |- _ => destruct H as [H | H]
  | H : False |- _ => destruct H
  | H : _ = _ |- _ => discriminate H || (injection H; clear H; intros; subst) || (subst; clear H) || subst
  end.

Example c57_acyclic_case : nreach nest_net nest_st /\ acyclic nest_st [0; 1; 2] (fun i => 2 - i).
Proof.
  split; [exact (proj1 nest_reach)|].
  intros [|[|[|i]]] j Hi Hm; cbn in Hi; [| | |lia]; destruct Hm as [p Hp Hj|p Hp Hj|p Hp Hj|p Hp Hj]; cbn in Hp; nest_cases; cbn in Hj; nest_cases; cbn; split; auto; lia.
Qed.

Example c57_completes_case :
  let st := nest_run 200 [4; 3; 2; 1; 0] (request (request (request nest_st 3) 0) 2) in
  ns_replies st 8 = Pending
  /\ ns_replies st 9 = Answered [("outer", ItemSnapshot [("a", UInt 9); ("first", Int 7);
       ("mount", ItemSnapshot [("inactive", Boolean false); ("middle", ItemSnapshot [("i", UInt 15); ("m", Int 1)])]);
       ("other", ItemSnapshot [("inactive", Boolean true)]); ("i", UInt 16); ("z", Int 0)])]
  /\ ns_replies st 10 = Answered [("i", UInt 10)].
Proof. vm_compute. auto. Qed.

(** The two are mounted into each other when the commands have been taken up. *)
Definition nest_circle : nstate := nest_run 3 [3; 4] nest_st.

Example c57_cycles_case : nreach nest_net nest_circle /\ endless nest_circle (fun i => i = 3 \/ i = 4)
  /\ In (3, Ask 8) (ns_log (request nest_circle 3)) /\ not_taken_up nest_circle 3 8.
Proof.
  split; [apply nest_run_later; exact (proj1 nest_reach)|]. split; [|split].
  - intros i [-> | ->]; (split; [vm_compute; discriminate|]).
    + exists 4, (Mounted 4). split; [auto|]. split; [vm_compute; auto | constructor].
    + exists 3, (Mounted 3). split; [auto|]. split; [vm_compute; auto | constructor].
  - vm_compute. tauto.
  - right. vm_compute. intros H. nest_cases.
Qed.

(** So "always completes" is wrong: a driver can be mounted into itself. *)
Theorem c57_always_completes_refuted : exists net st0 b,
  nreach net st0 /\ ns_threads st0 0 = Looping /\ In (Ask b) (ns_queues st0 0)
  /\ forall st s, nlater net st0 st -> ns_replies st b <> Answered s.
Proof.
  exists (fun _ => Identity None (fun _ => []) (fun _ => [])).
  set (net := fun _ : nat => Identity None (fun _ => []) (fun _ => [])).
  set (st1 := call start 0 (AddProcessor (Mounted 0))).
  destruct (thread_step net st1 0) as [st2|] eqn:E; [|discriminate E]. exists (request st2 0), 1.
  assert (H1 : nreach net st1) by (eapply nl_step; [constructor | apply ns_add; discriminate]).
  assert (H2 : nreach net st2) by (eapply nl_step; [exact H1 | eapply ns_thread; exact E]).
  assert (H3 : nreach net (request st2 0)) by (eapply nl_step; [exact H2 | apply ns_request]).
  injection E as <-. split; [exact H3|]. split; [reflexivity|]. split; [left; reflexivity|].
  intros st s Hl.
  assert (Hlog : exists x, ns_log st = ns_log (request (NState (set (ns_queues st1) 0 []) (ns_threads st1) (ns_replies st1)
                    (set (ns_processors st1) 0 (ns_processors st1 0 ++ [Mounted 0])) (ns_snapshooters st1) (ns_log st1)) 0) ++ x)
    by exact (later_log net _ st Hl).
  apply (c57_cycles net (fun i => i = 0) _ st 0 1 s H3); [|exact Hl | reflexivity | | left; left; reflexivity].
  - intros i ->. split; [discriminate|]. exists 0, (Mounted 0). split; [reflexivity|]. split; [left; reflexivity | constructor].
  - destruct Hlog as [x ->]. right. left. reflexivity.
Qed.
Print Assumptions c57_always_completes_refuted.

(** ** Mounting into drivers that run *)

(** What was mounted into a driver before it was asked is in the answer: if this is
    another driver, the items of a snapshot of it that was requested later. *)
Theorem c85_mounted_in_time : forall net st i j b x y s, nreach net st -> ns_log st = x ++ (i, Ask b) :: y ->
  In (i, AddProcessor (Mounted j)) x \/ In (i, AddSnapshooter (Mounted j)) x -> ns_replies st b = Answered s ->
  exists a s' u v, b < a /\ shows net (ns_log st) j a s' /\ s = grouped (id_name (net i)) (u ++ s' ++ v).
Proof. exact mounted_in_time. Qed.
Print Assumptions c85_mounted_in_time.

(** The first request has been sent before the driver was mounted, the second one after it. *)
Definition nest_between : nstate :=
  nest_run 100 [1; 2] (request (call (request start 1) 1 (AddProcessor (Mounted 2))) 1).

Example c85_mounted_in_time_case :
  nreach nest_net nest_between
  /\ ns_log nest_between = [(1, Ask 0); (1, AddProcessor (Mounted 2)); (1, Ask 2); (2, Ask 3)]
  /\ ns_replies nest_between 0 = Answered [("middle", ItemSnapshot [("m", Int 1)])]
  /\ ns_replies nest_between 2 = Answered [("middle", ItemSnapshot [("i", UInt 3); ("m", Int 1)])].
Proof.
  split; [|vm_compute; auto]. apply nest_run_later. eapply nl_step; [|apply ns_request].
  eapply nl_step; [eapply nl_step; [constructor | apply ns_request]|]. apply ns_add; [discriminate | intros j _; discriminate].
Qed.

(** ** The end of drivers *)

(** As long as its handle is mounted somewhere, or on the way there, a driver does not end. *)
Theorem c85_mounted_lives : forall net st i j, nreach net st -> mounts st i j -> ns_threads st j <> Ended.
Proof. exact mounted_runs. Qed.
Print Assumptions c85_mounted_lives.

(** Nobody waits in vain for a driver that has ended, and no request to one that has not is lost. *)
Theorem c85_end_answers : forall net st i b, nreach net st -> In (i, Ask b) (ns_log st) ->
  (ns_threads st i = Ended -> ns_replies st b <> Pending) /\ (ns_threads st i <> Ended -> ns_replies st b <> Dropped).
Proof.
  exact (fun net st i b HR Hb => conj (fun He => end_answers net st i b HR He Hb) (not_dropped net st i b HR Hb)).
Qed.
Print Assumptions c85_end_answers.

(** Drivers of which each one is mounted into one of them never end, even if no other
    handle is left. *)
Theorem c85_circle : forall net st0 st S i, tied st0 S -> nlater net st0 st -> S i -> ns_threads st i <> Ended /\ tied st S.
Proof. exact tied_later. Qed.
Print Assumptions c85_circle.

(** Drivers that are mounted without a cycle can all end once no handles are left
    outside of them, whatever they are doing. *)
Theorem c85_can_end : forall net st ws rank, nreach net st -> NoDup ws -> acyclic st ws rank ->
  (forall i j, mounts st i j -> In j ws -> In i ws) ->
  exists st', nlater net st st' /\ forall i, In i ws -> ns_threads st' i = Ended.
Proof. exact can_all_end. Qed.
Print Assumptions c85_can_end.

Example c85_circle_case : nreach nest_net nest_st /\ tied nest_st (fun i => i = 3 \/ i = 4).
Proof.
  split; [exact (proj1 nest_reach)|].
  intros i [-> | ->]; (split; [vm_compute; discriminate|]).
  - exists 4. split; [auto|]. apply (mo_add_snapshooter _ _ _ (Mounted 3)); vm_compute; auto.
  - exists 3. split; [auto|]. apply (mo_add_processor _ _ _ (Mounted 4)); vm_compute; auto.
Qed.

Example c85_can_end_case : nreach nest_net nest_between /\ acyclic nest_between [1; 2] (fun i => 2 - i)
  /\ (forall i j, mounts nest_between i j -> In j [1; 2] -> In i [1; 2])
  /\ ns_threads (ended (ended nest_between 1) 2) 2 = Ended /\ handles_of (ended nest_between 1) 1 = [].
Proof.
  split; [exact (proj1 c85_mounted_in_time_case)|].
  assert (Hm : forall i j, mounts nest_between i j -> i = 1 /\ j = 2).
  { intros [|[|[|i]]] j Hm; destruct Hm as [p Hp Hj|p Hp Hj|p Hp Hj|p Hp Hj]; vm_compute in Hp; nest_cases; vm_compute in Hj; nest_cases; auto. }
  split; [intros i j _ H; destruct (Hm i j H) as [-> ->]; cbn; auto|].
  split; [intros i j H _; destruct (Hm i j H) as [-> ->]; cbn; auto|].
  vm_compute. auto.
Qed.
