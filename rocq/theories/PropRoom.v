(** C91. *)
From Coq Require Import ZArith Bool String List Lia.
From Verif Require Import Base SpecRun ModelObservation ModelLabelFilter ModelSnapshot ModelCounter ModelBuckets
  ModelGauge ModelMeter ModelHistogram ModelSwitches ModelInstrument ModelTree SpecTree SpecSafe SpecRoom
  SafeProofs RoomProofs RoomTreeProofs Toy PropSafe.
Import ListNotations.
Open Scope string_scope.
Open Scope list_scope.
Open Scope Z_scope.

(** One more update of an instrument that has had [n] of them. *)
Theorem c91_update : forall X k lo hi V n (i : instrument X) u,
  1 <= V <= i64_max -> manageable k lo hi 0 -> parts_calm (X := X) k lo hi V ->
  0 <= n -> (n + 1) * (n + 1) * V <= i64_max -> fits V u -> calm k lo hi V n i ->
  safe k lo hi (instrument_update i u) (fun r => calm k lo hi V (n + 1) (fst r) /\ 0 <= snd r <= V).
Proof. intros X k lo hi V n i u H1 H2 H3. exact (room_update k lo hi V H1 H2 H3 n i u). Qed.
Print Assumptions c91_update.

(** A snapshot of an instrument. *)
Theorem c91_snapshot : forall X k lo hi V n (i : instrument X) de into,
  1 <= V <= i64_max -> manageable k lo hi 0 -> hi - lo <= u64_max -> parts_calm (X := X) k lo hi V ->
  0 <= n -> n * n * V <= i64_max -> calm k lo hi V n i ->
  safe k lo hi (instrument_put i de into) (fun r => calm k lo hi V n (fst r)).
Proof. intros X k lo hi V n i de into H1 H2 H3 H4. exact (room_put k lo hi V H1 H2 H3 H4 n i de into). Qed.
Print Assumptions c91_snapshot.

(** The life of anything that handles observations, with any number of snapshots
    in between, in a build with or without overflow checks. *)
Theorem c91_life : forall X k lo hi V (h : handler X) l,
  1 <= V <= i64_max -> manageable k lo hi 0 -> hi - lo <= u64_max -> parts_calm (X := X) k lo hi V ->
  observes l * observes l * V <= i64_max -> Z.of_nat (length (handler_leaves h)) * V <= u64_max ->
  Forall (event_fits V) l -> Forall (leaf_calm k lo hi V 0) (handler_leaves h) ->
  safe k lo hi (live h l) (fun h' => Forall (leaf_calm k lo hi V (observes l)) (handler_leaves h')).
Proof.
  intros X k lo hi V h l H1 H2 H3 H4 H5 H6 H7 H8.
  exact (safe_weak _ _ _ _ _ _ _ (life_room k lo hi V H1 H2 H3 H4 l 0 h ltac:(lia) H5 H6 H7 H8) (fun h' G => proj1 G)).
Qed.
Print Assumptions c91_life.

(** New instruments have room. *)
Theorem c91_new : forall X k lo hi V name,
  calm (X := X) k lo hi V 0 (ICounter (counter_new name))
  /\ calm (X := X) k lo hi V 0 (IGauge (gauge_new name))
  /\ (forall s, safe k lo hi (gauge_set_tracking (gauge_new name) s) (fun g => calm (X := X) k lo hi V 0 (IGauge g)))
  /\ (manageable k lo hi (5 * nanos_per_sec) -> forall al,
        safe k lo hi (meter_new al name) (fun m => calm (X := X) k lo hi V 0 (IMeter m))
        /\ safe k lo hi (value_meter_new al name) (fun m => calm (X := X) k lo hi V 0 (IValueMeter m))).
Proof.
  intros X k lo hi V name. split; [apply new_counter_calm|]. split; [apply new_gauge_calm|]. split; [apply new_tracking_calm|].
  intros H al. split; [apply new_meter_calm, H | apply new_value_meter_calm, H].
Qed.
Print Assumptions c91_new.

(** ** Cases *)

Lemma toy_calm : forall k lo hi V, 2 <= V -> parts_calm (X := toy) k lo hi V.
Proof.
  intros k lo hi V H. constructor; [apply toy_safe| |]; intros; apply safe_ret; cbn [snd]; lia.
Qed.

(** A panel with a tracking gauge, a counter, a staircase timer and a user's handler. *)
Definition tracked : gauge :=
  Gauge "gauge" no_descr None (Some (Buckets (repeat bucket_default 3) 100 2)) time_unit_default false.
Definition roomy_panel : handler toy :=
  HPanel (Panel (PanelData (AcceptAll : label_filter (lab toy)) (Some "roomy") no_descr 0 None true)
    (Slots (Some (adapter_new (counter_new "count"))) (Some (ga_new tracked)) None None) []
    [HInstrument (adapter_accept (AcceptAll : label_filter (lab toy)) (IStaircase (staircase_new "timer")));
     HUser (0 : user_handler toy)] []).

Definition room_start : Z := 100 * nanos_per_sec.

Lemma roomy_calm : forall V, 1 <= V -> Forall (leaf_calm debug room_start room_start V 0) (handler_leaves roomy_panel).
Proof.
  intros V HV.
  assert (B : bucket_calm V 0 bucket_default) by (unfold bucket_calm; cbn; lia).
  repeat (constructor; [first [exact I | split; [|intros lb u Hu; exact Hu]]|]); [..|constructor].
  - split; [split; [constructor | exact I]|]. cbn. lia.
  - split; [split; [constructor | cbn; lia]|]. split; [exact I|]. cbn [tracked g_tracking b_buckets repeat].
    split; [repeat (apply Forall_cons; [exact B|]); apply Forall_nil | cbn; lia].
  - split; [split; [repeat constructor; vm_compute; discriminate | exact I] | exact I].
Qed.

(** A million observations of values up to four million, and any number of snapshots. *)
Example c91_life_case : forall l, observes l <= 2 ^ 20 -> Forall (event_fits (X := toy) (2 ^ 22)) l ->
  safe debug room_start room_start (live roomy_panel l) (fun _ => True).
Proof.
  intros l Hl Hf. eapply safe_weak; [apply (c91_life toy debug room_start room_start (2 ^ 22))|intros a _; exact I].
  - lia.
  - vm_compute. split; discriminate.
  - lia.
  - apply toy_calm. lia.
  - pose proof (observes_nonneg l) as H0.
    assert (observes l * observes l <= 2 ^ 20 * 2 ^ 20) by (apply Z.mul_le_mono_nonneg; lia). lia.
  - vm_compute. discriminate.
  - exact Hf.
  - apply roomy_calm. lia.
Qed.

Definition big (v : Z) : event toy := Observes (ObservedOneValue la (SignedInteger v) 1).

(** Such a life, in a build that checks. *)
Example c91_life_run :
  match live roomy_panel [big 4000000; Snaps true []; big 3; Snaps false []] debug (frozen room_start) with
  | Ok (HPanel (Panel _ sl _ _ _)) _ =>
      option_map (fun a => c_count (ad_instrument a)) (sl_counter sl) = Some 2
      /\ option_map (fun a => g_value (ga_gauge a)) (sl_gauge sl) = Some (Some 3)
  | _ => False
  end.
Proof. vm_compute. split; reflexivity. Qed.

Example c91_update_case :
  calm (X := toy) debug 0 0 5 3 (ICounter (Counter "c" no_descr 15))
  /\ fits 5 (Observations 5 1)
  /\ counter_update (Counter "c" no_descr 15) (Observations 5 1) debug (frozen 0)
     = Ok (Counter "c" no_descr 20, 1) (frozen 0).
Proof. split; [split; [split; [constructor | exact I]|]; cbn; lia|]. split; [cbn; lia | reflexivity]. Qed.

(** The room is needed: two values that fit into 64 bits are too many for a
    tracking gauge. *)
Theorem c91_any_numbers_refuted : exists (h : handler toy) l,
  Forall (leaf_calm debug room_start room_start (2 ^ 62) 0) (handler_leaves h)
  /\ Forall (event_fits (2 ^ 62)) l
  /\ live h l debug (frozen room_start) = Panic
  /\ exists h' c', live h l release (frozen room_start) = Ok h' c'.
Proof.
  exists roomy_panel, [big (2 ^ 62); big (2 ^ 62)]. split; [apply roomy_calm; lia|]. split.
  - repeat constructor; intros z E; injection E as <-; lia.
  - split; [vm_compute; reflexivity|]. eexists. eexists. vm_compute. reflexivity.
Qed.
Print Assumptions c91_any_numbers_refuted.
