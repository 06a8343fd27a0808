(** C32, C33, C34: names, adding and removing components, strategies. *)
From Coq Require Import ZArith Bool String List Lia.
From Verif Require Import Base SpecRun ModelObservation ModelLabelFilter ModelSnapshot ModelCounter
  ModelGauge ModelHistogram ModelSwitches ModelInstrument ModelTree ModelChannel ModelProcessor
  SpecNames NamesProofs Toy.
Import ListNotations.
Open Scope string_scope.
Open Scope list_scope.
Open Scope Z_scope.

(** ** C32 *)

(** Every history of a cockpit, observations included. *)
Theorem c32_panel_names_unique : forall X k h (c c' : cockpit X),
  run_timed cockpit_step k c h = Some c' -> cockpit_unique c -> cockpit_unique c'.
Proof. exact @cockpit_steps_unique. Qed.
Print Assumptions c32_panel_names_unique.

(** Every history of a processor; the cockpits that are added must be fine themselves. *)
Theorem c32_cockpit_names_unique : forall X k h (t t' : tele X),
  run_timed tele_step k t h = Some t' -> Forall (fun e => op_fine (snd e)) h ->
  tele_unique t -> tele_unique t'.
Proof. exact @tele_steps_unique. Qed.
Print Assumptions c32_cockpit_names_unique.

(** The first one stays, with everything around it. *)
Theorem c32_first_panel_stays : forall X (c : cockpit X) p n,
  panel_name p = Some n -> In n (names_of panel_name (c_panels c)) -> cockpit_add_panel c p = c.
Proof. exact @add_panel_known. Qed.
Print Assumptions c32_first_panel_stays.

Theorem c32_first_cockpit_stays : forall X (t : tele X) c n,
  cockpit_name c = Some n -> In n (names_of cockpit_name (tp_cockpits t)) -> tele_add_cockpit t c = t.
Proof. exact @add_cockpit_known. Qed.
Print Assumptions c32_first_cockpit_stays.

(** Everything else is appended. *)
Theorem c32_new_panel_added : forall X (c : cockpit X) p,
  (forall n, panel_name p = Some n -> ~ In n (names_of panel_name (c_panels c))) ->
  cockpit_add_panel c p = Cockpit (c_data c) (c_panels c ++ [p]) (c_handlers c) (c_snapshooters c).
Proof. exact @add_panel_new. Qed.
Print Assumptions c32_new_panel_added.

Theorem c32_new_cockpit_added : forall X (t : tele X) c,
  (forall n, cockpit_name c = Some n -> ~ In n (names_of cockpit_name (tp_cockpits t))) ->
  tele_add_cockpit t c = tele_with t (tp_cockpits t ++ [c]) (tp_handlers t).
Proof. exact @add_cockpit_new. Qed.
Print Assumptions c32_new_cockpit_added.

(** A second panel "panel", an unnamed one twice, and the removal of "panel";
    by message a second cockpit "cockpit" is refused, but a panel is added to the first. *)
Definition other_panel : panel toy :=
  Panel (PanelData AcceptAll (Some "panel") no_descr 0 None true) (Slots None None None None) [] [] [].
Definition third_panel : panel toy :=
  Panel (PanelData AcceptAll (Some "third") no_descr 0 None true) (Slots None None None None) [] [] [].
Definition other_cockpit : cockpit toy :=
  Cockpit (CockpitData (Some "cockpit") no_descr 0 None true) [] [] [].
Definition named_tele : tele toy := Tele (Some "t") no_descr [toy_cockpit] [] 0 [] 0 None true false.

Example c32_case_panels :
  cockpit_unique toy_cockpit
  /\ option_map c_panels
       (run_timed cockpit_step debug toy_cockpit
          [(frozen 0, AddPanel other_panel); (frozen 1, AddPanel toy_inner); (frozen 2, AddPanel third_panel)])
     = Some [toy_panel; toy_inner; toy_inner; third_panel].
Proof.
  split; [|reflexivity]. unfold cockpit_unique. cbn. constructor; [intros [] | constructor].
Qed.

Example c32_case_cockpits :
  tele_unique named_tele
  /\ Forall (fun e => op_fine (snd e))
       [(frozen 0, AddCockpit other_cockpit);
        (frozen 0, TeleMessage DDropAll (MAddCockpit other_cockpit));
        (frozen 0, TeleMessage DDropAll (MAddPanelToCockpit "cockpit" third_panel))]
  /\ option_map (fun t => map c_panels (tp_cockpits t))
       (run_timed tele_step debug named_tele
          [(frozen 0, AddCockpit other_cockpit);
           (frozen 0, TeleMessage DDropAll (MAddCockpit other_cockpit));
           (frozen 0, TeleMessage DDropAll (MAddPanelToCockpit "cockpit" third_panel))])
     = Some [[toy_panel; toy_inner; third_panel]].
Proof.
  split; [|split; [|reflexivity]].
  - split; cbn; repeat constructor; intros [].
  - repeat constructor.
Qed.

(** ** C33 *)

Theorem c33_remove_panel : forall X (c : cockpit X) n,
  without (fun p => panel_name p = Some n) (c_panels c) (c_panels (cockpit_remove_panel c n))
  /\ c_data (cockpit_remove_panel c n) = c_data c
  /\ c_handlers (cockpit_remove_panel c n) = c_handlers c
  /\ c_snapshooters (cockpit_remove_panel c n) = c_snapshooters c.
Proof. exact @remove_panel_spec. Qed.
Print Assumptions c33_remove_panel.

Theorem c33_remove_cockpit : forall X (t : tele X) n, exists cs,
  tele_remove_cockpit t n = tele_with t cs (tp_handlers t)
  /\ without (fun c => cockpit_name c = Some n) (tp_cockpits t) cs.
Proof. exact @remove_cockpit_spec. Qed.
Print Assumptions c33_remove_cockpit.

Theorem c33_panel_added_again : forall X (c : cockpit X) p n, panel_name p = Some n ->
  c_panels (cockpit_add_panel (cockpit_remove_panel c n) p) = c_panels (cockpit_remove_panel c n) ++ [p].
Proof. exact @readd_panel. Qed.
Print Assumptions c33_panel_added_again.

Theorem c33_cockpit_added_again : forall X (t : tele X) c n, cockpit_name c = Some n ->
  tp_cockpits (tele_add_cockpit (tele_remove_cockpit t n) c) = tp_cockpits (tele_remove_cockpit t n) ++ [c].
Proof. exact @readd_cockpit. Qed.
Print Assumptions c33_cockpit_added_again.

(** By message the same happens. *)
Theorem c33_commands : forall X d (t : tele X) n,
  (forall c, commanded d t n (MAddCockpit c) (tele_add_cockpit t c))
  /\ (forall x, commanded d t n (MRemoveCockpit x) (tele_remove_cockpit t x))
  /\ (forall h, commanded d t n (MAddHandler h) (tele_with t (tp_cockpits t) (tp_handlers t ++ [h]))).
Proof. exact @commands. Qed.
Print Assumptions c33_commands.

Theorem c33_unknown_cockpit : forall X d (t : tele X) n x,
  ~ In x (names_of cockpit_name (tp_cockpits t)) ->
  commanded d t n (MRemoveCockpit x) t
  /\ (forall p, commanded d t n (MAddPanelToCockpit x p) t)
  /\ (forall p, commanded d t n (MRemovePanelFromCockpit x p) t).
Proof. exact @unknown_cockpit. Qed.
Print Assumptions c33_unknown_cockpit.

(** A command that names a cockpit changes this one only. *)
Theorem c33_known_cockpit : forall X d (t : tele X) n x a c b,
  tp_cockpits t = a ++ c :: b -> cockpit_name c = Some x -> ~ In x (names_of cockpit_name a) ->
  (forall p, commanded d t n (MAddPanelToCockpit x p)
               (tele_with t (a ++ cockpit_add_panel c p :: b) (tp_handlers t)))
  /\ (forall p, commanded d t n (MRemovePanelFromCockpit x p)
                  (tele_with t (a ++ cockpit_remove_panel c p :: b) (tp_handlers t))).
Proof. exact @known_cockpit. Qed.
Print Assumptions c33_known_cockpit.

Example c33_case : forall d,
  tp_cockpits named_tele = [] ++ toy_cockpit :: [] /\ cockpit_name toy_cockpit = Some "cockpit"
  /\ ~ In "other" (names_of cockpit_name (tp_cockpits named_tele))
  /\ c_panels (cockpit_remove_panel toy_cockpit "panel") = [toy_inner]
  /\ tele_message d named_tele (Counts 2 0 0) (MRemovePanelFromCockpit "cockpit" "panel") debug (frozen 0)
     = Ok (tele_with named_tele [cockpit_remove_panel toy_cockpit "panel"] [], Counts 3 0 0) (frozen 0).
Proof. intros d. repeat split; try reflexivity. intros [H|[]]. discriminate H. Qed.

(** ** C34 *)

(** [c O] is the time at which the collection starts. *)
Theorem c34_decision : forall X s k c d c' (o : observation (lab X)),
  strategy_decider s k c = Ok d c' -> should_be_processed d o = true <-> kept_by s (c O) o.
Proof. exact @decider_keeps. Qed.
Print Assumptions c34_decision.

(** An observation that is not kept changes nothing but the number of dropped ones. *)
Theorem c34_dropped : forall X s k0 c0 d c0' (t : tele X) n o k c,
  strategy_decider s k0 c0 = Ok d c0' -> ~ kept_by s (c0 O) o ->
  tele_message d t n (MObservation o) k c
  = match add_usize (ct_dropped n) 1 k c with
    | Ok dr c' => Ok (t, Counts (ct_processed n) dr (ct_updated n)) c'
    | Panic => Panic
    | NoFuel => NoFuel
    end.
Proof. exact @dropped_observation. Qed.
Print Assumptions c34_dropped.

(** One that is kept is handed to the processor's cockpits and handlers. *)
Theorem c34_kept : forall X s k0 c0 d c0' (t : tele X) n o k c,
  strategy_decider s k0 c0 = Ok d c0' -> kept_by s (c0 O) o ->
  tele_message d t n (MObservation o) k c
  = match tele_handle t o (ct_updated n) k c with
    | Ok (t', u) c1 =>
        match add_usize (ct_processed n) 1 k c1 with
        | Ok p c' => Ok (t', Counts p (ct_dropped n) u) c'
        | Panic => Panic
        | NoFuel => NoFuel
        end
    | Panic => Panic
    | NoFuel => NoFuel
    end.
Proof. exact @kept_observation. Qed.
Print Assumptions c34_kept.

Theorem c34_commands_never_dropped : forall X d (t : tele X) n m k c t' n' c',
  (forall o, m <> MObservation o) -> tele_message d t n m k c = Ok (t', n') c' ->
  ct_dropped n' = ct_dropped n /\ ct_updated n' = ct_updated n
  /\ add_usize (ct_processed n) 1 k c = Ok (ct_processed n') c'.
Proof. exact @commands_never_dropped. Qed.
Print Assumptions c34_commands_never_dropped.

Theorem c34_default_keeps_deltas : forall X start (o : observation (lab X)),
  delta_observation o -> kept_by strategy_default start o.
Proof. exact @default_keeps_deltas. Qed.
Print Assumptions c34_default_keeps_deltas.

(** A collection that starts at 100: exactly 40 old, 41 old, a delta. *)
Example c34_case : exists d,
  strategy_decider (DropOlderThan 40 false) debug (frozen 100) = Ok d (frozen 100)
  /\ map (fun o => should_be_processed d (o : observation (lab toy)))
       [ObservedOne la 60; ObservedOne la 59; ObservedOneValue la (ChangedBy 3) 59;
        ObservedOneValue la (SignedInteger 3) 59]
     = [true; false; true; false].
Proof. eexists. split; reflexivity. Qed.
