(** C29, C30, C31: components that hide their values when inactive. *)
From Coq Require Import ZArith Bool String List Lia.
From Verif Require Import Base SpecRun ModelObservation ModelLabelFilter ModelSnapshot ModelCounter
  ModelGauge ModelHistogram ModelSwitches ModelInstrument ModelTree ModelChannel ModelProcessor SpecWriting
  SpecClock SpecActivity ActivityProofs WorldClockProofs Toy.
Import ListNotations.
Open Scope string_scope.
Open Scope list_scope.
Open Scope Z_scope.

(** ** C29 *)

(** A panel never notes when it handled an observation: a counter for every
    label, the limit is 10; an observation is counted at time 20 and at the very
    same time the panel claims to be inactive and hides the count. *)
Theorem c29_panel_hides_fresh_values_refuted : exists (p0 p1 p : panel toy) (limit : Z),
  at_clock debug (frozen 0) (panel_new AcceptAll) = Some p0
  /\ p1 = panel_set_inactivity_limit (panel_add_counter p0 (adapter_new (counter_new "count"))) limit
  /\ panel_accepts_label p1 la = true
  /\ run_timed panel_observe debug p1 [(frozen 20, ObservedOne la 20)] = Some p
  /\ at_clock debug (frozen 20) (panel_put p false []) = Some (p, shown_inactive)
  /\ 0 < limit.
Proof.
  eexists _, _, _, 10. split; [reflexivity|]. split; [reflexivity|]. repeat split; reflexivity.
Qed.
Print Assumptions c29_panel_hides_fresh_values_refuted.

(** What does hold: the limit counts from the creation ([pd_last_update] is set
    by [panel_new] and never again), whatever is observed meanwhile. *)
Theorem c29_panel_created : forall X (f : label_filter (lab X)) k c p c',
  panel_new f k c = Ok p c' -> pd_last_update (p_data p) = c O.
Proof. exact @panel_new_time. Qed.
Print Assumptions c29_panel_created.

Theorem c29_panel_hidden : forall X k h (p0 p : panel X) limit de into c,
  run_timed panel_observe k p0 h = Some p ->
  pd_limit (p_data p0) = Some limit -> pd_show_activity (p_data p0) = true ->
  limit < c O - pd_last_update (p_data p0) ->
  panel_put p de into k c
  = Ok (p, inactive_fields de (panel_name p) (pd_descr (p_data p0)) into) (clock_tail c).
Proof. exact @panel_hidden_after. Qed.
Print Assumptions c29_panel_hidden.

Theorem c29_panel_shown : forall X, parts_write X -> forall k h (p0 p : panel X) limit into c,
  run_timed panel_observe k p0 h = Some p ->
  pd_limit (p_data p0) = Some limit -> pd_show_activity (p_data p0) = true ->
  0 <= limit -> c O - pd_last_update (p_data p0) <= limit ->
  panel_put p false into k c
  = match panel_put (panel_bare p) false [] k (clock_tail c) with
    | Ok (q, values) c' => Ok (panel_like p q, placed (panel_name p) into (shown_active ++ values)) c'
    | Panic => Panic
    | NoFuel => NoFuel
    end.
Proof. exact @panel_shown_after. Qed.
Print Assumptions c29_panel_shown.

Definition limited_panel : panel toy :=
  Panel (PanelData AcceptAll (Some "p") (Descr (Some "t") None) 5 (Some 10) true)
    (Slots (Some (adapter_new (counter_new "count"))) None None None) [] [] [].

Example c29_case : exists p,
  run_timed panel_observe debug limited_panel [(frozen 7, ObservedOne la 7); (frozen 14, ObservedOne lb 3)] = Some p
  /\ at_clock debug (frozen 15) (panel_put p false [])
     = Some (p, [("p", ItemSnapshot (shown_active ++ [("count", UInt 2)]))])
  /\ at_clock debug (frozen 16) (panel_put p true [])
     = Some (p, [("p", ItemSnapshot (("_title", Text "t") :: shown_inactive))]).
Proof. eexists. repeat split; reflexivity. Qed.

(** ** C30 *)

(** [c1] is the clock when the last observation arrived, [c] the clock of the query. *)
Theorem c30_cockpit_hidden : forall X k h c1 o (p0 p : cockpit X) limit de into c,
  run_timed cockpit_observe k p0 (h ++ [(c1, o)]) = Some p ->
  cd_limit (c_data p0) = Some limit -> cd_show_activity (c_data p0) = true ->
  limit < c O - c1 O ->
  cockpit_put p de into k c
  = Ok (p, inactive_fields de (cockpit_name p0) (cd_descr (c_data p0)) into) (clock_tail c).
Proof. exact @cockpit_hidden_after. Qed.
Print Assumptions c30_cockpit_hidden.

(** With descriptions the same values plus texts are written, see [c43_trees]. *)
Theorem c30_cockpit_shown : forall X, parts_write X -> forall k h c1 o (p0 p : cockpit X) limit into c,
  run_timed cockpit_observe k p0 (h ++ [(c1, o)]) = Some p ->
  cd_limit (c_data p0) = Some limit -> cd_show_activity (c_data p0) = true ->
  0 <= limit -> c O - c1 O <= limit ->
  cockpit_put p false into k c
  = match cockpit_put (cockpit_bare p) false [] k (clock_tail c) with
    | Ok (q, values) c' => Ok (cockpit_like p q, placed (cockpit_name p0) into (shown_active ++ values)) c'
    | Panic => Panic
    | NoFuel => NoFuel
    end.
Proof. exact @cockpit_shown_after. Qed.
Print Assumptions c30_cockpit_shown.

(** A cockpit that never handled an observation counts from its creation. *)
Theorem c30_new_cockpit : forall X (p : cockpit X) k c c',
  cockpit_default k c = Ok p c' -> cd_last_activity (c_data p) = c O.
Proof. exact @cockpit_new_time. Qed.
Print Assumptions c30_new_cockpit.

Definition limited_cockpit : cockpit toy :=
  Cockpit (CockpitData None no_descr 0 (Some 10) true) [toy_inner] [HUser (5 : user_handler toy)] [].

Example c30_cockpit_case : exists p,
  run_timed cockpit_observe debug limited_cockpit
    ([(frozen 7, ObservedOne lb 7)] ++ [(frozen 14, ObservedOne lc 3)]) = Some p
  /\ at_clock debug (frozen 24) (cockpit_put p false [("x", Int 1)])
     = Some (p, [("x", Int 1); ("_inactive", Boolean false); ("_active", Boolean true);
                 ("inner_count", UInt 1); ("user_handler", Int 7)])
  /\ at_clock debug (frozen 25) (cockpit_put p false [("x", Int 1)])
     = Some (p, [("x", Int 1); ("_inactive", Boolean true); ("_active", Boolean false)]).
Proof. eexists. repeat split; reflexivity. Qed.

(** A history of collections; [last] is the time of the last one in which a
    message was processed or dropped. *)
Theorem c30_processor_hidden : forall X Y, parts_tick X -> forall k (t0 : tele X) h t last limit de into c,
  tele_history (Y := Y) k t0 h t -> last_active (tp_last_activity t0) h last ->
  tp_limit t0 = Some limit -> tp_show_activity t0 = true -> limit < c O - last ->
  tele_put t de into k c = Ok (t, inactive_fields de (tp_name t0) (tp_descr t0) into) (clock_tail c).
Proof. exact @tele_hidden_after. Qed.
Print Assumptions c30_processor_hidden.

Theorem c30_processor_shown : forall X Y, parts_tick X -> parts_write X ->
  forall k (t0 : tele X) h t last limit into c,
  tele_history (Y := Y) k t0 h t -> last_active (tp_last_activity t0) h last ->
  tp_limit t0 = Some limit -> tp_show_activity t0 = true -> 0 <= limit -> c O - last <= limit ->
  tele_put t false into k c
  = match tele_put (tele_bare t) false [] k (clock_tail c) with
    | Ok (q, values) c' => Ok (tele_like t q, placed (tp_name t0) into (shown_active ++ values)) c'
    | Panic => Panic
    | NoFuel => NoFuel
    end.
Proof. exact @tele_shown_after. Qed.
Print Assumptions c30_processor_shown.

Theorem c30_mount_hidden : forall X Y, parts_tick X -> processors_tick Y ->
  forall k (m0 : mount X Y) h m last limit de into c,
  mount_history k m0 h m -> last_active (md_last_activity (m_data m0)) h last ->
  md_limit (m_data m0) = Some limit -> limit < c O - last ->
  mount_put m de into k c
  = Ok (m, inactive_fields de (md_name (m_data m0)) (md_descr (m_data m0)) into) (clock_tail c).
Proof. exact @mount_hidden_after. Qed.
Print Assumptions c30_mount_hidden.

Theorem c30_mount_shown : forall X Y, parts_tick X -> processors_tick Y -> parts_write X ->
  (forall u, writes (user_proc_put Y u)) -> (forall h, writes (driver_put (Y := Y) h)) ->
  forall k (m0 : mount X Y) h m last limit into c,
  mount_history k m0 h m -> last_active (md_last_activity (m_data m0)) h last ->
  md_limit (m_data m0) = Some limit -> 0 <= limit -> c O - last <= limit ->
  mount_put m false into k c
  = match mount_put (mount_bare m) false [] k (clock_tail c) with
    | Ok (q, values) c' => Ok (mount_like m q, placed (md_name (m_data m0)) into (shown_active ++ values)) c'
    | Panic => Panic
    | NoFuel => NoFuel
    end.
Proof. exact @mount_shown_after. Qed.
Print Assumptions c30_mount_shown.

(** Two messages are queued, the first collection (at time 20) drops an
    observation, the second one finds the queue empty. *)
Definition limited_tele : tele toy :=
  Tele (Some "proc") no_descr [limited_cockpit] [] 0 [] 3 (Some 10) true false.

Definition limited_world (t : Z) (q : list (message toy)) : world toy toyp :=
  World (frozen t) (fun _ => Chan None q [] 1 true q []) (fun _ => chan_new None) (fun _ => []).

Example c30_processor_case : exists t,
  tele_history (Y := toyp) debug limited_tele [Some 20; None] t
  /\ last_active 3 [Some 20; None] 20
  /\ at_clock debug (frozen 31) (tele_put t false []) = Some (t, [("proc", ItemSnapshot shown_inactive)])
  /\ at_clock debug (frozen 30) (tele_put t false [])
     = Some (t, [("proc", ItemSnapshot (shown_active ++ shown_inactive))]).
Proof.
  eexists. split; [|split; [|split]].
  - eapply (th_active debug limited_tele 1 DropAll 20
              (limited_world 20 [MObservation (ObservedOne la 20)])).
    + intros i. reflexivity.
    + vm_compute. reflexivity.
    + right. reflexivity.
    + eapply (th_idle debug _ 1 DropAll (limited_world 25 [])).
      * vm_compute. reflexivity.
      * intros [H|H]; discriminate H.
      * apply th_nil.
  - apply (la_at 3 [] 20 [None]). repeat constructor.
  - reflexivity.
  - reflexivity.
Qed.

Example c30_mount_case : exists m : mount toy toyp,
  mount_history (Y := toyp) debug
    (Mount (MountData (Some "m") no_descr 3 (Some 10)) [PUser (0 : user_proc toyp)] []) [Some 20] m
  /\ at_clock debug (frozen 31) (mount_put m false []) = Some (m, [("m", ItemSnapshot shown_inactive)])
  /\ at_clock debug (frozen 30) (mount_put m false [])
     = Some (m, [("m", ItemSnapshot (shown_active ++ [("user_processor", Int 1)]))]).
Proof.
  eexists. split; [|split].
  - eapply (mh_active debug _ 5 100 ProcessAll 20 (limited_world 20 [])).
    + intros i. reflexivity.
    + vm_compute. reflexivity.
    + left. reflexivity.
    + apply mh_nil.
  - reflexivity.
  - reflexivity.
Qed.

(** ** C31 *)

(** Without the activity state shown, the limit of a panel, a cockpit or a
    processor has no effect at all. *)
Theorem c31_panel_ignores_limit : forall X (p : panel X) de into k c, pd_show_activity (p_data p) = false ->
  panel_put p de into k c
  = match panel_put (panel_unlimited p) de into k c with
    | Ok (q, s) c' => Ok (panel_like p q, s) c'
    | Panic => Panic
    | NoFuel => NoFuel
    end.
Proof. exact @panel_not_shown. Qed.
Print Assumptions c31_panel_ignores_limit.

Theorem c31_cockpit_ignores_limit : forall X (p : cockpit X) de into k c, cd_show_activity (c_data p) = false ->
  cockpit_put p de into k c
  = match cockpit_put (cockpit_unlimited p) de into k c with
    | Ok (q, s) c' => Ok (cockpit_like p q, s) c'
    | Panic => Panic
    | NoFuel => NoFuel
    end.
Proof. exact @cockpit_not_shown. Qed.
Print Assumptions c31_cockpit_ignores_limit.

Theorem c31_processor_ignores_limit : forall X (t : tele X) de into k c, tp_show_activity t = false ->
  tele_put t de into k c
  = match tele_put (tele_unlimited t) de into k c with
    | Ok (q, s) c' => Ok (tele_like t q, s) c'
    | Panic => Panic
    | NoFuel => NoFuel
    end.
Proof. exact @tele_not_shown. Qed.
Print Assumptions c31_processor_ignores_limit.

(** A cockpit whose last activity is 1000 ago although the limit is 10 shows its values. *)
Theorem c31_limit_without_state_refuted : exists (p : cockpit toy),
  p = cockpit_set_inactivity_limit (cockpit_set_show_activity_state toy_cockpit false) 10
  /\ cd_last_activity (c_data p) = 0
  /\ exists s v, at_clock debug (frozen 1000) (cockpit_put p false []) = Some (p, [("cockpit", ItemSnapshot s)])
  /\ lookup "inner_count" s = Some v.
Proof.
  eexists. split; [reflexivity|]. split; [reflexivity|]. eexists _, _. split; reflexivity.
Qed.
Print Assumptions c31_limit_without_state_refuted.

(** A histogram honours its limit with and without the state shown. (A mount
    always shows it, see [c30_mount_hidden].) *)
Theorem c31_histogram_hidden : forall H (h : histogram H) limit into k c,
  h_max_inactivity h = Some limit -> limit <= c O - h_last_update h ->
  histogram_put h false into k c
  = Ok (into ++ [(h_name h, ItemSnapshot (if h_show_activity_state h then shown_inactive else []))]) (clock_tail c).
Proof. exact @histogram_hidden. Qed.
Print Assumptions c31_histogram_hidden.

Example c31_histogram_case :
  let h := Histogram (H := toy_histo) "h" no_descr ([3; 4] : histo toy_histo) 0 (Some 10) true false Nanoseconds in
  at_clock debug (frozen 10) (histogram_put h false []) = Some [("h", ItemSnapshot [])]
  /\ exists s, at_clock debug (frozen 9) (histogram_put h false []) = Some [("h", ItemSnapshot s)]
               /\ lookup "count" s = Some (UInt 2).
Proof. split; [reflexivity|]. eexists. split; reflexivity. Qed.

Example c31_case :
  let p := cockpit_set_show_activity_state (cockpit_set_inactivity_limit toy_cockpit 10) false in
  cd_show_activity (c_data p) = false /\ cockpit_unlimited p <> p.
Proof. split; [reflexivity | discriminate]. Qed.
