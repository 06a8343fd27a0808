(** C27: an observation with a foreign label leaves a panel untouched.
    C28: an accepted observation reaches every instrument exactly once. *)
From Coq Require Import ZArith Bool String List.
From Verif Require Import Base SpecRun ModelObservation ModelLabelFilter ModelGauge ModelInstrument
  ModelTree ModelProcessor ModelCounter ModelSwitches ModelSnapshot SpecTree TreeProofs Toy.
Import ListNotations.
Open Scope string_scope.
Open Scope list_scope.
Open Scope Z_scope.

(** Whatever is in the panel (user's handlers included): nothing is changed,
    nothing is reported, not even the clock is read. *)
Theorem c27_foreign_label_panel : forall X (p : panel X) o k c,
  accepts (lab_eqb X) (pd_filter (p_data p)) (obs_label o) = false ->
  panel_handle p o k c = Ok (p, 0) c.
Proof. exact @panel_deaf_eq. Qed.
Print Assumptions c27_foreign_label_panel.

Example c27_foreign_label_panel_case :
  panel_handle toy_panel (ObservedOne lc 5) debug (frozen 5) = Ok (toy_panel, 0) (frozen 5)
  /\ match panel_handle toy_panel (ObservedOne la 5) debug (frozen 5) with
     | Ok (p, n) _ => n = 4 /\ p <> toy_panel
     | _ => False
     end.
Proof. split; [reflexivity|]. split; [reflexivity|]. intros H. inversion H. Qed.

Theorem c27_foreign_label_adapter : forall X I upd (a : adapter X I) o k c,
  accepts (lab_eqb X) (ad_filter a) (obs_label o) = false ->
  adapter_handle upd a o k c = Ok (a, 0) c.
Proof. exact @adapter_deaf_eq. Qed.
Print Assumptions c27_foreign_label_adapter.

Example c27_foreign_label_adapter_case :
  adapter_handle (instrument_update (X := toy)) (adapter_accept (X := toy) (One la) (ICounter (X := toy) (counter_new "n")))
    (Observed lb 3 5) debug (frozen 5)
  = Ok (adapter_accept (X := toy) (One la) (ICounter (X := toy) (counter_new "n")), 0) (frozen 5).
Proof. reflexivity. Qed.

(** The same if no filter on the way to any instrument accepts the label (also
    through several levels). *)
Theorem c27_all_filters_closed : forall X (p : panel X) o k c,
  Forall (fun e => fst e = false) (panel_leaves (obs_label o) true p) ->
  panel_handle p o k c = Ok (p, 0) c.
Proof. exact (fun X p o => proj1 (@tree_quiet X o) p). Qed.
Print Assumptions c27_all_filters_closed.

Example c27_all_filters_closed_case :
  let p := Panel (PanelData (One la) None no_descr 0 None true) no_slots
             [toy_inner] [HInstrument (adapter_deaf (ICounter (counter_new "n")))] [] in
  Forall (fun e => fst e = false) (panel_leaves la true p)
  /\ List.length (panel_leaves la true p) = 2%nat.
Proof. split; [repeat constructor | reflexivity]. Qed.

(** Every instrument behind open filters is updated exactly once, the others
    not at all; the numbers they report add up to the number reported; nothing
    else of the tree changes. *)
Theorem c28_panel : forall X (p : panel X) o k c p' n c',
  panel_handle p o k c = Ok (p', n) c' ->
  exists ns,
    served k o c (panel_leaves (obs_label o) true p)
      (map snd (panel_leaves (obs_label o) true p')) ns c'
    /\ adds_up k 0 ns n /\ same_panel p p'.
Proof. exact (fun X p o => proj1 (@tree_dispatches X o) p). Qed.
Print Assumptions c28_panel.

Theorem c28_handler : forall X (h : handler X) o k c h' n c',
  handler_handle h o k c = Ok (h', n) c' ->
  exists ns,
    served k o c (handler_leaves (obs_label o) true h)
      (map snd (handler_leaves (obs_label o) true h')) ns c'
    /\ adds_up k 0 ns n /\ same_handler h h'.
Proof. exact (fun X h o => proj1 (proj2 (@tree_dispatches X o)) h). Qed.
Print Assumptions c28_handler.

Theorem c28_cockpit : forall X (q : cockpit X) o k c q' n c',
  cockpit_handle q o k c = Ok (q', n) c' ->
  exists ns,
    served k o c (cockpit_leaves (obs_label o) true q)
      (map snd (cockpit_leaves (obs_label o) true q')) ns c'
    /\ adds_up k 0 ns n /\ same_cockpit q q'.
Proof. exact (fun X q o => proj1 (proj2 (proj2 (@tree_dispatches X o))) q). Qed.
Print Assumptions c28_cockpit.

(** The cockpit has nine parts to serve, six of them for the label "a". *)
Example c28_cockpit_case :
  map fst (cockpit_leaves la true toy_cockpit)
  = [true; true; false; true; true; false; true; true; false]
  /\ match cockpit_handle toy_cockpit (ObservedOneValue la (BoolValue true) 5) debug (frozen 5) with
     | Ok (q, n) _ =>
         n = 7 /\ cd_last_activity (c_data q) = 5
         /\ map snd (cockpit_leaves la true q)
            = [LCockpit (CockpitData (Some "cockpit") (Descr (Some "cockpit title") None) 5 None true);
               LUser (6 : user_handler toy);
               LInstrument (ICounter (counter_new "inner_count")) None;
               LInstrument (ICounter (Counter "count" no_descr 1)) None;
               LGauge (ga_inc_dec_on (One la) (One lb)
                         (Gauge "gauge" no_descr (Some 1) None time_unit_default false));
               LInstrument (ICounter (counter_new "inner_count")) None;
               LInstrument (IFlag (Flag "flag" no_descr (Some true) None)) None;
               LUser (1 : user_handler toy);
               LInstrument (ICounter (counter_new "inner_count")) None]
     | _ => False
     end.
Proof. split; [reflexivity|]. split; [reflexivity|]. split; reflexivity. Qed.

(** A processor passes an observation to its cockpits and then its handlers. *)
Theorem c28_processor : forall X (t : tele X) o acc k c t' acc' c',
  tele_handle t o acc k c = Ok (t', acc') c' ->
  exists ns,
    served k o c (tele_leaves (obs_label o) t) (map snd (tele_leaves (obs_label o) t')) ns c'
    /\ adds_up k acc ns acc'
    /\ t' = tele_with t (tp_cockpits t') (tp_handlers t')
    /\ Forall2 same_cockpit (tp_cockpits t) (tp_cockpits t')
    /\ Forall2 same_handler (tp_handlers t) (tp_handlers t').
Proof. exact (fun X t o => @tele_dispatches X o t). Qed.
Print Assumptions c28_processor.

Example c28_processor_case :
  match tele_handle (Tele (Some "p") no_descr [toy_cockpit; toy_cockpit] [HUser (0 : user_handler toy)]
                       0 [] 0 None true false) (ObservedOne lb 7) 10 debug (frozen 7) with
  | Ok (t, n) _ => n = 30 /\ map fst (tele_leaves lb t) =
      [true; true; true; true; true; true; false; true; true;
       true; true; true; true; true; true; false; true; true; true]
  | _ => False
  end.
Proof. split; reflexivity. Qed.
