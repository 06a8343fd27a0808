(** C74, C75: building trees of components, directly and through a transmitter. *)
From Coq Require Import ZArith Bool String List Lia.
From Verif Require Import Base SpecRun SpecClock SpecWriting ModelObservation ModelLabelFilter ModelSnapshot ModelCounter ModelGauge ModelMeter
  ModelHistogram ModelInstrument ModelTree ModelChannel ModelProcessor ModelTransmitter SpecNames SpecTree SpecSite SpecBuild BuildProofs
  Toy PropFollow PropWriting PropNames.
Import ListNotations.
Open Scope string_scope.
Open Scope list_scope.
Open Scope Z_scope.

(** ** C74 *)

(** Whatever is added to a panel is there afterwards, at an address that was
    free, and reached by the labels that the panel and it itself accept; nothing
    else changes. A second counter, gauge, meter or histogram is as good as the
    first one. *)
Theorem c74_panel : forall X (p : panel X),
  (forall a, panel_gains p (handler_site (HInstrument (Adapter (ad_filter a) (ICounter (ad_instrument a)) (ad_modify a)))) (panel_add_counter p a))
  /\ (forall a, panel_gains p (handler_site (HGauge a)) (panel_add_gauge p a))
  /\ (forall a, panel_gains p (handler_site (HInstrument (Adapter (ad_filter a) (IMeter (ad_instrument a)) (ad_modify a)))) (panel_add_meter p a))
  /\ (forall a, panel_gains p (handler_site (HInstrument (Adapter (ad_filter a) (IHistogram (ad_instrument a)) (ad_modify a)))) (panel_add_histogram p a))
  /\ (forall i, panel_gains p (handler_site (HInstrument (Adapter AcceptAll i None))) (panel_add_instrument p i))
  /\ (forall h, panel_gains p (handler_site h) (panel_add_handler p h))
  /\ (forall q, panel_gains p (panel_site q) (panel_add_panel p q)).
Proof.
  exact (fun X p => conj (panel_counter_gained p) (conj (panel_gauge_gained p) (conj (panel_meter_gained p) (conj (panel_histogram_gained p)
    (conj (fun i => panel_handler_gained p _) (conj (panel_handler_gained p) (panel_panel_gained p))))))).
Qed.
Print Assumptions c74_panel.

(** The same for cockpits and processors; panels and cockpits need a new name or none. *)
Theorem c74_cockpit : forall X (c : cockpit X),
  (forall h, cockpit_gains c (handler_site h) (cockpit_add_handler c h))
  /\ (forall p, (forall n, panel_name p = Some n -> ~ In n (names_of panel_name (c_panels c))) ->
       cockpit_gains c (panel_site p) (cockpit_add_panel c p)).
Proof. exact (fun X c => conj (cockpit_handler_gained c) (cockpit_panel_gained c)). Qed.
Print Assumptions c74_cockpit.

Theorem c74_processor : forall X (t : tele X),
  (forall h, tele_gains t (handler_site h) (tele_add_handler t h))
  /\ (forall c, (forall n, cockpit_name c = Some n -> ~ In n (names_of cockpit_name (tp_cockpits t))) ->
       tele_gains t (cockpit_site c) (tele_add_cockpit t c)).
Proof. exact (fun X t => conj (tele_handler_gained t) (tele_cockpit_gained t)). Qed.
Print Assumptions c74_processor.

(** Snapshooters: they are added without changing anything else ... *)
Theorem c74_snapshooters : forall X (s : snapshooter X),
  (forall p : panel X, one_more (p_snapshooters p) (p_snapshooters (panel_add_snapshooter p s)) s
     /\ p_data (panel_add_snapshooter p s) = p_data p
     /\ exists at0, gains (panel_site p) (in_panel p at0 (snapshooter_site s)) (panel_site (panel_add_snapshooter p s)))
  /\ (forall c : cockpit X, one_more (c_snapshooters c) (c_snapshooters (cockpit_add_snapshooter c s)) s
     /\ c_data (cockpit_add_snapshooter c s) = c_data c
     /\ exists at0, gains (cockpit_site c) (in_cockpit c at0 (snapshooter_site s)) (cockpit_site (cockpit_add_snapshooter c s)))
  /\ (forall t : tele X, one_more (tp_snapshooters t) (tp_snapshooters (tele_add_snapshooter t s)) s
     /\ tp_name (tele_add_snapshooter t s) = tp_name t /\ tp_receiver (tele_add_snapshooter t s) = tp_receiver t
     /\ tele_guard (tele_add_snapshooter t s) = tele_guard t
     /\ exists at0, gains (tele_site t) (in_tele t at0 (snapshooter_site s)) (tele_site (tele_add_snapshooter t s))).
Proof. exact @snapshooters_gained. Qed.
Print Assumptions c74_snapshooters.

(** ... and each one is in the snapshots, below the name of its component unless
    that is inactive. *)
Theorem c74_snapshooters_shown : forall X, parts_tick X -> parts_append X ->
  (forall (p : panel X) j s, nth_error (p_snapshooters p) j = Some s ->
    forall de into k c p' out c', panel_put p de into k c = Ok (p', out) c' ->
    exists added s', out = into ++ added /\ nth_error (p_snapshooters p') j = Some s'
      /\ shoots k c (panel_name p) (panel_guard (p_data p)) s de added s' c')
  /\ (forall (p : cockpit X) j s, nth_error (c_snapshooters p) j = Some s ->
    forall de into k c p' out c', cockpit_put p de into k c = Ok (p', out) c' ->
    exists added s', out = into ++ added /\ nth_error (c_snapshooters p') j = Some s'
      /\ shoots k c (cockpit_name p) (cockpit_guard (c_data p)) s de added s' c')
  /\ (forall (p : tele X) j s, nth_error (tp_snapshooters p) j = Some s ->
    forall de into k c p' out c', tele_put p de into k c = Ok (p', out) c' ->
    exists added s', out = into ++ added /\ nth_error (tp_snapshooters p') j = Some s'
      /\ shoots k c (tp_name p) (tele_guard p) s de added s' c').
Proof. exact (fun X HX HA => conj (panel_shoots HX HA) (conj (cockpit_shoots HX HA) (tele_shoots HX HA))). Qed.
Print Assumptions c74_snapshooters_shown.

(** A panel with two counters, two gauges and a panel; an observation for "a" *)
Definition built_panel : M (panel toy) :=
  let* p := panel_named (Two la lb) "built" in
  let p := panel_add_counter p (adapter_new (counter_new "first")) in
  let p := panel_add_counter p (adapter_accept (One la) (counter_new "second")) in
  let p := panel_add_counter p (adapter_accept (One lb) (counter_new "third")) in
  let p := panel_add_gauge p (ga_inc_dec_on (One la) (One lb) (gauge_new "up")) in
  let p := panel_add_gauge p (ga_inc_dec_on (One lb) (One la) (gauge_new "down")) in
  ret (panel_add_snapshooter (panel_add_panel p toy_panel) (SConstant (ConstantValue "constant" no_descr (Int 7)))).
Example c74_case :
  match (let* p := built_panel in
         let* '(p, n) := panel_handle p (ObservedOne la 3) in
         let* '(_, s) := panel_put p false [] in
         ret (n, s)) debug (frozen 5) with
  | Ok (n, [(name, ItemSnapshot s)]) _ =>
      (name, filter (fun e => match snd e with ItemSnapshot _ | Boolean _ => false | _ => true end) s)
      = ("built", [("first", UInt 1); ("up", Int 1); ("constant", Int 7); ("second", UInt 1); ("third", UInt 0); ("down", Int (-1))])
      /\ n = 8
  | _ => False
  end.
Proof. vm_compute. split; reflexivity. Qed.

(** ** C75 *)

(** What is asked for with a transmitter happens to its processor when it receives
    the message: to the cockpits and handlers ... *)
Theorem c75_cockpits : forall X tx (t : tele X),
  (forall c, (forall n, cockpit_name c = Some n -> ~ In n (names_of cockpit_name (tp_cockpits t))) ->
     exists t', requests tx t (tx_add_cockpit tx c) t' /\ tele_gains t (cockpit_site c) t')
  /\ (forall c n, cockpit_name c = Some n -> In n (names_of cockpit_name (tp_cockpits t)) -> requests tx t (tx_add_cockpit tx c) t)
  /\ (forall n, exists t' cs, requests tx t (tx_remove_cockpit tx n) t' /\ other_cockpits t cs t'
        /\ without (fun c => cockpit_name c = Some n) (tp_cockpits t) cs)
  /\ (forall h, exists t', requests tx t (tx_add_handler tx h) t' /\ tele_gains t (handler_site h) t').
Proof. exact @cockpit_requests. Qed.
Print Assumptions c75_cockpits.

(** ... and to the panels of the first cockpit with the name. *)
Theorem c75_panels : forall X tx (t : tele X) n,
  (~ In n (names_of cockpit_name (tp_cockpits t)) ->
     (forall p, requests tx t (tx_add_panel_to_cockpit tx n p) t) /\ (forall m, requests tx t (tx_remove_panel_from_cockpit tx n m) t))
  /\ (forall a c b, tp_cockpits t = a ++ c :: b -> cockpit_name c = Some n -> ~ In n (names_of cockpit_name a) ->
       (forall p, (forall m, panel_name p = Some m -> ~ In m (names_of panel_name (c_panels c))) ->
          exists t' c', requests tx t (tx_add_panel_to_cockpit tx n p) t' /\ other_cockpits t (a ++ c' :: b) t' /\ cockpit_gains c (panel_site p) c')
       /\ (forall p m, panel_name p = Some m -> In m (names_of panel_name (c_panels c)) -> requests tx t (tx_add_panel_to_cockpit tx n p) t)
       /\ (forall m, exists t' c', requests tx t (tx_remove_panel_from_cockpit tx n m) t' /\ other_cockpits t (a ++ c' :: b) t'
             /\ without (fun p => panel_name p = Some m) (c_panels c) (c_panels c')
             /\ c_data c' = c_data c /\ c_handlers c' = c_handlers c /\ c_snapshooters c' = c_snapshooters c)).
Proof. exact @panel_requests. Qed.
Print Assumptions c75_panels.

(** Observations are sent as they are. *)
Theorem c75_observations : forall X tx (l : lab X) n v t,
  sends tx (observed tx l n t) (MObservation (X := X) (Observed l n t))
  /\ sends tx (observed_one tx l t) (MObservation (X := X) (ObservedOne l t))
  /\ sends tx (observed_one_value tx l v t) (MObservation (X := X) (ObservedOneValue l v t))
  /\ (forall d k c, 0 <= d <= u64_max -> exists a, observed_duration tx l d t k c = Ok a c
       /\ sends tx a (MObservation (X := X) (ObservedOneValue l (DurationValue d Nanoseconds) t)))
  /\ (forall o, sends tx (transmit tx o) (MObservation (X := X) o)).
Proof. exact @observations_sent. Qed.
Print Assumptions c75_observations.

(** A cockpit is removed and a panel added; the other way round there is no
    cockpit for the panel. *)
Definition received (t : tele toy) (a : chan_action (message toy)) : option (tele toy) :=
  match a with
  | Send m | TrySend m => match tele_message DDropAll t (Counts 0 0 0) m debug (frozen 5) with Ok (t, _) _ => Some t | _ => None end
  | _ => None
  end.
Example c75_case : forall use_send, let tx := Transmitter 1 use_send in
  cockpit_name toy_cockpit = Some "cockpit" /\ ~ In "third" (names_of panel_name (c_panels toy_cockpit))
  /\ match received named_tele (tx_add_panel_to_cockpit tx "cockpit" third_panel) with
     | Some t => map (fun c => names_of panel_name (c_panels c)) (tp_cockpits t) = [["panel"; "third"]]
                 /\ option_map (@tp_cockpits toy) (received t (tx_remove_cockpit tx "cockpit")) = Some []
     | None => False
     end
  /\ match received named_tele (tx_remove_cockpit tx "cockpit") with
     | Some t => tp_cockpits t = [] /\ received t (tx_add_panel_to_cockpit tx "cockpit" third_panel) = Some t
     | None => False
     end.
Proof. intros [|]; (split; [reflexivity|]); (split; [cbn; intros [H|[]]; discriminate H|]); vm_compute; repeat split; reflexivity. Qed.
