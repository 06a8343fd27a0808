(** Model of src/instruments/panel.rs and src/cockpit.rs. *)
From Coq Require Import ZArith Bool String List.
From Verif Require Import Base ModelObservation ModelLabelFilter ModelSnapshot ModelCounter
  ModelGauge ModelMeter ModelHistogram ModelInstrument.
Import ListNotations.
Open Scope Z_scope.

Section Tree.
  Context {X : ext}.

  (** The plain fields of a [Panel], panel.rs 50-65 *)
  Record panel_data := PanelData {
    pd_filter : label_filter (lab X);
    pd_name : option string;
    pd_descr : descr;
    pd_last_update : Z;
    pd_limit : option Z;              (* max_inactivity_duration *)
    pd_show_activity : bool
  }.

  (** The four instrument fields of a [Panel], panel.rs 55-58 *)
  Record slots := Slots {
    sl_counter : option (adapter X counter);
    sl_gauge : option (gauge_adapter (lab X));
    sl_meter : option (adapter X meter);
    sl_histogram : option (adapter X (histogram (ex_histo X)))
  }.

  (** The plain fields of a [Cockpit], cockpit.rs 15-25 *)
  Record cockpit_data := CockpitData {
    cd_name : option string;
    cd_descr : descr;
    cd_last_activity : Z;
    cd_limit : option Z;
    cd_show_activity : bool
  }.

  (** [Panel] (panel.rs 50-65), [Box<dyn HandlesObservations>] (the adapters,
      panels, cockpits and the user's handlers), [Cockpit] (cockpit.rs 15-25),
      and [Box<dyn PutsSnapshot>] (polled.rs 15-23, 111-116, instruments, all
      handlers and the user's snapshooters). A processor or mount used as a
      snapshooter is not covered. *)
  Inductive panel :=
  | Panel (d : panel_data) (sl : slots) (panels : list panel) (handlers : list handler)
      (snapshooters : list snapshooter)
  with handler :=
  | HInstrument (a : adapter X (instrument X))
  | HGauge (a : gauge_adapter (lab X))
  | HPanel (p : panel)
  | HCockpit (c : cockpit)
  | HUser (u : user_handler X)
  with cockpit :=
  | Cockpit (d : cockpit_data) (panels : list panel) (handlers : list handler)
      (snapshooters : list snapshooter)
  with snapshooter :=
  | SConstant (v : constant_value)
  | SPolled (name : string) (d : descr) (create_group : bool) (poll : snapshooter)
  | SInstrument (i : instrument X)
  | SHandler (h : handler)
  | SUser (u : user_snap X).

  (** ** Handling observations *)

  (** [instruments_updated += x.handle_observation(&observation)] *)
  Definition tally {A} (f : A -> M (A * Z)) (x : A) (acc : Z) : M (A * Z) :=
    let* '(x', n) := f x in
    let* acc' := add_usize acc n in
    ret (x', acc').

  (** panel.rs 355-366: the four instruments *)
  Definition slots_handle (sl : slots) (o : observation (lab X)) (acc : Z) : M (slots * Z) :=
    let* '(c, acc) := traverse_opt (tally (fun a => adapter_handle counter_update a o)) (sl_counter sl) acc in
    let* '(g, acc) := traverse_opt (tally (fun a => ga_handle (lab_eqb X) a o)) (sl_gauge sl) acc in
    let* '(m, acc) := traverse_opt (tally (fun a => adapter_handle meter_update a o)) (sl_meter sl) acc in
    let* '(h, acc) := traverse_opt (tally (fun a => adapter_handle histogram_update a o)) (sl_histogram sl) acc in
    ret (Slots c g m h, acc).

  (** cockpit.rs 291 *)
  Definition cockpit_touch (d : cockpit_data) (t : Z) : cockpit_data :=
    CockpitData (cd_name d) (cd_descr d) t (cd_limit d) (cd_show_activity d).

  (** panel.rs 348-375 *)
  Fixpoint panel_handle (p : panel) (o : observation (lab X)) {struct p} : M (panel * Z) :=
    match p with
    | Panel d sl panels handlers snapshooters =>
        if negb (accepts (lab_eqb X) (pd_filter d) (obs_label o)) then ret (p, 0)
        else
          let* '(sl, n) := slots_handle sl o 0 in
          let* '(panels, n) := traverse (tally (fun x => panel_handle x o)) panels n in
          let* '(handlers, n) := traverse (tally (fun x => handler_handle x o)) handlers n in
          ret (Panel d sl panels handlers snapshooters, n)
    end
  (** [HandlesObservations::handle_observation], src/lib.rs 142-145 *)
  with handler_handle (h : handler) (o : observation (lab X)) {struct h} : M (handler * Z) :=
    match h with
    | HInstrument a => wrap HInstrument (adapter_handle instrument_update a o)
    | HGauge a => wrap HGauge (ga_handle (lab_eqb X) a o)
    | HPanel p => wrap HPanel (panel_handle p o)
    | HCockpit c => wrap HCockpit (cockpit_handle c o)
    | HUser u => wrap HUser (user_handler_handle X u o)
    end
  (** cockpit.rs 290-304 *)
  with cockpit_handle (c : cockpit) (o : observation (lab X)) {struct c} : M (cockpit * Z) :=
    match c with
    | Cockpit d panels handlers snapshooters =>
        let* t := now in
        let* '(handlers, n) := traverse (tally (fun x => handler_handle x o)) handlers 0 in
        let* '(panels, n) := traverse (tally (fun x => panel_handle x o)) panels n in
        ret (Cockpit (cockpit_touch d t) panels handlers snapshooters, n)
    end.

  (** ** Writing snapshots *)

  (** panel.rs 299-314: the four instruments *)
  Definition slots_put (descriptive : bool) (sl : slots) (into : snapshot) : M (slots * snapshot) :=
    let* '(c, into) :=
      traverse_opt
        (fun a => adapter_put (fun i d s => keep i (ret (counter_put i d s))) a descriptive)
        (sl_counter sl) into in
    let* '(g, into) := traverse_opt (fun a => ga_put a descriptive) (sl_gauge sl) into in
    let* '(m, into) := traverse_opt (fun a => adapter_put meter_put a descriptive) (sl_meter sl) into in
    let* '(h, into) :=
      traverse_opt
        (fun a => adapter_put (fun i d s => keep i (histogram_put i d s)) a descriptive)
        (sl_histogram sl) into in
    ret (Slots c g m h, into).

  (** panel.rs 280-339 *)
  Fixpoint panel_put (p : panel) (descriptive : bool) (into : snapshot) {struct p}
    : M (panel * snapshot) :=
    match p with
    | Panel d sl panels handlers snapshooters =>
        put_named (pd_name d)
          (fun into =>
             let into := put_default_descriptives (pd_descr d) into descriptive in
             check_activity (pd_limit d) (pd_show_activity d) (pd_last_update d) p
               (fun into =>
                  let* '(sl, into) := slots_put descriptive sl into in
                  let* '(panels, into) := traverse (fun x => panel_put x descriptive) panels into in
                  let* '(snapshooters, into) :=
                    traverse (fun x => snapshooter_put x descriptive) snapshooters into in
                  let* '(handlers, into) :=
                    traverse (fun x => handler_put x descriptive) handlers into in
                  ret (Panel d sl panels handlers snapshooters, into))
               into)
          into
    end
  with handler_put (h : handler) (descriptive : bool) (into : snapshot) {struct h}
    : M (handler * snapshot) :=
    match h with
    | HInstrument a => wrap HInstrument (adapter_put instrument_put a descriptive into)
    | HGauge a => wrap HGauge (ga_put a descriptive into)
    | HPanel p => wrap HPanel (panel_put p descriptive into)
    | HCockpit c => wrap HCockpit (cockpit_put c descriptive into)
    | HUser u => wrap HUser (user_handler_put X u descriptive into)
    end
  (** cockpit.rs 215-262 *)
  with cockpit_put (c : cockpit) (descriptive : bool) (into : snapshot) {struct c}
    : M (cockpit * snapshot) :=
    match c with
    | Cockpit d panels handlers snapshooters =>
        put_named (cd_name d)
          (fun into =>
             let into := put_default_descriptives (cd_descr d) into descriptive in
             check_activity (cd_limit d) (cd_show_activity d) (cd_last_activity d) c
               (fun into =>
                  let* '(panels, into) := traverse (fun x => panel_put x descriptive) panels into in
                  let* '(handlers, into) :=
                    traverse (fun x => handler_put x descriptive) handlers into in
                  let* '(snapshooters, into) :=
                    traverse (fun x => snapshooter_put x descriptive) snapshooters into in
                  ret (Cockpit d panels handlers snapshooters, into))
               into)
          into
    end
  (** [PutsSnapshot::put_snapshot], src/lib.rs 412-416 *)
  with snapshooter_put (s : snapshooter) (descriptive : bool) (into : snapshot) {struct s}
    : M (snapshooter * snapshot) :=
    match s with
    | SConstant v => ret (SConstant v, constant_value_put v descriptive into)
    | SPolled name d g poll =>
        wrap (SPolled name d g) (polled_put (snapshooter_put poll) name d g descriptive into)
    | SInstrument i => wrap SInstrument (instrument_put i descriptive into)
    | SHandler h => wrap SHandler (handler_put h descriptive into)
    | SUser u => wrap SUser (user_snap_put X u descriptive into)
    end.

  (** ** Building panels *)

  Definition p_data (p : panel) : panel_data := let '(Panel d _ _ _ _) := p in d.
  Definition p_slots (p : panel) : slots := let '(Panel _ sl _ _ _) := p in sl.
  Definition p_panels (p : panel) : list panel := let '(Panel _ _ ps _ _) := p in ps.
  Definition p_handlers (p : panel) : list handler := let '(Panel _ _ _ hs _) := p in hs.
  Definition p_snapshooters (p : panel) : list snapshooter := let '(Panel _ _ _ _ ss) := p in ss.

  (** panel.rs 214-216 *)
  Definition panel_name (p : panel) : option string := pd_name (p_data p).

  Definition no_slots : slots := Slots None None None None.

  (** panel.rs 73-90, 94-98, 102-122 *)
  Definition panel_new (f : label_filter (lab X)) : M panel :=
    let* t := now in
    ret (Panel (PanelData f None no_descr t None true) no_slots [] [] []).
  Definition panel_set_name (p : panel) (n : string) : panel :=
    let '(Panel d sl ps hs ss) := p in
    Panel (PanelData (pd_filter d) (Some n) (pd_descr d) (pd_last_update d) (pd_limit d)
             (pd_show_activity d)) sl ps hs ss.
  Definition panel_named (f : label_filter (lab X)) (n : string) : M panel :=
    let* p := panel_new f in ret (panel_set_name p n).

  (** panel.rs 204-206, 195-197, 176-178, 185-188 *)
  Definition panel_add_handler (p : panel) (h : handler) : panel :=
    let '(Panel d sl ps hs ss) := p in Panel d sl ps (hs ++ [h]) ss.
  Definition panel_add_panel (p : panel) (q : panel) : panel :=
    let '(Panel d sl ps hs ss) := p in Panel d sl (ps ++ [q]) hs ss.
  Definition panel_add_snapshooter (p : panel) (s : snapshooter) : panel :=
    let '(Panel d sl ps hs ss) := p in Panel d sl ps hs (ss ++ [s]).
  Definition panel_add_instrument (p : panel) (i : instrument X) : panel :=
    panel_add_handler p (HInstrument (adapter_new i)).

  (** panel.rs 124-130 *)
  Definition panel_add_counter (p : panel) (a : adapter X counter) : panel :=
    let '(Panel d sl ps hs ss) := p in
    match sl_counter sl with
    | None => Panel d (Slots (Some a) (sl_gauge sl) (sl_meter sl) (sl_histogram sl)) ps hs ss
    | Some _ => panel_add_handler p (HInstrument (adapter_with a (ICounter (ad_instrument a))))
    end.

  (** panel.rs 142-148 *)
  Definition panel_add_gauge (p : panel) (a : gauge_adapter (lab X)) : panel :=
    let '(Panel d sl ps hs ss) := p in
    match sl_gauge sl with
    | None => Panel d (Slots (sl_counter sl) (Some a) (sl_meter sl) (sl_histogram sl)) ps hs ss
    | Some _ => panel_add_handler p (HGauge a)
    end.

  (** panel.rs 155-161 *)
  Definition panel_add_meter (p : panel) (a : adapter X meter) : panel :=
    let '(Panel d sl ps hs ss) := p in
    match sl_meter sl with
    | None => Panel d (Slots (sl_counter sl) (sl_gauge sl) (Some a) (sl_histogram sl)) ps hs ss
    | Some _ => panel_add_handler p (HInstrument (adapter_with a (IMeter (ad_instrument a))))
    end.

  (** panel.rs 163-169 *)
  Definition panel_add_histogram (p : panel) (a : adapter X (histogram (ex_histo X))) : panel :=
    let '(Panel d sl ps hs ss) := p in
    match sl_histogram sl with
    | None => Panel d (Slots (sl_counter sl) (sl_gauge sl) (sl_meter sl) (Some a)) ps hs ss
    | Some _ => panel_add_handler p (HInstrument (adapter_with a (IHistogram (ad_instrument a))))
    end.

  (** panel.rs 249-260 *)
  Definition panel_set_inactivity_limit (p : panel) (limit : Z) : panel :=
    let '(Panel d sl ps hs ss) := p in
    Panel (PanelData (pd_filter d) (pd_name d) (pd_descr d) (pd_last_update d) (Some limit)
             (pd_show_activity d)) sl ps hs ss.
  Definition panel_set_show_activity_state (p : panel) (show : bool) : panel :=
    let '(Panel d sl ps hs ss) := p in
    Panel (PanelData (pd_filter d) (pd_name d) (pd_descr d) (pd_last_update d) (pd_limit d)
             show) sl ps hs ss.

  (** panel.rs 276-278 *)
  Definition panel_accepts_label (p : panel) (l : lab X) : bool :=
    accepts (lab_eqb X) (pd_filter (p_data p)) l.

  (** ** Building cockpits *)

  Definition c_data (c : cockpit) : cockpit_data := let '(Cockpit d _ _ _) := c in d.
  Definition c_panels (c : cockpit) : list panel := let '(Cockpit _ ps _ _) := c in ps.
  Definition c_handlers (c : cockpit) : list handler := let '(Cockpit _ _ hs _) := c in hs.
  Definition c_snapshooters (c : cockpit) : list snapshooter := let '(Cockpit _ _ _ ss) := c in ss.

  (** cockpit.rs 54-56 *)
  Definition cockpit_name (c : cockpit) : option string := cd_name (c_data c).

  (** cockpit.rs 264-281, 36-48 *)
  Definition cockpit_default : M cockpit :=
    let* t := now in ret (Cockpit (CockpitData None no_descr t None true) [] [] []).
  Definition cockpit_set_name (c : cockpit) (n : string) : cockpit :=
    let '(Cockpit d ps hs ss) := c in
    Cockpit (CockpitData (Some n) (cd_descr d) (cd_last_activity d) (cd_limit d) (cd_show_activity d))
      ps hs ss.
  Definition cockpit_new (n : string) : M cockpit :=
    let* c := cockpit_default in ret (cockpit_set_name c n).

  (** [p.name().map(|n| n == name).unwrap_or(false)] *)
  Definition is_named (n : string) (o : option string) : bool :=
    match o with Some m => String.eqb m n | None => false end.

  (** cockpit.rs 107-118 *)
  Definition cockpit_add_panel (c : cockpit) (p : panel) : cockpit :=
    let '(Cockpit d ps hs ss) := c in
    match panel_name p with
    | Some n =>
        if existsb (fun q => is_named n (panel_name q)) ps then c
        else Cockpit d (ps ++ [p]) hs ss
    | None => Cockpit d (ps ++ [p]) hs ss
    end.

  (** cockpit.rs 124-127; [n != name] *)
  Definition cockpit_remove_panel (c : cockpit) (n : string) : cockpit :=
    let '(Cockpit d ps hs ss) := c in
    Cockpit d (filter (fun q => negb (is_named n (panel_name q))) ps) hs ss.

  (** cockpit.rs 156-161, 187-189, 77-79, 86-88 *)
  Definition cockpit_add_handler (c : cockpit) (h : handler) : cockpit :=
    let '(Cockpit d ps hs ss) := c in Cockpit d ps (hs ++ [h]) ss.
  Definition cockpit_add_snapshooter (c : cockpit) (s : snapshooter) : cockpit :=
    let '(Cockpit d ps hs ss) := c in Cockpit d ps hs (ss ++ [s]).
  Definition cockpit_set_inactivity_limit (c : cockpit) (limit : Z) : cockpit :=
    let '(Cockpit d ps hs ss) := c in
    Cockpit (CockpitData (cd_name d) (cd_descr d) (cd_last_activity d) (Some limit)
               (cd_show_activity d)) ps hs ss.
  Definition cockpit_set_show_activity_state (c : cockpit) (show : bool) : cockpit :=
    let '(Cockpit d ps hs ss) := c in
    Cockpit (CockpitData (cd_name d) (cd_descr d) (cd_last_activity d) (cd_limit d) show) ps hs ss.
End Tree.
Arguments panel_data : clear implicits.
Arguments slots : clear implicits.
Arguments panel : clear implicits.
Arguments handler : clear implicits.
Arguments cockpit : clear implicits.
Arguments snapshooter : clear implicits.
