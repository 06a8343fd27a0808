(** Specification of inactive components. *)
From Coq Require Import ZArith Bool String List.
From Verif Require Import Base SpecRun ModelObservation ModelSnapshot ModelHistogram ModelInstrument ModelTree
  ModelProcessor SpecWriting.
Import ListNotations.
Open Scope string_scope.
Open Scope list_scope.
Open Scope Z_scope.

(** The descriptions of a component as they appear on a level: those not there yet. *)
Definition text_field (k : string) (t : option string) (level : snapshot) : snapshot :=
  match t with
  | Some t => if in_dec string_dec k (keys level) then [] else [(k, Text t)]
  | None => []
  end.

Definition own_texts (descriptive : bool) (ds : descr) (level : snapshot) : snapshot :=
  if descriptive
  then text_field "_title" (d_title ds) level ++ text_field "_description" (d_description ds) level
  else [].

(** Fields written by a component with this name into the snapshot [into]. *)
Definition placed (name : option string) (into fields : snapshot) : snapshot :=
  match name with
  | Some n => into ++ [(n, ItemSnapshot fields)]
  | None => into ++ fields
  end.

Definition level_of (name : option string) (into : snapshot) : snapshot :=
  match name with Some _ => [] | None => into end.

Definition shown_active : snapshot := [("_inactive", Boolean false); ("_active", Boolean true)].
Definition shown_inactive : snapshot := [("_inactive", Boolean true); ("_active", Boolean false)].

(** All that an inactive component writes. *)
Definition inactive_fields (descriptive : bool) (name : option string) (ds : descr) (into : snapshot) : snapshot :=
  placed name into (own_texts descriptive ds (level_of name into) ++ shown_inactive).

(** The same component without name and inactivity limit: it writes all its values. *)
Section Bare.
  Context {X : ext} {Y : pext}.

  Definition panel_bare (p : panel X) : panel X :=
    let '(Panel d sl ps hs ss) := p in
    Panel (PanelData (pd_filter d) None (pd_descr d) (pd_last_update d) None (pd_show_activity d))
      sl ps hs ss.
  Definition cockpit_bare (c : cockpit X) : cockpit X :=
    let '(Cockpit d ps hs ss) := c in
    Cockpit (CockpitData None (cd_descr d) (cd_last_activity d) None (cd_show_activity d)) ps hs ss.
  Definition tele_bare (t : tele X) : tele X :=
    Tele None (tp_descr t) (tp_cockpits t) (tp_handlers t) (tp_receiver t) (tp_snapshooters t)
      (tp_last_activity t) None (tp_show_activity t) (tp_disconnected t).
  Definition mount_bare (m : mount X Y) : mount X Y :=
    let '(Mount d ps ss) := m in
    Mount (MountData None (md_descr d) (md_last_activity d) None) ps ss.

  (** The contents of [q] with the settings of [p]. *)
  Definition panel_like (p q : panel X) : panel X :=
    Panel (p_data p) (p_slots q) (p_panels q) (p_handlers q) (p_snapshooters q).
  Definition cockpit_like (p q : cockpit X) : cockpit X :=
    Cockpit (c_data p) (c_panels q) (c_handlers q) (c_snapshooters q).
  Definition tele_like (p q : tele X) : tele X :=
    Tele (tp_name p) (tp_descr p) (tp_cockpits q) (tp_handlers q) (tp_receiver p) (tp_snapshooters q)
      (tp_last_activity p) (tp_limit p) (tp_show_activity p) (tp_disconnected p).
  Definition mount_like (p q : mount X Y) : mount X Y :=
    let '(Mount d _ _) := p in let '(Mount _ ps ss) := q in Mount d ps ss.

  (** The same component without inactivity limit. *)
  Definition panel_unlimited (p : panel X) : panel X :=
    let '(Panel d sl ps hs ss) := p in
    Panel (PanelData (pd_filter d) (pd_name d) (pd_descr d) (pd_last_update d) None (pd_show_activity d))
      sl ps hs ss.
  Definition cockpit_unlimited (c : cockpit X) : cockpit X :=
    let '(Cockpit d ps hs ss) := c in
    Cockpit (CockpitData (cd_name d) (cd_descr d) (cd_last_activity d) None (cd_show_activity d)) ps hs ss.
  Definition tele_unlimited (t : tele X) : tele X :=
    Tele (tp_name t) (tp_descr t) (tp_cockpits t) (tp_handlers t) (tp_receiver t) (tp_snapshooters t)
      (tp_last_activity t) None (tp_show_activity t) (tp_disconnected t).

  (** Handled observations. *)
  Definition panel_observe (p : panel X) (o : observation (lab X)) : M (panel X) :=
    let* '(p, _) := panel_handle p o in ret p.
  Definition cockpit_observe (c : cockpit X) (o : observation (lab X)) : M (cockpit X) :=
    let* '(c, _) := cockpit_handle c o in ret c.

  (** One collection takes place at one instant. *)
  Definition instant (t : Z) (w : world X Y) : Prop := forall i, w_clock w i = t.

  Definition active (o : outcome) : Prop := 0 < oc_processed o \/ 0 < oc_dropped o.

  (** A history of collections of a processor, [Some t]: a collection at [t] in
      which a message was processed or dropped; whatever happens between. *)
  Inductive tele_history (k : cfg) : tele X -> list (option Z) -> tele X -> Prop :=
  | th_nil : forall t, tele_history k t [] t
  | th_active : forall t max s e (w : world X Y) t1 o w1 h t2,
      instant e w -> tele_process t max s k w = Ok (t1, o) w1 -> active o ->
      tele_history k t1 h t2 -> tele_history k t (Some e :: h) t2
  | th_idle : forall t max s (w : world X Y) t1 o w1 h t2,
      tele_process t max s k w = Ok (t1, o) w1 -> ~ active o ->
      tele_history k t1 h t2 -> tele_history k t (None :: h) t2.

  (** The same for a mount; [n] bounds the nesting. *)
  Inductive mount_history (k : cfg) : mount X Y -> list (option Z) -> mount X Y -> Prop :=
  | mh_nil : forall m, mount_history k m [] m
  | mh_active : forall m n max s e w m1 o w1 h m2,
      instant e w -> processor_process n (PMount m) max s k w = Ok (PMount m1, o) w1 ->
      active o ->
      mount_history k m1 h m2 -> mount_history k m (Some e :: h) m2
  | mh_idle : forall m n max s w m1 o w1 h m2,
      processor_process n (PMount m) max s k w = Ok (PMount m1, o) w1 ->
      ~ active o ->
      mount_history k m1 h m2 -> mount_history k m (None :: h) m2.

  (** The time of the last activity. *)
  Inductive last_active (initial : Z) : list (option Z) -> Z -> Prop :=
  | la_never : forall h, Forall (fun e => e = None) h -> last_active initial h initial
  | la_at : forall h1 t h2, Forall (fun e => e = None) h2 -> last_active initial (h1 ++ Some t :: h2) t.
End Bare.
