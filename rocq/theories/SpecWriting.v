(** Specification of what writing a snapshot does to the snapshot given. *)
From Coq Require Import ZArith Bool String List.
From Verif Require Import Base ModelSnapshot ModelHistogram ModelInstrument ModelTree ModelProcessor.
Import ListNotations.
Open Scope string_scope.
Open Scope list_scope.
Open Scope Z_scope.

Definition keys (s : snapshot) : list string := map fst s.

(** The keys of titles and descriptions. *)
Definition description_key (k : string) : Prop :=
  exists rest, k = ("_title" ++ rest)%string \/ k = ("_description" ++ rest)%string.

(** [adds_texts seen plain full]: [full] is [plain] with additional titles and
    descriptions, each under a key that is not yet there. [seen] are the keys
    already there. *)
Inductive adds_texts : list string -> snapshot -> snapshot -> Prop :=
| at_nil : forall seen, adds_texts seen [] []
| at_item : forall seen k v v' a b,
    same_item v v' -> adds_texts (seen ++ [k]) a b -> adds_texts seen ((k, v) :: a) ((k, v') :: b)
| at_text : forall seen k t a b,
    ~ In k seen -> description_key k -> adds_texts (seen ++ [k]) a b ->
    adds_texts seen a ((k, Text t) :: b)
with same_item : item_kind -> item_kind -> Prop :=
| si_same : forall v, same_item v v
| si_group : forall a b, adds_texts [] a b -> same_item (ItemSnapshot a) (ItemSnapshot b).

(** [put] only appends to the snapshot given. *)
Definition appends {A} (put : bool -> snapshot -> M (A * snapshot)) : Prop :=
  forall d into k c x s c', put d into k c = Ok (x, s) c' -> exists added, s = into ++ added.

(** What [put] appends without descriptions does not depend on the snapshot
    given; with descriptions it is the same plus titles and descriptions. The
    component and the clock afterwards are the same in both cases. *)
Definition writes {A} (put : bool -> snapshot -> M (A * snapshot)) : Prop :=
  forall k c,
    (exists x plain c',
        (forall into, put false into k c = Ok (x, into ++ plain) c')
        /\ (forall into, exists full,
              put true into k c = Ok (x, into ++ full) c' /\ adds_texts (keys into) plain full))
    \/ (forall d into, put d into k c = Panic)
    \/ (forall d into, put d into k c = NoFuel).

(** The user's parts behave like that. *)
Record parts_append (X : ext) : Prop := PartsAppend {
  pa_instr : forall u, appends (user_instr_put X u);
  pa_handler : forall u, appends (user_handler_put X u);
  pa_snap : forall u, appends (user_snap_put X u)
}.

Record parts_write (X : ext) : Prop := PartsWrite {
  pw_instr : forall u, writes (user_instr_put X u);
  pw_handler : forall u, writes (user_handler_put X u);
  pw_snap : forall u, writes (user_snap_put X u)
}.

(** The same component without its name. *)
Definition panel_unnamed {X} (p : panel X) : panel X :=
  let '(Panel d sl ps hs ss) := p in
  Panel (PanelData (pd_filter d) None (pd_descr d) (pd_last_update d) (pd_limit d) (pd_show_activity d))
    sl ps hs ss.

Definition cockpit_unnamed {X} (c : cockpit X) : cockpit X :=
  let '(Cockpit d ps hs ss) := c in
  Cockpit (CockpitData None (cd_descr d) (cd_last_activity d) (cd_limit d) (cd_show_activity d)) ps hs ss.

Definition tele_named {X} (t : tele X) (n : option string) : tele X :=
  Tele n (tp_descr t) (tp_cockpits t) (tp_handlers t) (tp_receiver t) (tp_snapshooters t)
    (tp_last_activity t) (tp_limit t) (tp_show_activity t) (tp_disconnected t).

Definition mount_named {X Y} (m : mount X Y) (n : option string) : mount X Y :=
  let '(Mount d ps ss) := m in
  Mount (MountData n (md_descr d) (md_last_activity d) (md_limit d)) ps ss.

(** The level on which a component with this name writes its own fields. *)
Inductive own_level (into s : snapshot) : option string -> snapshot -> Prop :=
| own_unnamed : own_level into s None s
| own_named : forall n inner, s = into ++ [(n, ItemSnapshot inner)] -> own_level into s (Some n) inner.

(** The title and the description [ds] are the first ones on a level. *)
Definition title_of (ds : descr) (s : snapshot) : Prop :=
  (forall t, d_title ds = Some t -> lookup "_title" s = Some (Text t))
  /\ (forall t, d_description ds = Some t -> lookup "_description" s = Some (Text t)).

Definition m_data {X Y} (m : mount X Y) : mount_data := let '(Mount d _ _) := m in d.
