(** Specification of how observations are dispatched in a tree of panels,
    handlers and cockpits. *)
From Coq Require Import ZArith Bool String List.
From Verif Require Import Base SpecRun ModelObservation ModelLabelFilter ModelSnapshot ModelCounter
  ModelGauge ModelMeter ModelHistogram ModelInstrument ModelTree ModelProcessor.
Import ListNotations.
Open Scope Z_scope.

Section SpecTree.
  Context {X : ext}.

  (** What an observation can arrive at: an instrument (behind a modifier), a
      gauge with its adapter, a handler of the user; a cockpit notes the time. *)
  Inductive leaf :=
  | LInstrument (i : instrument X) (m : update_modifier (lab X))
  | LGauge (a : gauge_adapter (lab X))
  | LUser (u : user_handler X)
  | LCockpit (d : cockpit_data)
  | LShown (s : snapshooter X).   (* only writes into snapshots, no observation arrives at it *)

  Definition gauge_listens (l : lab X) (a : gauge_adapter (lab X)) : bool :=
    match ga_strategy a with
    | GFilter f | GDeltasOnly f => accepts (lab_eqb X) f l
    | GIncDecOnLabels inc dec => accepts (lab_eqb X) inc l || accepts (lab_eqb X) dec l
    end.

  (** An instrument with its own filter. *)
  Definition adapter_leaf {I} (f : I -> instrument X) (l : lab X) (on : bool) (a : adapter X I) : bool * leaf :=
    (on && accepts (lab_eqb X) (ad_filter a) l, LInstrument (f (ad_instrument a)) (ad_modify a)).

  Definition gauge_leaf (l : lab X) (on : bool) (a : gauge_adapter (lab X)) : bool * leaf :=
    (on && gauge_listens l a, LGauge a).

  Definition opt_list {A} (o : option A) : list A := match o with Some a => [a] | None => [] end.

  Definition slots_leaves (l : lab X) (on : bool) (sl : slots X) : list (bool * leaf) :=
    map (adapter_leaf ICounter l on) (opt_list (sl_counter sl))
    ++ map (gauge_leaf l on) (opt_list (sl_gauge sl))
    ++ map (adapter_leaf IMeter l on) (opt_list (sl_meter sl))
    ++ map (adapter_leaf IHistogram l on) (opt_list (sl_histogram sl)).

  (** Everything in a tree in the order of dispatch, each with whether all
      filters on the way ([on]: so far) and its own accept the label [l]. *)
  Fixpoint panel_leaves (l : lab X) (on : bool) (p : panel X) {struct p} : list (bool * leaf) :=
    match p with
    | Panel d sl ps hs _ =>
        let on := on && accepts (lab_eqb X) (pd_filter d) l in
        slots_leaves l on sl ++ flat_map (panel_leaves l on) ps ++ flat_map (handler_leaves l on) hs
    end
  with handler_leaves (l : lab X) (on : bool) (h : handler X) {struct h} : list (bool * leaf) :=
    match h with
    | HInstrument a => [adapter_leaf (fun i => i) l on a]
    | HGauge a => [gauge_leaf l on a]
    | HPanel p => panel_leaves l on p
    | HCockpit c => cockpit_leaves l on c
    | HUser u => [(on, LUser u)]
    end
  with cockpit_leaves (l : lab X) (on : bool) (c : cockpit X) {struct c} : list (bool * leaf) :=
    match c with
    | Cockpit d ps hs _ =>
        (on, LCockpit d) :: flat_map (handler_leaves l on) hs ++ flat_map (panel_leaves l on) ps
    end.

  Definition tele_leaves (l : lab X) (t : tele X) : list (bool * leaf) :=
    flat_map (cockpit_leaves l true) (tp_cockpits t) ++ flat_map (handler_leaves l true) (tp_handlers t).

  (** One update of a leaf by an observation. *)
  Definition leaf_handle (o : observation (lab X)) (x : leaf) : M (leaf * Z) :=
    match x with
    | LInstrument i m =>
        let* '(i', n) := instrument_update i (modify m (obs_label o) (snd (split_observation o))) in
        ret (LInstrument i' m, n)
    | LGauge a => let* '(a', n) := ga_handle (lab_eqb X) a o in ret (LGauge a', n)
    | LUser u => let* '(u', n) := user_handler_handle X u o in ret (LUser u', n)
    | LCockpit d =>
        let* t := now in
        ret (LCockpit (CockpitData (cd_name d) (cd_descr d) t (cd_limit d) (cd_show_activity d)), 0)
    | LShown s => ret (LShown s, 0)
    end.

  (** Every leaf that is on is updated exactly once, one after the other, and
      reports a number; the others stay as they are. *)
  Inductive served (k : cfg) (o : observation (lab X))
    : clock -> list (bool * leaf) -> list leaf -> list Z -> clock -> Prop :=
  | served_nil : forall c, served k o c [] [] [] c
  | served_off : forall c x ls ls' ns c',
      served k o c ls ls' ns c' -> served k o c ((false, x) :: ls) (x :: ls') (0 :: ns) c'
  | served_on : forall c x x' n c1 ls ls' ns c',
      leaf_handle o x k c = Ok (x', n) c1 -> served k o c1 ls ls' ns c' ->
      served k o c ((true, x) :: ls) (x' :: ls') (n :: ns) c'.

  (** [n] is [acc] plus the reported numbers: exact with overflow checks, modulo
      2^64 without. *)
  Definition adds_up (k : cfg) (acc : Z) (ns : list Z) (n : Z) : Prop :=
    (overflow_checks k = true -> n = acc + sum ns)
    /\ (Forall in_u64 ns -> in_u64 acc -> n = wrap_u64 (acc + sum ns)).

  (** The same tree up to the state of the leaves: same names, filters,
      modifiers, settings, snapshooters and order. *)
  Definition same_adapter {I} (a b : adapter X I) : Prop := ad_filter a = ad_filter b /\ ad_modify a = ad_modify b.

  Definition same_gauge (a b : gauge_adapter (lab X)) : Prop :=
    ga_strategy a = ga_strategy b /\ ga_modify_update a = ga_modify_update b.

  Definition same_opt {A} (R : A -> A -> Prop) (a b : option A) : Prop :=
    match a, b with
    | Some a, Some b => R a b
    | None, None => True
    | _, _ => False
    end.

  Definition same_slots (a b : slots X) : Prop :=
    same_opt same_adapter (sl_counter a) (sl_counter b) /\ same_opt same_gauge (sl_gauge a) (sl_gauge b)
    /\ same_opt same_adapter (sl_meter a) (sl_meter b) /\ same_opt same_adapter (sl_histogram a) (sl_histogram b).

  Definition same_cockpit_data (a b : cockpit_data) : Prop :=
    cd_name a = cd_name b /\ cd_descr a = cd_descr b /\ cd_limit a = cd_limit b
    /\ cd_show_activity a = cd_show_activity b.

  Inductive same_panel : panel X -> panel X -> Prop :=
  | same_panel_intro : forall d sl sl' ps ps' hs hs' ss,
      same_slots sl sl' -> Forall2 same_panel ps ps' -> Forall2 same_handler hs hs' ->
      same_panel (Panel d sl ps hs ss) (Panel d sl' ps' hs' ss)
  with same_handler : handler X -> handler X -> Prop :=
  | same_h_instrument : forall a b, same_adapter a b -> same_handler (HInstrument a) (HInstrument b)
  | same_h_gauge : forall a b, same_gauge a b -> same_handler (HGauge a) (HGauge b)
  | same_h_panel : forall p q, same_panel p q -> same_handler (HPanel p) (HPanel q)
  | same_h_cockpit : forall c d, same_cockpit c d -> same_handler (HCockpit c) (HCockpit d)
  | same_h_user : forall u v, same_handler (HUser u) (HUser v)
  with same_cockpit : cockpit X -> cockpit X -> Prop :=
  | same_cockpit_intro : forall d d' ps ps' hs hs' ss,
      same_cockpit_data d d' -> Forall2 same_panel ps ps' -> Forall2 same_handler hs hs' ->
      same_cockpit (Cockpit d ps hs ss) (Cockpit d' ps' hs' ss).
End SpecTree.
Arguments leaf : clear implicits.
