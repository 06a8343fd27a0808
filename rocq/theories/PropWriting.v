(** C41: writing a snapshot only appends.
    C42: a named component writes exactly one group with its name.
    C43: descriptions are additions only and the outermost one wins. *)
From Coq Require Import ZArith Bool String List.
From Verif Require Import Base SpecRun ModelObservation ModelLabelFilter ModelSnapshot ModelCounter
  ModelGauge ModelHistogram ModelSwitches ModelInstrument ModelTree ModelProcessor SpecWriting
  WritingProofs AppendProofs Toy.
Import ListNotations.
Open Scope string_scope.
Open Scope list_scope.
Open Scope Z_scope.

(** ** C41 *)

Theorem c41_instruments : forall X (i : instrument X),
  (forall u, appends (user_instr_put X u)) -> appends (instrument_put i).
Proof. exact @instrument_appends. Qed.
Print Assumptions c41_instruments.

Theorem c41_trees : forall X, parts_append X ->
  (forall p : panel X, appends (panel_put p))
  /\ (forall h : handler X, appends (handler_put h))
  /\ (forall c : cockpit X, appends (cockpit_put c))
  /\ (forall s : snapshooter X, appends (snapshooter_put s)).
Proof. exact @tree_appends. Qed.
Print Assumptions c41_trees.

(** Whatever a nested driver answers. *)
Theorem c41_processors : forall X Y, parts_append X -> (forall u, appends (user_proc_put Y u)) ->
  (forall t : tele X, appends (tele_put t))
  /\ (forall p : processor X Y, appends (processor_put p))
  /\ (forall m : mount X Y, appends (mount_put m)).
Proof. exact (fun X Y HX HY => conj (tele_appends HX) (processor_appends HX Y HY)). Qed.
Print Assumptions c41_processors.

Example toy_appends : parts_append toy.
Proof.
  split; intros u d into k c x s c' E; cbn in E; unfold ret, push in E; injection E as <- <- <-; eauto.
Qed.

Example c41_trees_case :
  match cockpit_put toy_cockpit true [("here", Int 1); ("_title", Int 2)] debug (frozen 5) with
  | Ok (_, s) _ => firstn 2 s = [("here", Int 1); ("_title", Int 2)] /\ List.length s = 3%nat
  | _ => False
  end.
Proof. split; reflexivity. Qed.

(** ** C42 *)

(** Nothing is assumed about the user's parts. *)
Theorem c42_panel : forall X (p : panel X) n d into k c,
  panel_put (panel_set_name p n) d into k c
  = match panel_put (panel_unnamed p) d [] k c with
    | Ok (p', inner) c' => Ok (panel_set_name p' n, into ++ [(n, ItemSnapshot inner)]) c'
    | Panic => Panic
    | NoFuel => NoFuel
    end.
Proof. exact panel_group. Qed.
Print Assumptions c42_panel.

Theorem c42_cockpit : forall X (q : cockpit X) n d into k c,
  cockpit_put (cockpit_set_name q n) d into k c
  = match cockpit_put (cockpit_unnamed q) d [] k c with
    | Ok (q', inner) c' => Ok (cockpit_set_name q' n, into ++ [(n, ItemSnapshot inner)]) c'
    | Panic => Panic
    | NoFuel => NoFuel
    end.
Proof. exact cockpit_group. Qed.
Print Assumptions c42_cockpit.

Theorem c42_processor : forall X (t : tele X) n d into k c,
  tele_put (tele_named t (Some n)) d into k c
  = match tele_put (tele_named t None) d [] k c with
    | Ok (t', inner) c' => Ok (tele_named t' (Some n), into ++ [(n, ItemSnapshot inner)]) c'
    | Panic => Panic
    | NoFuel => NoFuel
    end.
Proof. exact tele_group. Qed.
Print Assumptions c42_processor.

Theorem c42_mount : forall X Y (m : mount X Y) n d into k c,
  mount_put (mount_named m (Some n)) d into k c
  = match mount_put (mount_named m None) d [] k c with
    | Ok (m', inner) c' => Ok (mount_named m' (Some n), into ++ [(n, ItemSnapshot inner)]) c'
    | Panic => Panic
    | NoFuel => NoFuel
    end.
Proof. exact mount_group. Qed.
Print Assumptions c42_mount.

Example c42_case :
  match panel_put toy_inner false [("x", Int 1)] debug (frozen 5),
        panel_put (panel_set_name toy_inner "p") false [("x", Int 1)] debug (frozen 5) with
  | Ok (_, a) _, Ok (_, b) _ =>
      a = [("x", Int 1); ("inner_count", UInt 0)]
      /\ b = [("x", Int 1); ("p", ItemSnapshot [("inner_count", UInt 0)])]
  | _, _ => False
  end.
Proof. split; reflexivity. Qed.

(** ** C43 *)

Theorem c43_trees : forall X, parts_write X ->
  (forall p : panel X, writes (panel_put p))
  /\ (forall h : handler X, writes (handler_put h))
  /\ (forall c : cockpit X, writes (cockpit_put c))
  /\ (forall s : snapshooter X, writes (snapshooter_put s)).
Proof. exact @tree_writes. Qed.
Print Assumptions c43_trees.

(** The last hypothesis excludes nested drivers with titles, see below. *)
Theorem c43_processors : forall X Y, parts_write X -> (forall u, writes (user_proc_put Y u)) ->
  (forall h, writes (driver_put (Y := Y) h)) ->
  (forall t : tele X, writes (tele_put t))
  /\ (forall p : processor X Y, writes (processor_put p))
  /\ (forall m : mount X Y, writes (mount_put m)).
Proof. exact (fun X Y HX HU HD => conj (tele_writes HX) (processor_writes HX Y HU HD)). Qed.
Print Assumptions c43_processors.

Example toy_writes : parts_write toy.
Proof.
  split; intros u; apply pushes_writes; intros k c; left; eexists u, _, c; reflexivity.
Qed.

(** The inner panel has no name: its title yields to that of the outer one. *)
Example c43_trees_case :
  match panel_put toy_panel true [] debug (frozen 5), panel_put toy_panel false [] debug (frozen 5) with
  | Ok (_, full) _, Ok (_, plain) _ =>
      full = [("panel", ItemSnapshot
                [("_title", Text "outer"); ("_description", Text "text"); ("count", UInt 0);
                 ("inner_count", UInt 0); ("constant", Int 7); ("user_snapshooter", Int 3);
                 ("user_handler", Int 0)])]
      /\ plain = [("panel", ItemSnapshot
                [("count", UInt 0);
                 ("inner_count", UInt 0); ("constant", Int 7); ("user_snapshooter", Int 3);
                 ("user_handler", Int 0)])]
  | _, _ => False
  end.
Proof. split; reflexivity. Qed.

(** On the level where a component writes, its own title and description come
    first, before those of everything inside. (What is already there stays: C41.) *)
Theorem c43_outermost_panel : forall X, parts_append X -> forall (p : panel X) into k c p' s c',
  panel_put p true into k c = Ok (p', s) c' ->
  lookup "_title" into = None -> lookup "_description" into = None ->
  exists level, own_level into s (panel_name p) level /\ title_of (pd_descr (p_data p)) level.
Proof. exact @panel_title. Qed.
Print Assumptions c43_outermost_panel.

Theorem c43_outermost_cockpit : forall X, parts_append X -> forall (q : cockpit X) into k c q' s c',
  cockpit_put q true into k c = Ok (q', s) c' ->
  lookup "_title" into = None -> lookup "_description" into = None ->
  exists level, own_level into s (cockpit_name q) level /\ title_of (cd_descr (c_data q)) level.
Proof. exact @cockpit_title. Qed.
Print Assumptions c43_outermost_cockpit.

Theorem c43_outermost_processor : forall X, parts_append X -> forall (t : tele X) into k c t' s c',
  tele_put t true into k c = Ok (t', s) c' ->
  lookup "_title" into = None -> lookup "_description" into = None ->
  exists level, own_level into s (tp_name t) level /\ title_of (tp_descr t) level.
Proof. exact @tele_title. Qed.
Print Assumptions c43_outermost_processor.

Theorem c43_outermost_mount : forall X, parts_append X -> forall Y (m : mount X Y),
  (forall u, appends (user_proc_put Y u)) ->
  forall into k c m' s c',
  mount_put m true into k c = Ok (m', s) c' ->
  lookup "_title" into = None -> lookup "_description" into = None ->
  exists level, own_level into s (md_name (m_data m)) level /\ title_of (md_descr (m_data m)) level.
Proof. exact @mount_title. Qed.
Print Assumptions c43_outermost_mount.

Example c43_outermost_case :
  match cockpit_put toy_cockpit true [] debug (frozen 5) with
  | Ok (_, s) _ =>
      exists inner, own_level [] s (cockpit_name toy_cockpit) inner
                    /\ lookup "_title" inner = Some (Text "cockpit title")
                    /\ lookup "panel" inner <> None
  | _ => False
  end.
Proof. eexists. split; [constructor; reflexivity|]. split; [reflexivity | discriminate]. Qed.

(** A driver mounted into another component: the items of its answer are pushed
    one by one, its title is repeated beside the outer one. Since JSON keeps the
    last value of a key, the inner title even replaces the outer one there. *)
Theorem c43_nested_driver_title_repeated_refuted : exists (m : mount toy toyp),
  match mount_put m true [] debug (frozen 5) with
  | Ok (_, s) _ =>
      filter (fun '(k, _) => String.eqb k "_title") s = [("_title", Text "outer"); ("_title", Text "inner")]
      /\ snapshot_to_json false s = JObject [("_title", JText "inner")]
  | _ => False
  end.
Proof.
  exists (Mount (MountData None (Descr (Some "outer") None) 0 None)
            [PDriver (Some [("_title", Text "inner")] : driver_handle toyp)] []).
  split; reflexivity.
Qed.
Print Assumptions c43_nested_driver_title_repeated_refuted.
