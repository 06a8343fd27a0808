(** Specification of where an instrument is, of what it lives through and of
    where it is shown. *)
From Coq Require Import ZArith Bool String List.
From Verif Require Import Base SpecRun SpecClock ModelObservation ModelLabelFilter ModelSnapshot ModelCounter ModelGauge ModelMeter
  ModelHistogram ModelInstrument ModelTree ModelChannel ModelProcessor ModelDriver SpecNames SpecTree SpecCollect SpecChronicle.
Import ListNotations.
Open Scope Z_scope.

(** A component that can show itself as inactive instead of its values *)
Record guard := Guard { gu_limit : option Z; gu_show : bool; gu_last : Z }.

Definition hides (g : guard) (t : Z) : Prop :=
  gu_show g = true /\ exists limit, gu_limit g = Some limit /\ limit < Z.max 0 (t - gu_last g).

(** The same settings; the last activity may differ. *)
Definition alike (gs gs' : list guard) : Prop :=
  Forall2 (fun g g' => gu_limit g' = gu_limit g /\ gu_show g' = gu_show g) gs gs'.

Section Site.
  Context {X : ext} {Y : pext}.

  Definition panel_guard (d : panel_data X) : guard := Guard (pd_limit d) (pd_show_activity d) (pd_last_update d).
  Definition cockpit_guard (d : cockpit_data) : guard := Guard (cd_limit d) (cd_show_activity d) (cd_last_activity d).
  Definition tele_guard (t : tele X) : guard := Guard (tp_limit t) (tp_show_activity t) (tp_last_activity t).
  Definition mount_guard (d : mount_data) : guard := Guard (md_limit d) true (md_last_activity d).

  (** [panel_site p at_ names gs on x]: the instrument, handler or snapshooter [x] is at the
      address [at_] in the panel; [names] and [gs]: the names of the components on
      the way (unnamed ones left out) and what may hide it; [on]: the labels that
      reach it. *)
  Inductive panel_site : panel X -> list nat -> list string -> list guard -> (lab X -> bool) -> leaf X -> Prop :=
  | si_counter : forall d a g m h ps hs ss on,
      (forall l, on l = accepts (lab_eqb X) (pd_filter d) l && accepts (lab_eqb X) (ad_filter a) l) ->
      panel_site (Panel d (Slots (Some a) g m h) ps hs ss) [0%nat] (opt_list (pd_name d)) [panel_guard d] on
        (LInstrument (ICounter (ad_instrument a)) (ad_modify a))
  | si_gauge : forall d c a m h ps hs ss on,
      (forall l, on l = accepts (lab_eqb X) (pd_filter d) l && gauge_listens l a) ->
      panel_site (Panel d (Slots c (Some a) m h) ps hs ss) [1%nat] (opt_list (pd_name d)) [panel_guard d] on (LGauge a)
  | si_meter : forall d c g a h ps hs ss on,
      (forall l, on l = accepts (lab_eqb X) (pd_filter d) l && accepts (lab_eqb X) (ad_filter a) l) ->
      panel_site (Panel d (Slots c g (Some a) h) ps hs ss) [2%nat] (opt_list (pd_name d)) [panel_guard d] on
        (LInstrument (IMeter (ad_instrument a)) (ad_modify a))
  | si_histogram : forall d c g m a ps hs ss on,
      (forall l, on l = accepts (lab_eqb X) (pd_filter d) l && accepts (lab_eqb X) (ad_filter a) l) ->
      panel_site (Panel d (Slots c g m (Some a)) ps hs ss) [3%nat] (opt_list (pd_name d)) [panel_guard d] on
        (LInstrument (IHistogram (ad_instrument a)) (ad_modify a))
  | si_panel : forall d sl ps hs ss j p at_ names gs on on' x,
      nth_error ps j = Some p -> panel_site p at_ names gs on x ->
      (forall l, on' l = accepts (lab_eqb X) (pd_filter d) l && on l) ->
      panel_site (Panel d sl ps hs ss) (4 :: j :: at_)%nat (opt_list (pd_name d) ++ names) (panel_guard d :: gs) on' x
  | si_handler : forall d sl ps hs ss j h at_ names gs on on' x,
      nth_error hs j = Some h -> handler_site h at_ names gs on x ->
      (forall l, on' l = accepts (lab_eqb X) (pd_filter d) l && on l) ->
      panel_site (Panel d sl ps hs ss) (5 :: j :: at_)%nat (opt_list (pd_name d) ++ names) (panel_guard d :: gs) on' x
  | si_shown : forall d sl ps hs ss j s on,
      nth_error ss j = Some s -> (forall l, on l = false) ->
      panel_site (Panel d sl ps hs ss) [6; j]%nat (opt_list (pd_name d)) [panel_guard d] on (LShown s)
  with handler_site : handler X -> list nat -> list string -> list guard -> (lab X -> bool) -> leaf X -> Prop :=
  | si_instrument : forall a on,
      (forall l, on l = accepts (lab_eqb X) (ad_filter a) l) ->
      handler_site (HInstrument a) [] [] [] on (LInstrument (ad_instrument a) (ad_modify a))
  | si_gauge_handler : forall a on,
      (forall l, on l = gauge_listens l a) ->
      handler_site (HGauge a) [] [] [] on (LGauge a)
  | si_panel_handler : forall p at_ names gs on x,
      panel_site p at_ names gs on x -> handler_site (HPanel p) at_ names gs on x
  | si_cockpit_handler : forall c at_ names gs on x,
      cockpit_site c at_ names gs on x -> handler_site (HCockpit c) at_ names gs on x
  | si_user : forall u on,
      (forall l, on l = true) -> handler_site (HUser u) [] [] [] on (LUser u)
  with cockpit_site : cockpit X -> list nat -> list string -> list guard -> (lab X -> bool) -> leaf X -> Prop :=
  | si_cockpit_panel : forall d ps hs ss j p at_ names gs on x,
      nth_error ps j = Some p -> panel_site p at_ names gs on x ->
      cockpit_site (Cockpit d ps hs ss) (0 :: j :: at_)%nat (opt_list (cd_name d) ++ names) (cockpit_guard d :: gs) on x
  | si_cockpits_handler : forall d ps hs ss j h at_ names gs on x,
      nth_error hs j = Some h -> handler_site h at_ names gs on x ->
      cockpit_site (Cockpit d ps hs ss) (1 :: j :: at_)%nat (opt_list (cd_name d) ++ names) (cockpit_guard d :: gs) on x
  | si_cockpit_shown : forall d ps hs ss j s on,
      nth_error ss j = Some s -> (forall l, on l = false) ->
      cockpit_site (Cockpit d ps hs ss) [2; j]%nat (opt_list (cd_name d)) [cockpit_guard d] on (LShown s).

  Inductive tele_site : tele X -> list nat -> list string -> list guard -> (lab X -> bool) -> leaf X -> Prop :=
  | si_cockpit : forall t j c at_ names gs on x,
      nth_error (tp_cockpits t) j = Some c -> cockpit_site c at_ names gs on x ->
      tele_site t (0 :: j :: at_)%nat (opt_list (tp_name t) ++ names) (tele_guard t :: gs) on x
  | si_teles_handler : forall t j h at_ names gs on x,
      nth_error (tp_handlers t) j = Some h -> handler_site h at_ names gs on x ->
      tele_site t (1 :: j :: at_)%nat (opt_list (tp_name t) ++ names) (tele_guard t :: gs) on x
  | si_tele_shown : forall t j s on,
      nth_error (tp_snapshooters t) j = Some s -> (forall l, on l = false) ->
      tele_site t [2; j]%nat (opt_list (tp_name t)) [tele_guard t] on (LShown s).

  (** A processor somewhere below another one *)
  Inductive processor_site : processor X Y -> list place -> list string -> list guard -> tele X -> Prop :=
  | si_here : forall t, processor_site (PTele t) [] [] [] t
  | si_mount : forall d ps ss j p path names gs t,
      nth_error ps j = Some p -> processor_site p path names gs t ->
      processor_site (PMount (Mount d ps ss)) (Level (md_name d) (md_limit d) :: Position j :: path) (opt_list (md_name d) ++ names) (mount_guard d :: gs) t
  | si_attached : forall i d ps ss j p path names gs t,
      nth_error ps j = Some p -> processor_site p path names gs t ->
      processor_site (PAttached i (Mount d ps ss)) (Level (md_name d) (md_limit d) :: Position j :: path) (opt_list (md_name d) ++ names) (mount_guard d :: gs) t.

  (** The names on a way *)
  Definition names_on (path : list place) : list string :=
    flat_map (fun x => match x with Level n _ => opt_list n | Position _ => [] end) path.

  (** ... and the inactivity limits *)
  Definition limits_on (path : list place) : list (option Z) :=
    flat_map (fun x => match x with Level _ limit => [limit] | Position _ => [] end) path.

  (** ** The life of an instrument *)

  Definition leaf_put (x : leaf X) (de : bool) (into : snapshot) : M (leaf X * snapshot) :=
    match x with
    | LInstrument i m => let* '(i', s) := instrument_put i de into in ret (LInstrument i' m, s)
    | LGauge a => let* '(a', s) := ga_put a de into in ret (LGauge a', s)
    | LUser u => let* '(u', s) := user_handler_put X u de into in ret (LUser u', s)
    | LCockpit d => ret (LCockpit d, into)
    | LShown sn => let* '(sn', s) := snapshooter_put sn de into in ret (LShown sn', s)
    end.

  (** Between [c] and [c'] it handles the observations one after the other; in
      between it is shown in snapshots. *)
  Inductive leaf_life (k : cfg) : clock -> leaf X -> list (observation (lab X)) -> leaf X -> clock -> Prop :=
  | ll_end : forall c x c', later c c' -> leaf_life k c x [] x c'
  | ll_handles : forall c c0 o x x1 n c1 os x2 c2,
      later c c0 -> leaf_handle o x k c0 = Ok (x1, n) c1 ->
      leaf_life k c1 x1 os x2 c2 -> leaf_life k c x (o :: os) x2 c2
  | ll_shown : forall c c0 x de into x1 s c1 os x2 c2,
      later c c0 -> leaf_put x de into k c0 = Ok (x1, s) c1 ->
      leaf_life k c1 x1 os x2 c2 -> leaf_life k c x os x2 c2.

  Definition observations_in (ms : list (message X)) : list (observation (lab X)) :=
    flat_map (fun m => match m with MObservation o => [o] | _ => [] end) ms.

  (** Of the observations handled in collections those that the strategy keeps and
      that have one of the labels [on] *)
  Inductive seen (on : lab X -> bool) : list (entry X) -> list (observation (lab X)) -> Prop :=
  | seen_nil : seen on [] []
  | seen_entry : forall e es os os',
      without (fun o => ~ (kept_by (en_strategy e) (en_start e) o /\ on (obs_label o) = true)) (observations_in (en_messages e)) os ->
      seen on es os' -> seen on (e :: es) (os ++ os').

  (** A message that removes nothing *)
  Definition lasting (m : message X) : Prop :=
    match m with MRemoveCockpit _ | MRemovePanelFromCockpit _ _ => False | _ => True end.

  (** The names of the cockpits and of their panels *)
  Definition layout (t : tele X) : list (option string * list (option string)) :=
    map (fun c => (cockpit_name c, map panel_name (c_panels c))) (tp_cockpits t).

  (** The names of the cockpit of an address and of the panel in that cockpit, if
      there are such ones *)
  Definition owners (at_ : list nat) (l : list (option string * list (option string))) : option string * option string :=
    match at_ with
    | O :: j :: rest =>
        match nth_error l j with
        | Some (n, ps) => (n, match rest with O :: i :: _ => match nth_error ps i with Some n => n | None => None end | _ => None end)
        | None => (None, None)
        end
    | _ => (None, None)
    end.

  (** The message removes neither of the two. *)
  Definition spares (o : option string * option string) (m : message X) : Prop :=
    match m with
    | MRemoveCockpit n => fst o <> Some n
    | MRemovePanelFromCockpit c p => ~ (fst o = Some c /\ snd o = Some p)
    | _ => True
    end.

  (** ** In snapshots *)

  (** The fields are in the snapshot below these names. *)
  Fixpoint contains (names : list string) (fields s : snapshot) : Prop :=
    match names with
    | [] => exists before after, s = before ++ fields ++ after
    | n :: names => exists before inner after, s = before ++ (n, ItemSnapshot inner) :: after /\ contains names fields inner
    end.

  (** A snapshot is written between [c] and [c'], which appends [added]: [x] is
      shown below [names] unless something hides it; [x'] is [x] afterwards. *)
  Definition presented (k : cfg) (c : clock) (names : list string) (gs : list guard) (x x' : leaf X) (de : bool) (added : snapshot)
    (c' : clock) : Prop :=
    (x' = x /\ exists g c1, In g gs /\ later c c1 /\ later c1 c' /\ hides g (c1 O))
    \/ exists level fields c1 c2,
         later c c1 /\ leaf_put x de level k c1 = Ok (x', level ++ fields) c2 /\ later c2 c' /\ contains names fields added.
End Site.
