(** Specification of building trees of components: what there is afterwards. *)
From Coq Require Import ZArith Bool String List.
From Verif Require Import Base SpecRun SpecClock ModelObservation ModelLabelFilter ModelSnapshot ModelInstrument ModelTree ModelChannel ModelProcessor ModelTransmitter SpecNames SpecTree SpecSite.
Import ListNotations.

Section Build.
  Context {X : ext}.

  (** What there is at which address: the names on the way, what may hide it, the
      labels that reach it and the instrument or handler itself *)
  Definition sites := list nat -> list string -> list guard -> (lab X -> bool) -> leaf X -> Prop.

  (** The sites [s] as parts of a component: below the address [at_], with the name
      and the guard of the component, for labels that pass [f] *)
  Definition under (at0 : list nat) (n : option string) (g : guard) (f : lab X -> bool) (s : sites) : sites :=
    fun at_ names gs on x => exists at1 names1 gs1 on1,
      s at1 names1 gs1 on1 x
      /\ at_ = at0 ++ at1 /\ names = opt_list n ++ names1 /\ gs = g :: gs1 /\ (forall l, on l = f l && on1 l).

  (** Everything that was there is still there, [added] is new, and there is
      nothing else. *)
  Definition gains (old added new : sites) : Prop :=
    (forall at_ names gs on x, new at_ names gs on x <-> old at_ names gs on x \/ added at_ names gs on x)
    /\ (forall at_ names gs on x names' gs' on' x', old at_ names gs on x -> added at_ names' gs' on' x' -> False).

  Definition in_panel (p : panel X) (at0 : list nat) (s : sites) : sites :=
    under at0 (panel_name p) (panel_guard (p_data p)) (accepts (lab_eqb X) (pd_filter (p_data p))) s.
  Definition in_cockpit (c : cockpit X) (at0 : list nat) (s : sites) : sites :=
    under at0 (cockpit_name c) (cockpit_guard (c_data c)) (fun _ => true) s.
  Definition in_tele (t : tele X) (at0 : list nat) (s : sites) : sites :=
    under at0 (tp_name t) (tele_guard t) (fun _ => true) s.

  (** One more part somewhere in the panel, everything else stays. *)
  Definition panel_gains (p : panel X) (s : sites) (p' : panel X) : Prop :=
    (exists at0, gains (panel_site p) (in_panel p at0 s) (panel_site p'))
    /\ p_data p' = p_data p /\ p_snapshooters p' = p_snapshooters p.
  Definition cockpit_gains (c : cockpit X) (s : sites) (c' : cockpit X) : Prop :=
    (exists at0, gains (cockpit_site c) (in_cockpit c at0 s) (cockpit_site c'))
    /\ c_data c' = c_data c /\ c_snapshooters c' = c_snapshooters c.
  Definition tele_gains (t : tele X) (s : sites) (t' : tele X) : Prop :=
    (exists at0, gains (tele_site t) (in_tele t at0 s) (tele_site t'))
    /\ tp_name t' = tp_name t /\ tp_descr t' = tp_descr t /\ tp_receiver t' = tp_receiver t /\ tp_snapshooters t' = tp_snapshooters t
    /\ tele_guard t' = tele_guard t /\ tp_disconnected t' = tp_disconnected t.

  (** A snapshooter alone: no label reaches it. *)
  Definition snapshooter_site (s : snapshooter X) : sites :=
    fun at_ names gs on x => at_ = [] /\ names = [] /\ gs = [] /\ (forall l, on l = false) /\ x = LShown s.

  (** A snapshot is written by a component with this name and this guard between
      [c] and [c'], which appends [added]: the snapshooter [s] is in it unless the
      component is inactive; [s'] is the snapshooter afterwards. *)
  Definition shoots (k : cfg) (c : clock) (n : option string) (g : guard) (s : snapshooter X) (de : bool) (added : snapshot)
    (s' : snapshooter X) (c' : clock) : Prop :=
    (s' = s /\ exists c1, later c c1 /\ later c1 c' /\ hides g (c1 O))
    \/ exists level fields c1 c2,
         later c c1 /\ snapshooter_put s de level k c1 = Ok (s', level ++ fields) c2 /\ later c2 c'
         /\ contains (opt_list n) fields added.

  (** One more snapshooter at the end, everything else stays. *)
  Definition one_more (old new : list (snapshooter X)) (s : snapshooter X) : Prop :=
    length new = S (length old) /\ nth_error new (length old) = Some s
    /\ forall j x, nth_error old j = Some x -> nth_error new j = Some x.
End Build.
Arguments sites : clear implicits.

(** What a call on a transmitter means for the processor it belongs to *)
Section Calls.
  Context {X : ext}.

  (** The message a transmitter puts into the queue, waiting for a place if it is
      a blocking one *)
  Definition sends (tx : transmitter) (a : chan_action (message X)) (m : message X) : Prop :=
    (tx_use_send tx = true /\ a = Send m) \/ (tx_use_send tx = false /\ a = TrySend m).

  (** When the message is received, [t] becomes [t'], whatever the strategy is. *)
  Definition requests (tx : transmitter) (t : tele X) (a : chan_action (message X)) (t' : tele X) : Prop :=
    exists m, sends tx a m /\ forall d n, commanded d t n m t'.

  (** Everything but the cockpits stays as it is. *)
  Definition other_cockpits (t : tele X) (cs : list (cockpit X)) (t' : tele X) : Prop :=
    t' = Tele (tp_name t) (tp_descr t) cs (tp_handlers t) (tp_receiver t) (tp_snapshooters t) (tp_last_activity t)
      (tp_limit t) (tp_show_activity t) (tp_disconnected t).
End Calls.
