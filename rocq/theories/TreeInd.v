(** Induction over trees of panels, handlers, cockpits and snapshooters, and over
    trees of processors and mounts. *)
From Coq Require Import List.
From Verif Require Import ModelTree ModelProcessor ModelInstrument.
Import ListNotations.

Section TreeInd.
  Context {X : ext}.
  Context (Pp : panel X -> Prop) (Ph : handler X -> Prop) (Pc : cockpit X -> Prop)
    (Ps : snapshooter X -> Prop).
  Context
    (Hpanel : forall d sl ps hs ss, Forall Pp ps -> Forall Ph hs -> Forall Ps ss -> Pp (Panel d sl ps hs ss))
    (Hinstr : forall a, Ph (HInstrument a))
    (Hgauge : forall a, Ph (HGauge a))
    (Hhpanel : forall p, Pp p -> Ph (HPanel p))
    (Hhcockpit : forall c, Pc c -> Ph (HCockpit c))
    (Huser : forall u, Ph (HUser u))
    (Hcockpit : forall d ps hs ss, Forall Pp ps -> Forall Ph hs -> Forall Ps ss -> Pc (Cockpit d ps hs ss))
    (Hconst : forall v, Ps (SConstant v))
    (Hpoll : forall n d g s, Ps s -> Ps (SPolled n d g s))
    (Hsinstr : forall i, Ps (SInstrument i))
    (Hshandler : forall h, Ph h -> Ps (SHandler h))
    (Hsuser : forall u, Ps (SUser u)).

  Fixpoint panel_rec' (p : panel X) : Pp p :=
    match p with
    | Panel d sl ps hs ss =>
        Hpanel d sl ps hs ss
          ((fix go l : Forall Pp l :=
              match l with [] => Forall_nil _ | x :: r => Forall_cons _ (panel_rec' x) (go r) end) ps)
          ((fix go l : Forall Ph l :=
              match l with [] => Forall_nil _ | x :: r => Forall_cons _ (handler_rec' x) (go r) end) hs)
          ((fix go l : Forall Ps l :=
              match l with [] => Forall_nil _ | x :: r => Forall_cons _ (snapshooter_rec' x) (go r) end) ss)
    end
  with handler_rec' (h : handler X) : Ph h :=
    match h with
    | HInstrument a => Hinstr a
    | HGauge a => Hgauge a
    | HPanel p => Hhpanel p (panel_rec' p)
    | HCockpit c => Hhcockpit c (cockpit_rec' c)
    | HUser u => Huser u
    end
  with cockpit_rec' (c : cockpit X) : Pc c :=
    match c with
    | Cockpit d ps hs ss =>
        Hcockpit d ps hs ss
          ((fix go l : Forall Pp l :=
              match l with [] => Forall_nil _ | x :: r => Forall_cons _ (panel_rec' x) (go r) end) ps)
          ((fix go l : Forall Ph l :=
              match l with [] => Forall_nil _ | x :: r => Forall_cons _ (handler_rec' x) (go r) end) hs)
          ((fix go l : Forall Ps l :=
              match l with [] => Forall_nil _ | x :: r => Forall_cons _ (snapshooter_rec' x) (go r) end) ss)
    end
  with snapshooter_rec' (s : snapshooter X) : Ps s :=
    match s with
    | SConstant v => Hconst v
    | SPolled n d g s => Hpoll n d g s (snapshooter_rec' s)
    | SInstrument i => Hsinstr i
    | SHandler h => Hshandler h (handler_rec' h)
    | SUser u => Hsuser u
    end.

  Lemma tree_ind : (forall p, Pp p) /\ (forall h, Ph h) /\ (forall c, Pc c) /\ (forall s, Ps s).
  Proof.
    exact (conj panel_rec' (conj handler_rec' (conj cockpit_rec' snapshooter_rec'))).
  Qed.
End TreeInd.

Section ProcessorInd.
  Context {X : ext} {Y : pext}.
  Context (Pp : processor X Y -> Prop) (Pm : mount X Y -> Prop).
  Context
    (Htele : forall t, Pp (PTele t))
    (Hmount : forall m, Pm m -> Pp (PMount m))
    (Hattached : forall r m, Pm m -> Pp (PAttached r m))
    (Hdriver : forall h, Pp (PDriver h))
    (Huser : forall u, Pp (PUser u))
    (Hm : forall d ps ss, Forall Pp ps -> Pm (Mount d ps ss)).

  Fixpoint processor_rec' (p : processor X Y) : Pp p :=
    match p with
    | PTele t => Htele t
    | PMount m => Hmount m (mount_rec' m)
    | PAttached r m => Hattached r m (mount_rec' m)
    | PDriver h => Hdriver h
    | PUser u => Huser u
    end
  with mount_rec' (m : mount X Y) : Pm m :=
    match m with
    | Mount d ps ss =>
        Hm d ps ss
          ((fix go l : Forall Pp l :=
              match l with [] => Forall_nil _ | x :: r => Forall_cons _ (processor_rec' x) (go r) end) ps)
    end.

  Lemma processor_ind' : (forall p, Pp p) /\ (forall m, Pm m).
  Proof. exact (conj processor_rec' mount_rec'). Qed.
End ProcessorInd.
