(** Processors with the same normal form cannot be told apart, and snapshots that
    are inserted into a history do not matter. *)
From Coq Require Import ZArith Bool String List Lia.
From Verif Require Import Base SpecRun MonadFacts ModelObservation ModelLabelFilter ModelSnapshot ModelBuckets
  ModelCounter ModelGauge ModelMeter ModelHistogram ModelSwitches ModelInstrument ModelTree ModelChannel
  ModelProcessor SpecSafe SpecReads TreeInd TreeEqs TreeProofs StaysProofs ReadsLeafProofs ReadsTreeProofs
  ReadsHistoryProofs.
Import ListNotations.
Open Scope Z_scope.

(** ** Later normal forms *)

Section Later.
  Context {X : ext} {Y : pext}.
  Variables (t t' : Z) (Ht : t <= t').

  Lemma norm_instrument_norm : forall i : instrument X, norm_instrument t' (norm_instrument t i) = norm_instrument t' i.
  Proof.
    intros []; cbn [norm_instrument]; f_equal; auto using norm_gauge_norm, norm_meter_norm, norm_value_meter_norm.
  Qed.

  Lemma norm_adapter_norm : forall I (f g : I -> I) (a : adapter X I), (forall x, g (f x) = g x) ->
    norm_adapter g (norm_adapter f a) = norm_adapter g a.
  Proof. intros I f g a H. unfold norm_adapter, adapter_with. cbn. rewrite H. reflexivity. Qed.

  Lemma norm_ga_norm : forall L (a : gauge_adapter L), norm_ga t' (norm_ga t a) = norm_ga t' a.
  Proof. intros. unfold norm_ga, ga_with. cbn. rewrite norm_gauge_norm by exact Ht. reflexivity. Qed.

  Lemma option_map_norm : forall A (f g : A -> A) o, (forall x, g (f x) = g x) ->
    option_map g (option_map f o) = option_map g o.
  Proof. intros A f g [x|] H; cbn; [rewrite H|]; reflexivity. Qed.

  Lemma norm_slots_norm : forall sl : slots X, norm_slots t' (norm_slots t sl) = norm_slots t' sl.
  Proof.
    intros []. unfold norm_slots. cbn. f_equal; apply option_map_norm; intros; try apply norm_adapter_norm; intros;
      auto using norm_ga_norm, norm_meter_norm.
  Qed.

  Lemma map_norm : forall A (f g : A -> A) l, Forall (fun x => g (f x) = g x) l -> map g (map f l) = map g l.
  Proof. intros A f g l H. induction H; cbn; congruence. Qed.

  Lemma tree_norm :
    (forall p : panel X, norm_panel t' (norm_panel t p) = norm_panel t' p)
    /\ (forall h : handler X, norm_handler t' (norm_handler t h) = norm_handler t' h)
    /\ (forall c : cockpit X, norm_cockpit t' (norm_cockpit t c) = norm_cockpit t' c)
    /\ (forall s : snapshooter X, norm_snapshooter t' (norm_snapshooter t s) = norm_snapshooter t' s).
  Proof.
    apply tree_ind; intros; cbn [norm_panel norm_handler norm_cockpit norm_snapshooter]; f_equal;
      auto using norm_slots_norm, map_norm, norm_ga_norm, norm_instrument_norm.
    apply norm_adapter_norm. apply norm_instrument_norm.
  Qed.

  Definition norm_tele (t : Z) (p : tele X) : tele X :=
    Tele (tp_name p) (tp_descr p) (map (norm_cockpit t) (tp_cockpits p)) (map (norm_handler t) (tp_handlers p))
      (tp_receiver p) (map (norm_snapshooter t) (tp_snapshooters p)) (tp_last_activity p) (tp_limit p)
      (tp_show_activity p) (tp_disconnected p).

  Lemma norm_tele_norm : forall p, norm_tele t' (norm_tele t p) = norm_tele t' p.
  Proof.
    intros []. destruct tree_norm as (_ & Hh & Hc & Hs). unfold norm_tele. cbn.
    f_equal; apply map_norm; apply Forall_forall; auto.
  Qed.
End Later.

Fixpoint norm_processor {X Y} (t : Z) (p : processor X Y) {struct p} : processor X Y :=
  match p with
  | PTele p => PTele (norm_tele t p)
  | PMount m => PMount (norm_mount t m)
  | PAttached r m => PAttached r (norm_mount t m)
  | PDriver h => PDriver h
  | PUser u => PUser u
  end
with norm_mount {X Y} (t : Z) (m : mount X Y) {struct m} : mount X Y :=
  match m with
  | Mount d ps ss => Mount d (map (norm_processor t) ps) (map (norm_snapshooter t) ss)
  end.

Lemma processor_norm : forall X Y t t', t <= t' ->
  (forall p : processor X Y, norm_processor t' (norm_processor t p) = norm_processor t' p)
  /\ (forall m : mount X Y, norm_mount t' (norm_mount t m) = norm_mount t' m).
Proof.
  intros X Y t t' H. destruct (tree_norm (X := X) t t' H) as (_ & _ & _ & Hs).
  apply processor_ind'; intros; cbn [norm_processor norm_mount]; f_equal; auto using norm_tele_norm, map_norm.
  apply map_norm. apply Forall_forall. auto.
Qed.

(** ** Snapshots of processors *)

Section Show.
  Variables (k : cfg) (t : Z).
  Context {X : ext} {Y : pext} (HX : parts_quiet X) (HY : processors_quiet Y).

  Lemma norm_tele_inv : forall a b : tele X, norm_tele t a = norm_tele t b ->
    tp_name a = tp_name b /\ tp_descr a = tp_descr b
    /\ map (norm_cockpit t) (tp_cockpits a) = map (norm_cockpit t) (tp_cockpits b)
    /\ map (norm_handler t) (tp_handlers a) = map (norm_handler t) (tp_handlers b)
    /\ tp_receiver a = tp_receiver b
    /\ map (norm_snapshooter t) (tp_snapshooters a) = map (norm_snapshooter t) (tp_snapshooters b)
    /\ tp_last_activity a = tp_last_activity b /\ tp_limit a = tp_limit b
    /\ tp_show_activity a = tp_show_activity b /\ tp_disconnected a = tp_disconnected b.
  Proof. intros [] [] E. unfold norm_tele in E. cbn in *. injection E. auto 20. Qed.

  Lemma tele_shows : forall p : tele X, shows k t (norm_tele t) tele_put p.
  Proof.
    intros p q de s E. pose proof (norm_tele_inv _ _ E) as (E1 & E2 & E3 & E4 & E5 & E6 & E7 & E8 & E9 & E10).
    destruct (tree_shows k t HX) as (_ & Hh & Hc & Hs). unfold tele_put. rewrite <- E1, <- E2, <- E5, <- E7, <- E8, <- E9, <- E10.
    apply named_shows. intros s1. apply activity_shows; [exact E|]. intros s2.
    eapply sim_bind; [apply traverse_shows with (nf := norm_cockpit t); [apply Forall_forall; auto|exact E3]|].
    intros [cs1 n1] [cs2 m] (N2 & M2 & En). cbn [fst snd] in N2, M2, En. subst m.
    eapply sim_bind; [apply traverse_shows with (nf := norm_handler t); [apply Forall_forall; auto|exact E4]|].
    intros [hs1 n3] [hs2 m] (N4 & M4 & En). cbn [fst snd] in N4, M4, En. subst m.
    eapply sim_bind; [apply traverse_shows with (nf := norm_snapshooter t); [apply Forall_forall; auto|exact E6]|].
    intros [ss1 n2] [ss2 m] (N3 & M3 & En). cbn [fst snd] in N3, M3, En. subst m.
    apply sim_ret. unfold norm_tele. repeat split; cbn; congruence.
  Qed.

  Lemma PTele_inj : forall a b, PTele (Y := Y) (X := X) a = PTele b -> a = b.
  Proof. intros a b E. injection E. auto. Qed.

  Lemma processor_shows :
    (forall p : processor X Y, shows k t (norm_processor t) processor_put p)
    /\ (forall m : mount X Y, shows k t (norm_mount t) mount_put m).
  Proof.
    apply processor_ind'.
    - intros p [q| | | |] de s E; cbn [norm_processor] in E; try discriminate E. apply PTele_inj in E.
      cbn [processor_put]. eapply wrap_shows with (nf := norm_tele t); [intros x y Exy; cbn [norm_processor]; congruence|].
      apply tele_shows. exact E.
    - intros m Hm [|n| | |] de s E; cbn [norm_processor] in E; try discriminate E. injection E as E.
      change (sim k t (wrap PMount (mount_put m de s)) (wrap PMount (mount_put n de s))
                (kept (norm_processor t) (PMount m))).
      eapply wrap_shows with (nf := norm_mount t); [intros x y Exy; cbn [norm_processor]; congruence|].
      apply Hm. exact E.
    - intros r m Hm [| |r' n| |] de s E; cbn [norm_processor] in E; try discriminate E. injection E as <- E.
      change (sim k t (wrap (PAttached r) (mount_put m de s)) (wrap (PAttached r) (mount_put n de s))
                (kept (norm_processor t) (PAttached r m))).
      eapply wrap_shows with (nf := norm_mount t); [intros x y Exy; cbn [norm_processor]; congruence|].
      apply Hm. exact E.
    - intros h [| | |h'|] de s E; cbn [norm_processor] in E; try discriminate E. injection E as <-.
      cbn [processor_put]. eapply wrap_shows with (nf := fun h => h); [intros x y <-; reflexivity|].
      apply shows_id; [| |reflexivity].
      + intros x d s0. unfold driver_put. apply stays_bind; [apply (pq_driver_snapshot Y HY)|]. intros [].
        apply stays_ret.
      + intros x d s0 k' t0 y s' c E. unfold driver_put in E. apply bind_ok in E.
        destruct E as ([y' ans] & c1 & E1 & E). injection E as <- <- <-. exact (pq_driver_same Y HY _ _ _ _ _ _ _ E1).
    - intros u [| | | |v] de s E; cbn [norm_processor] in E; try discriminate E. injection E as <-.
      cbn [processor_put]. eapply wrap_shows with (nf := fun h => h); [intros x y <-; reflexivity|].
      apply shows_id; [apply (pq_proc_put Y HY)|apply (pq_proc_same Y HY)|reflexivity].
    - intros d ps ss Hp [d' ps' ss'] de s E. pose proof E as E0. cbn [norm_mount] in E. injection E as <- Eps Ess.
      destruct (tree_shows k t HX) as (_ & _ & _ & Hs). rewrite !mount_put_eq.
      apply named_shows. intros s1. apply activity_shows; [exact E0|]. intros s2.
      eapply sim_bind; [apply traverse_shows with (nf := norm_processor t); [exact Hp|exact Eps]|].
      intros [ps1 n1] [ps2 m] (N2 & M2 & En). cbn [fst snd] in N2, M2, En. subst m.
      eapply sim_bind; [apply traverse_shows with (nf := norm_snapshooter t); [apply Forall_forall; auto|exact Ess]|].
      intros [ss1 n2] [ss2 m] (N3 & M3 & En). cbn [fst snd] in N3, M3, En. subst m.
      apply sim_ret. repeat split; cbn [fst norm_mount]; congruence.
  Qed.

  (** ** Messages *)

  Lemma panel_name_norm : forall p : panel X, panel_name (norm_panel t p) = panel_name p.
  Proof. intros []. reflexivity. Qed.
  Lemma cockpit_name_norm : forall c : cockpit X, cockpit_name (norm_cockpit t c) = cockpit_name c.
  Proof. intros []. reflexivity. Qed.

  Lemma norm_cockpit_eq : forall d ps hs ss, norm_cockpit (X := X) t (Cockpit d ps hs ss)
    = Cockpit d (map (norm_panel t) ps) (map (norm_handler t) hs) (map (norm_snapshooter t) ss).
  Proof. reflexivity. Qed.

  Lemma existsb_map : forall A B (f : A -> B) g l, existsb g (map f l) = existsb (fun x => g (f x)) l.
  Proof. induction l; cbn; congruence. Qed.
  Lemma existsb_ext : forall A (f g : A -> bool) l, (forall x, f x = g x) -> existsb f l = existsb g l.
  Proof. induction l; intros; cbn; [reflexivity|]. rewrite H, IHl; auto. Qed.
  Lemma filter_map : forall A (f : A -> A) g l, (forall x, g (f x) = g x) -> filter g (map f l) = map f (filter g l).
  Proof. induction l; intros; cbn; [reflexivity|]. rewrite H. destruct (g a); cbn; rewrite IHl; auto. Qed.

  Lemma norm_add_panel : forall c p, norm_cockpit t (cockpit_add_panel (X := X) c p)
    = cockpit_add_panel (norm_cockpit t c) (norm_panel t p).
  Proof.
    intros [d ps hs ss] p. rewrite norm_cockpit_eq. cbn [cockpit_add_panel]. rewrite panel_name_norm.
    destruct (panel_name p) as [n|]; [|rewrite norm_cockpit_eq, map_app; reflexivity].
    assert (Ex : existsb (fun q => is_named n (panel_name q)) (map (norm_panel t) ps)
                 = existsb (fun q => is_named n (panel_name q)) ps).
    { rewrite existsb_map. apply existsb_ext. intros. rewrite panel_name_norm. reflexivity. }
    rewrite Ex.
    destruct (existsb _ ps); rewrite norm_cockpit_eq; [reflexivity|]. rewrite map_app. reflexivity.
  Qed.

  Lemma norm_remove_panel : forall c n, norm_cockpit t (cockpit_remove_panel (X := X) c n)
    = cockpit_remove_panel (norm_cockpit t c) n.
  Proof.
    intros [d ps hs ss] n. rewrite norm_cockpit_eq. cbn [cockpit_remove_panel]. rewrite norm_cockpit_eq. f_equal. symmetry. apply filter_map.
    intros. rewrite panel_name_norm. reflexivity.
  Qed.

  Lemma norm_update_first : forall n f g cs,
    (forall c, norm_cockpit t (f c) = g (norm_cockpit t c)) ->
    map (norm_cockpit t) (update_first (X := X) n f cs) = update_first n g (map (norm_cockpit t) cs).
  Proof.
    intros n f g cs H. induction cs as [|c cs IH]; cbn; [reflexivity|]. rewrite cockpit_name_norm.
    destruct (is_named n (cockpit_name c)); cbn; congruence.
  Qed.

  Lemma norm_tele_with : forall p cs hs, norm_tele t (tele_with p cs hs)
    = tele_with (norm_tele t p) (map (norm_cockpit t) cs) (map (norm_handler (X := X) t) hs).
  Proof. reflexivity. Qed.

  Lemma norm_add_cockpit : forall p c, norm_tele (X := X) t (tele_add_cockpit p c)
    = tele_add_cockpit (norm_tele t p) (norm_cockpit t c).
  Proof.
    intros p c. unfold tele_add_cockpit. rewrite cockpit_name_norm.
    assert (E : map (norm_cockpit t) (tp_cockpits p ++ [c]) = tp_cockpits (norm_tele t p) ++ [norm_cockpit t c])
      by (rewrite map_app; reflexivity).
    destruct (cockpit_name c) as [n|]; [|rewrite norm_tele_with, E; reflexivity].
    assert (Ex : existsb (fun q => is_named n (cockpit_name q)) (tp_cockpits (norm_tele t p))
                 = existsb (fun q => is_named n (cockpit_name q)) (tp_cockpits p)).
    { cbn [norm_tele tp_cockpits]. rewrite existsb_map. apply existsb_ext. intros. rewrite cockpit_name_norm. reflexivity. }
    rewrite Ex. destruct (existsb _ (tp_cockpits p)); [reflexivity|]. rewrite norm_tele_with, E. reflexivity.
  Qed.

  Lemma norm_remove_cockpit : forall p n, norm_tele (X := X) t (tele_remove_cockpit p n)
    = tele_remove_cockpit (norm_tele t p) n.
  Proof.
    intros p n. unfold tele_remove_cockpit. rewrite norm_tele_with. f_equal. symmetry. cbn [norm_tele tp_cockpits].
    apply filter_map. intros. rewrite cockpit_name_norm. reflexivity.
  Qed.

  Lemma norm_add_handler : forall p h, norm_tele (X := X) t (tele_add_handler p h)
    = tele_add_handler (norm_tele t p) (norm_handler t h).
  Proof. intros. unfold tele_add_handler. rewrite norm_tele_with, map_app. reflexivity. Qed.

  Lemma tele_handles : forall (p q : tele X) o acc, norm_tele t p = norm_tele t q ->
    sim k t (tele_handle p o acc) (tele_handle q o acc) (alike (norm_tele t)).
  Proof.
    intros p q o acc E. pose proof (norm_tele_inv _ _ E) as (E1 & E2 & E3 & E4 & E5 & E6 & E7 & E8 & E9 & E10).
    destruct (tree_acts k t HX) as (_ & Hh & Hc & _). unfold tele_handle.
    eapply sim_bind; [apply traverse_acts with (nf := norm_cockpit t); [apply Forall_forall; intros x _ y Exy; exact (Hc x y o Exy)|exact E3]|].
    intros [cs1 n2] [cs2 m] [N3 En]. cbn [fst snd] in N3, En. subst m.
    eapply sim_bind; [apply traverse_acts with (nf := norm_handler t); [apply Forall_forall; intros x _ y Exy; exact (Hh x y o Exy)|exact E4]|].
    intros [hs1 n3] [hs2 m] [N4 En]. cbn [fst snd] in N4, En. subst m.
    apply sim_ret. split; [|reflexivity]. cbn [fst]. rewrite !norm_tele_with. congruence.
  Qed.

  Lemma tele_messages : forall d (p q : tele X) n m, norm_tele t p = norm_tele t q ->
    sim k t (tele_message d p n m) (tele_message d q n m) (alike (norm_tele t)).
  Proof.
    intros d p q n m E. unfold tele_message.
    destruct m as [o|c|c|h|c x|c x].
    - destruct (should_be_processed d o).
      + eapply sim_bind; [apply tele_handles; exact E|].
        intros [p1 u] [q1 u'] [N Eu]. cbn [fst snd] in N, Eu. subst u'.
        apply sim_step; [auto with stays|]. intros pr. apply sim_ret. split; auto.
      + apply sim_step; [auto with stays|]. intros dr. apply sim_ret. split; auto.
    - apply sim_step; [auto with stays|]. intros pr. apply sim_ret. split; [|reflexivity]. cbn [fst].
      rewrite !norm_add_cockpit. congruence.
    - apply sim_step; [auto with stays|]. intros pr. apply sim_ret. split; [|reflexivity]. cbn [fst].
      rewrite !norm_remove_cockpit. congruence.
    - apply sim_step; [auto with stays|]. intros pr. apply sim_ret. split; [|reflexivity]. cbn [fst].
      rewrite !norm_add_handler. congruence.
    - apply sim_step; [auto with stays|]. intros pr. apply sim_ret. split; [|reflexivity]. cbn [fst].
      rewrite !norm_tele_with. rewrite !(norm_update_first _ _ (fun c => cockpit_add_panel c (norm_panel t x)))
        by (intros; apply norm_add_panel).
      pose proof (norm_tele_inv _ _ E) as (_ & _ & E3 & E4 & _). congruence.
    - apply sim_step; [auto with stays|]. intros pr. apply sim_ret. split; [|reflexivity]. cbn [fst].
      rewrite !norm_tele_with. rewrite !(norm_update_first _ _ (fun c => cockpit_remove_panel c x))
        by (intros; apply norm_remove_panel).
      pose proof (norm_tele_inv _ _ E) as (_ & _ & E3 & E4 & _). congruence.
  Qed.

  (** ** Collections *)

  Definition wsim {A B} (m1 : St (world X Y) A) (m2 : St (world X Y) B) (P : A -> B -> Prop) : Prop :=
    forall w a b w1 w2, w_clock w = frozen t -> m1 k w = Ok a w1 -> m2 k w = Ok b w2 ->
      w1 = w2 /\ w_clock w1 = frozen t /\ P a b.

  Lemma wsim_ret : forall A B (a : A) (b : B) (P : A -> B -> Prop), P a b -> wsim (ret a) (ret b) P.
  Proof. intros A B a b P H w x y w1 w2 Hw E1 E2. injection E1 as <- <-. injection E2 as <- <-. auto. Qed.

  Lemma wsim_bind : forall A B A' B' (m1 : St (world X Y) A) (m2 : St (world X Y) B)
    (f : A -> St (world X Y) A') (g : B -> St (world X Y) B') P Q,
    wsim m1 m2 P -> (forall a b, P a b -> wsim (f a) (g b) Q) -> wsim (bind m1 f) (bind m2 g) Q.
  Proof.
    intros A B A' B' m1 m2 f g P Q H1 H2 w x y w1 w2 Hw E1 E2. apply bind_ok in E1, E2.
    destruct E1 as (a & v1 & E1 & F1), E2 as (b & v2 & E2 & F2).
    destruct (H1 _ _ _ _ _ Hw E1 E2) as (-> & Hv & HP). exact (H2 _ _ HP _ _ _ _ _ Hv F1 F2).
  Qed.

  Definition wstays {A} (m : St (world X Y) A) : Prop :=
    forall w a w', w_clock w = frozen t -> m k w = Ok a w' -> w_clock w' = frozen t.

  Lemma wsim_same : forall A (m : St (world X Y) A), wstays m -> wsim m m eq.
  Proof.
    intros A m H w a b w1 w2 Hw E1 E2. rewrite E1 in E2. injection E2 as <- <-.
    pose proof (H _ _ _ Hw E1). auto.
  Qed.

  Lemma wsim_step : forall A A' B' (m : St (world X Y) A) (f : A -> St (world X Y) A') (g : A -> St (world X Y) B') Q,
    wstays m -> (forall a, wsim (f a) (g a) Q) -> wsim (bind m f) (bind m g) Q.
  Proof. intros. eapply wsim_bind; [apply wsim_same; assumption|]. intros a b <-. auto. Qed.

  Lemma wsim_lift : forall A B (m1 : M A) (m2 : M B) P, sim k t m1 m2 P -> wsim (lift m1) (lift m2) P.
  Proof.
    intros A B m1 m2 P H w a b w1 w2 Hw E1 E2. unfold lift in E1, E2. rewrite Hw in E1, E2.
    destruct (m1 k (frozen t)) as [a' c1| |] eqn:F1; try discriminate E1. injection E1 as <- <-.
    destruct (m2 k (frozen t)) as [b' c2| |] eqn:F2; try discriminate E2. injection E2 as <- <-.
    destruct (H _ _ _ _ F1 F2) as (-> & -> & HP). auto.
  Qed.

  Lemma wstays_lift : forall A (m : M A), stays m -> wstays (lift m).
  Proof.
    intros A m H w a w' Hw E. unfold lift in E. rewrite Hw in E.
    destruct (m k (frozen t)) as [a' c1| |] eqn:F1; try discriminate E. injection E as <- <-. exact (H _ _ _ _ F1).
  Qed.

  Lemma wstays_bind : forall A B (m : St (world X Y) A) (f : A -> St (world X Y) B),
    wstays m -> (forall a, wstays (f a)) -> wstays (bind m f).
  Proof.
    intros A B m f H1 H2 w b w' Hw E. apply bind_ok in E. destruct E as (a & w1 & E1 & E2).
    exact (H2 _ _ _ _ (H1 _ _ _ Hw E1) E2).
  Qed.

  Lemma act_clock : forall (w : world X Y) a, w_clock (act w a) = w_clock w.
  Proof. intros w []; reflexivity. Qed.

  Lemma wstays_interleave : wstays interleave.
  Proof.
    intros w a w' Hw E. unfold interleave in E. injection E as <- <-. cbn [w_clock]. rewrite <- Hw. clear Hw.
    generalize (w_sched w O). intros l. revert w. induction l as [|x l IH]; intros w; cbn [fold_left]; [reflexivity|].
    rewrite IH. apply act_clock.
  Qed.

  Lemma wstays_recv : forall i, wstays (queue_try_recv i).
  Proof.
    intros i. apply wstays_bind; [apply wstays_interleave|]. intros _ w a w' Hw E.
    destruct (chan_try_recv (w_queues w i)). injection E as <- <-. exact Hw.
  Qed.
  Lemma wstays_len : forall i, wstays (queue_len i).
  Proof.
    intros i. apply wstays_bind; [apply wstays_interleave|]. intros _ w a w' Hw E. injection E as <- <-. exact Hw.
  Qed.
  Lemma wstays_mount_recv : forall i, wstays (mount_try_recv i).
  Proof.
    intros i. apply wstays_bind; [apply wstays_interleave|]. intros _ w a w' Hw E.
    destruct (chan_try_recv (w_mounts w i)). injection E as <- <-. exact Hw.
  Qed.

  Lemma wsim_fail : forall A B (P : A -> B -> Prop), wsim (fun _ _ => NoFuel) (fun _ _ => NoFuel) P.
  Proof. intros A B P w a b w1 w2 _ E. discriminate E. Qed.

  Lemma tele_collects : forall n d (p q : tele X) acc, norm_tele t p = norm_tele t q ->
    wsim (tele_collect n d p acc) (tele_collect n d q acc) (alike (norm_tele t)).
  Proof.
    induction n as [|n IH]; intros d p q acc E; cbn [tele_collect].
    - apply wsim_ret. split; auto.
    - pose proof (norm_tele_inv _ _ E) as (_ & _ & _ & _ & E5 & _). rewrite <- E5.
      apply wsim_step; [apply wstays_recv|]. intros [m| |].
      + eapply wsim_bind; [apply wsim_lift; apply tele_messages; exact E|].
        intros [p1 u] [q1 u'] [N Eu]. cbn [fst snd] in N, Eu. subst u'. apply IH. exact N.
      + apply IH. exact E.
      + apply wsim_ret. split; [|reflexivity]. cbn [fst].
        change (tele_disconnect (norm_tele t p) = tele_disconnect (norm_tele t q)). congruence.
  Qed.

  Lemma tele_processes : forall (p q : tele X) n s, norm_tele t p = norm_tele t q ->
    wsim (tele_process p n s) (tele_process q n s) (alike (norm_tele t)).
  Proof.
    intros p q n s E. unfold tele_process.
    pose proof (norm_tele_inv _ _ E) as (_ & _ & _ & _ & _ & _ & _ & _ & _ & E10).
    rewrite <- E10. destruct (tp_disconnected p); [apply wsim_ret; split; auto|].
    apply wsim_step; [apply wstays_lift; apply strategy_decider_stays|]. intros d.
    eapply wsim_bind; [apply tele_collects; exact E|].
    intros [p1 acc] [q1 acc'] [N Eu]. cbn [fst snd] in N, Eu. subst acc'.
    pose proof (norm_tele_inv _ _ N) as (_ & _ & _ & _ & E5 & _). rewrite <- E5.
    apply wsim_step; [apply wstays_len|]. intros e.
    destruct (something_happened _); [|apply wsim_ret; split; auto].
    apply wsim_step; [apply wstays_lift; apply stays_now|]. intros t0. apply wsim_ret. split; [|reflexivity]. cbn [fst].
    change (tele_touch (norm_tele t p1) t0 = tele_touch (norm_tele t q1) t0). congruence.
  Qed.

  Lemma wstays_combine : forall a b : outcome, wstays (combine_with a b).
  Proof.
    intros a b w o w' Hw E. unfold combine_with in E.
    repeat match type of E with bind _ _ _ _ = Ok _ _ => apply bind_ok in E; let x := fresh "x" in
      let w1 := fresh "w" in let E1 := fresh "E" in destruct E as (x & w1 & E1 & E); apply u64_arith_inv in E1;
      destruct E1 as (-> & _) end.
    injection E as <- <-. exact Hw.
  Qed.

  Lemma traverse_collects : forall (f : processor X Y -> St (world X Y) (processor X Y * outcome)) ps qs acc,
    (forall p q, norm_processor t p = norm_processor t q -> wsim (f p) (f q) (alike (norm_processor t))) ->
    map (norm_processor t) ps = map (norm_processor t) qs ->
    wsim (traverse (collect_one f) ps acc) (traverse (collect_one f) qs acc) (alike (map (norm_processor t))).
  Proof.
    intros f ps qs acc H. revert qs acc. induction ps as [|p ps IH]; intros [|q qs] acc E; cbn [map] in E;
      try discriminate E; cbn [traverse].
    - apply wsim_ret. split; reflexivity.
    - injection E as E1 E2. eapply wsim_bind.
      + unfold collect_one. eapply wsim_bind; [apply H; exact E1|].
        intros [p1 o] [q1 o'] [N Eo]. cbn [fst snd] in N, Eo. subst o'.
        apply wsim_step; [apply wstays_combine|]. intros a. apply wsim_ret.
        instantiate (1 := alike (norm_processor t)). split; auto.
      + intros [p1 o] [q1 o'] [N Eo]. cbn [fst snd] in N, Eo. subst o'.
        eapply wsim_bind; [apply IH; exact E2|].
        intros [ps1 o1] [qs1 o'] [Ns Eo]. cbn [fst snd] in Ns, Eo. subst o'.
        apply wsim_ret. split; cbn; congruence.
  Qed.

  Lemma mount_processes : forall f m n,
    (forall p q, norm_processor t p = norm_processor t q -> wsim (f p) (f q) (alike (norm_processor t))) ->
    norm_mount t m = norm_mount t n ->
    wsim (mount_process f m) (mount_process f n) (alike (norm_mount t)).
  Proof.
    intros f [d ps ss] [d' ps' ss'] H E. cbn [norm_mount] in E. injection E as <- Eps Ess. cbn [mount_process].
    eapply wsim_bind; [apply traverse_collects; [exact H|exact Eps]|].
    intros [ps1 o1] [qs1 o'] [Ns Eo]. cbn [fst snd] in Ns, Eo. subst o'.
    destruct (something_happened o1).
    - apply wsim_step; [apply wstays_lift; apply stays_now|]. intros t0. apply wsim_ret. split; [|reflexivity].
      cbn [fst norm_mount]. congruence.
    - apply wsim_ret. split; [|reflexivity]. cbn [fst norm_mount]. congruence.
  Qed.

  Lemma norm_mount_add : forall (m : mount X Y) x,
    norm_mount t (mount_add m x)
    = mount_add (norm_mount t m)
        (match x with MProcessor p => MProcessor (norm_processor t p) | MSnapshooter s => MSnapshooter (norm_snapshooter t s) end).
  Proof. intros [d ps ss] [p|s]; cbn [mount_add norm_mount]; rewrite map_app; reflexivity. Qed.

  Lemma attached_drains : forall n r (m m' : mount X Y), norm_mount t m = norm_mount t m' ->
    wsim (attached_drain n r m) (attached_drain n r m') (alike (norm_mount t)).
  Proof.
    induction n as [|n IH]; intros r m m' E; cbn [attached_drain]; [apply wsim_fail|].
    apply wsim_step; [apply wstays_mount_recv|]. intros [x| |].
    - apply IH. rewrite !norm_mount_add. congruence.
    - apply wsim_ret. split; auto.
    - apply wsim_ret. split; auto.
  Qed.

  Lemma attached_takes : forall r (m m' : mount X Y), norm_mount t m = norm_mount t m' ->
    wsim (attached_take r m) (attached_take r m') (fun a b => fst a = fst b /\ norm_mount t (snd a) = norm_mount t (snd b)).
  Proof.
    intros [r|] m m' E; cbn [attached_take]; [|apply wsim_ret; auto].
    intros w a b w1 w2 Hw E1 E2.
    assert (H : wsim (let* '(m, still_connected) := attached_drain (fuel k) r m in
                      ret (if still_connected : bool then Some r else None, m))
                  (let* '(m, still_connected) := attached_drain (fuel k) r m' in
                      ret (if still_connected : bool then Some r else None, m))
                  (fun a b => fst a = fst b /\ norm_mount t (snd a) = norm_mount t (snd b))).
    { eapply wsim_bind; [apply attached_drains; exact E|]. intros [x c] [y c'] [N Ec]. cbn [fst snd] in N, Ec. subst c'.
      apply wsim_ret. auto. }
    exact (H w a b w1 w2 Hw E1 E2).
  Qed.

  Lemma processor_processes : forall n (p q : processor X Y) max s, norm_processor t p = norm_processor t q ->
    wsim (processor_process n p max s) (processor_process n q max s) (alike (norm_processor t)).
  Proof.
    induction n as [|n IH]; intros p q max s E; cbn [processor_process]; [apply wsim_fail|].
    destruct p as [p|m|r m|h|u], q as [q|m'|r' m'|h'|v]; cbn [norm_processor] in E; try discriminate E.
    - apply PTele_inj in E. eapply wsim_bind; [apply tele_processes; exact E|].
      intros [p1 o] [q1 o'] [N Eo]. cbn [fst snd] in N, Eo. subst o'. apply wsim_ret. split; [|reflexivity].
      cbn [fst norm_processor]. congruence.
    - injection E as E. eapply wsim_bind; [apply mount_processes; [intros; apply IH; assumption|exact E]|].
      intros [p1 o] [q1 o'] [N Eo]. cbn [fst snd] in N, Eo. subst o'. apply wsim_ret. split; [|reflexivity].
      cbn [fst norm_processor]. congruence.
    - injection E as <- E. eapply wsim_bind; [apply attached_takes; exact E|].
      intros [r1 m1] [r2 m2] [Er Em]. cbn [fst snd] in Er, Em. subst r2.
      eapply wsim_bind; [apply mount_processes; [intros; apply IH; assumption|exact Em]|].
      intros [p1 o] [q1 o'] [N Eo]. cbn [fst snd] in N, Eo. subst o'. apply wsim_ret. split; [|reflexivity].
      cbn [fst norm_processor]. congruence.
    - injection E as <-. apply wsim_ret. split; reflexivity.
    - injection E as <-. apply wsim_step; [apply wstays_lift; apply (pq_proc_process Y HY)|]. intros [u1 o].
      apply wsim_ret. split; reflexivity.
  Qed.
End Show.

(** ** Histories *)

Section Results.
  Context {X : ext} {Y : pext} (HX : parts_quiet X) (HY : processors_quiet Y).

  Lemma handling_reads : forall A O (nf : Z -> A -> A) (handle : A -> O -> M (A * Z)) put k,
    (forall t t' x, t <= t' -> nf t' (nf t x) = nf t' x) ->
    (forall t x, acts k t (nf t) handle x) ->
    (forall t x, shows k t (nf t) put x) ->
    forall x, insertions_do_not_matter (handling handle put k) operation_reads x.
  Proof.
    intros A O nf handle put k Hn Ha Hs.
    apply reads_do_not_matter with (E := fun t x y => nf t x = nf t y).
    - reflexivity.
    - intros t t' x y Ht E. rewrite <- (Hn t t' x Ht), <- (Hn t t' y Ht). congruence.
    - intros t x y [o|de s] x' y' r r' E E1 E2; cbn [handling] in E1, E2.
      + destruct (handle x o k (frozen t)) as [[a n] c| |] eqn:F1; try discriminate E1. injection E1 as <- <-.
        destruct (handle y o k (frozen t)) as [[b m] d| |] eqn:F2; try discriminate E2. injection E2 as <- <-.
        destruct (Ha t x y o E _ _ _ _ F1 F2) as (_ & _ & N & Em). cbn in N, Em. subst m. auto.
      + destruct (put x de s k (frozen t)) as [[a n] c| |] eqn:F1; try discriminate E1. injection E1 as <- <-.
        destruct (put y de s k (frozen t)) as [[b m] d| |] eqn:F2; try discriminate E2. injection E2 as <- <-.
        destruct (Hs t x y de s E _ _ _ _ F1 F2) as (_ & _ & N1 & N2 & Em). cbn in N1, N2, Em. subst m.
        split; congruence.
    - intros t x y [o|de s] y' r E Hr E2; [discriminate Hr|]. cbn [handling] in E2.
      destruct (put y de s k (frozen t)) as [[b m] d| |] eqn:F2; try discriminate E2. injection E2 as <- <-.
      destruct (Hs t y y de s eq_refl _ _ _ _ F2 F2) as (_ & _ & N1 & _). cbn in N1. congruence.
  Qed.

  Lemma instrument_reads : forall k (i : instrument X),
    insertions_do_not_matter (handling instrument_update instrument_put k) operation_reads i.
  Proof.
    intros k. apply handling_reads with (nf := fun t => norm_instrument t).
    - intros. apply norm_instrument_norm. assumption.
    - intros t x. apply instrument_acts. exact HX.
    - intros t x. apply instrument_shows. exact HX.
  Qed.

  Lemma panel_reads : forall k (p : panel X),
    insertions_do_not_matter (handling panel_handle panel_put k) operation_reads p.
  Proof.
    intros k. apply handling_reads with (nf := fun t => norm_panel t).
    - intros t t' x Ht. apply (tree_norm t t' Ht).
    - intros t x. apply (tree_acts k t HX).
    - intros t x. apply (tree_shows k t HX).
  Qed.

  Lemma handler_reads : forall k (h : handler X),
    insertions_do_not_matter (handling handler_handle handler_put k) operation_reads h.
  Proof.
    intros k. apply handling_reads with (nf := fun t => norm_handler t).
    - intros t t' x Ht. apply (tree_norm t t' Ht).
    - intros t x. apply (tree_acts k t HX).
    - intros t x. apply (tree_shows k t HX).
  Qed.

  Lemma cockpit_reads : forall k (c : cockpit X),
    insertions_do_not_matter (handling cockpit_handle cockpit_put k) operation_reads c.
  Proof.
    intros k. apply handling_reads with (nf := fun t => norm_cockpit t).
    - intros t t' x Ht. apply (tree_norm t t' Ht).
    - intros t x. apply (tree_acts k t HX).
    - intros t x. apply (tree_shows k t HX).
  Qed.

  Definition same_rest (w v : world X Y) : Prop :=
    w_queues w = w_queues v /\ w_mounts w = w_mounts v /\ w_sched w = w_sched v.

  Lemma same_rest_at : forall w v t, same_rest w v -> at_time w t = at_time v t.
  Proof. intros w v t (E1 & E2 & E3). unfold at_time. congruence. Qed.

  Lemma processor_reads : forall k depth (p : processor X Y) w,
    insertions_do_not_matter (serving k depth) request_reads (p, w).
  Proof.
    intros k depth p w.
    apply reads_do_not_matter with
      (E := fun t x y => norm_processor t (fst x) = norm_processor t (fst y) /\ same_rest (snd x) (snd y)).
    - intros t x. repeat split.
    - intros t t' x y Ht [E Hw]. split; [|exact Hw]. destruct (processor_norm X Y t t' Ht) as [Hn _].
      rewrite <- (Hn (fst x)), <- (Hn (fst y)). congruence.
    - intros t [x v] [y u] [max s|de s] x' y' r r' [E Hw] E1 E2; cbn [serving fst snd] in *;
        pose proof (same_rest_at _ _ t Hw) as Hat; rewrite <- Hat in E2.
      + destruct (processor_process depth x max s k (at_time v t)) as [[a n] c| |] eqn:F1; try discriminate E1.
        destruct (processor_process depth y max s k (at_time v t)) as [[b m] d| |] eqn:F2; try discriminate E2.
        injection E1 as <- <-. injection E2 as <- <-.
        destruct (processor_processes k t HX HY depth x y max s E _ _ _ _ _ (eq_refl : w_clock (at_time v t) = _) F1 F2)
          as (-> & _ & N & Em). cbn [fst snd] in N, Em. subst m. repeat split. exact N.
      + unfold lift in E1, E2. change (w_clock (at_time v t)) with (frozen t) in E1, E2.
        destruct (processor_put x de s k (frozen t)) as [[a n] c| |] eqn:F1; try discriminate E1.
        destruct (processor_put y de s k (frozen t)) as [[b m] d| |] eqn:F2; try discriminate E2.
        injection E1 as <- <-. injection E2 as <- <-.
        destruct (processor_shows k t HX HY) as [Hs _].
        destruct (Hs x y de s E _ _ _ _ F1 F2) as (-> & -> & N1 & N2 & Em). cbn [fst snd] in N1, N2, Em. subst m.
        split; [reflexivity|]. split; [cbn; congruence|]. repeat split.
    - intros t [x v] [y u] [max s|de s] y' r [E Hw] Hr E2; [discriminate Hr|]. cbn [serving fst snd] in *.
      unfold lift in E2. change (w_clock (at_time u t)) with (frozen t) in E2.
      destruct (processor_put y de s k (frozen t)) as [[b m] d| |] eqn:F2; try discriminate E2.
      injection E2 as <- <-. destruct (processor_shows k t HX HY) as [Hs _].
      destruct (Hs y y de s eq_refl _ _ _ _ F2 F2) as (_ & _ & N1 & _ & _). cbn [fst snd] in *.
      split; [congruence|]. exact Hw.
  Qed.
End Results.
